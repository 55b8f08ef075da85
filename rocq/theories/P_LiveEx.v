(* Puts and Gets at the same time as a Sync: runs. *)

From Coq Require Import List Arith Bool Lia.
Import ListNotations.
From Verif Require Import M_WinBlock M_Live S_Live.

Definition put1 (h i : nat) : list levent := [EPut h; EGo i; EGo i; EGo i].
Definition sy (k : nat) : list levent := repeat (ESync (fun _ => true) 0) k.
Definition many : list levent := flat_map (put1 1) (seq 0 335).

Definition ticks_ok (st : lst) : bool :=
  forallb (fun x => match x with LMem _ _ | LWin _ _ => false | _ => true end) (l_puts st) &&
  match l_sync st with YSnap _ => false | _ => true end.
Fixpoint timelyb (W h0 : nat) (st : lst) (es : list levent) : bool :=
  match es with
  | [] => true
  | e :: r =>
      match e with ETick => ticks_ok st | EPut h => negb (Nat.eqb h h0) | _ => true end && timelyb W h0 (lstep W st e) r
  end.
Lemma timelyb_ok W h0 : forall es st, timelyb W h0 st es = true -> timely W h0 st es.
Proof.
  induction es as [|e r IH]; intros st H; [exact I|]. cbn [timelyb] in H. apply andb_prop in H as [H Hr]. cbn [timely]. split; [|now apply IH].
  destruct e; try exact I.
  - destruct (Nat.eqb_spec h h0); [discriminate|assumption].
  - unfold ticks_ok in H. apply andb_prop in H as [H1 H2]. rewrite forallb_forall in H1. split.
    + intros x Hx. specialize (H1 x Hx). destruct x; cbn; try discriminate; auto.
    + intros k E. rewrite E in H2. discriminate.
Qed.

Definition twice_run : list levent := put1 1 0 ++ [ETick] ++ sy 6 ++ [EGet 1; ERead 0; ERead 0; ERead 0].
Lemma twice W : 1 < W -> exists es, timely W 0 (lstart 0) es /\ let st := lrun W (lstart 0) es in
  l_puts st = [LDone 0 1] /\ nth_error (l_gets st) 0 = Some (GDone 1 [0; 0]).
Proof.
  intros HW. destruct W as [|[|W]]; try lia. exists twice_run. split; [apply timelyb_ok; vm_compute; reflexivity|].
  vm_compute. auto.
Qed.

Lemma missed W : 1 < W -> exists es es', timely W 0 (lstart 0) (es ++ EGet 1 :: es') /\
  returned (lrun W (lstart 0) es) 1 0 /\ l_gets (lrun W (lstart 0) es) = [] /\
  nth_error (l_gets (lrun W (lstart 0) (es ++ EGet 1 :: es'))) 0 = Some (GDone 1 []).
Proof.
  intros HW. destruct W as [|[|W]]; try lia. exists (put1 1 0 ++ [ETick]), (ERead 0 :: sy 10 ++ [ERead 0; ERead 0]).
  split; [apply timelyb_ok; vm_compute; reflexivity|]. split; [exists 0; vm_compute; reflexivity|]. split; vm_compute; reflexivity.
Qed.

Definition all_returned (st : lst) (h n : nat) : bool :=
  forallb (fun i => match nth_error (l_puts st) i with Some (LDone _ k) => Nat.eqb k h | _ => false end) (seq 0 n).
Lemma all_returned_ok st h n : all_returned st h n = true -> forall i, i < n -> returned st h i.
Proof.
  intros H i Hi. unfold all_returned in H. rewrite forallb_forall in H. specialize (H i). rewrite in_seq in H.
  assert (Hr := H (conj (Nat.le_0_l i) Hi)). destruct (nth_error (l_puts st) i) as [[| | |t k]|] eqn:E; try discriminate.
  apply Nat.eqb_eq in Hr. subst k. now exists t.
Qed.

Definition hidden_run : list levent := many ++ [ETick] ++ sy 10 ++ put1 1 335 ++ [ETick] ++ sy 5.
Lemma hidden : exists es, timely entriesPerWindowBlock 0 (lstart 0) es /\ let st := lrun entriesPerWindowBlock (lstart 0) es in
  (forall i, i < 336 -> returned st 1 i) /\ get_now st 1 = [335].
Proof.
  exists hidden_run. split; [apply timelyb_ok; vm_compute; reflexivity|]. split; [apply all_returned_ok; vm_compute; reflexivity|vm_compute; reflexivity].
Qed.

Definition stays_run : list levent := put1 2 0 ++ sy 1 ++ put1 1 1 ++ [ETick] ++ sy 10.
Lemma stays W : 1 < W -> exists es es', 
  (let st := lrun W (lstart 0) es in l_sync st = YIdle /\ l_puts st = [LDone 0 2; LDone 0 1] /\ get_now st 1 = [1; 1]) /\
  (let st := lrun W (lstart 0) (es ++ es') in l_sync st = YIdle /\ In (ETick) es' /\ l_puts st = [LDone 0 2; LDone 0 1; LDone 2 1] /\ get_now st 1 = [1; 2; 1]).
Proof.
  intros HW. destruct W as [|[|[|W]]]; try lia; exists stays_run, ([ETick] ++ put1 1 2 ++ [ETick] ++ sy 12); vm_compute; auto 10.
Qed.

Definition abort_run : list levent :=
  many ++ [ETick] ++ sy 10 ++ put1 1 335 ++ [EPut 2; EGo 336; EGo 336; ETick] ++ sy 6 ++ [EGo 336] ++ sy 12.
Lemma aborted : exists es, let st := lrun entriesPerWindowBlock (lstart 0) es in
  l_sync st = YIdle /\ (forall i, i < 336 -> returned st 1 i) /\ returned st 2 336 /\ get_now st 1 = [] /\ get_now st 2 = [336].
Proof.
  exists abort_run. cbv zeta. split; [vm_compute; reflexivity|]. split; [apply all_returned_ok; vm_compute; reflexivity|].
  split; [exists 1; vm_compute; reflexivity|]. split; vm_compute; reflexivity.
Qed.

(* A timely run with Puts and a Get between the steps of a Sync. *)
Definition mixed_run : list levent :=
  put1 1 0 ++ put1 2 1 ++ [ETick] ++ sy 4 ++ put1 1 2 ++ [EGet 1] ++ sy 4 ++ [ERead 0; ERead 0] ++ [EPut 3; EGo 3] ++ sy 3 ++ [ERead 0].
Lemma mixed : timely 335 0 (lstart 0) mixed_run /\ let st := lrun 335 (lstart 0) mixed_run in
  settled st /\ returned st 1 0 /\ returned st 1 2 /\ get_now st 1 = [2; 0] /\ nth_error (l_gets st) 0 = Some (GDone 1 [0; 2; 0]).
Proof.
  split; [apply timelyb_ok; vm_compute; reflexivity|]. cbv zeta. split; [vm_compute; exact I|]. split; [exists 0; vm_compute; reflexivity|].
  split; [exists 1; vm_compute; reflexivity|]. split; vm_compute; reflexivity.
Qed.
