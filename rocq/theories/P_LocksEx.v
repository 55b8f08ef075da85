(* Goroutines that wait for ever (M_Locks.v). *)

From Coq Require Import List Arith Bool Lia.
Import ListNotations.
From Verif Require Import M_Locks S_Locks.

(* The Put that adds a first key to a filter, up to the lock of the store; the
   other call takes the lock of the store; the Put asks for it. *)
Definition put_first : memcall := MPut 0 (Some (0, 0, true)).

Definition meet : list nat := [0; 0; 0; 0; 0; 0; 0; 0; 0; 0; 0; 0; 1; 0].

Lemma stuck_two ts : length ts = 2 -> step ts 0 = None -> step ts 1 = None -> stuck ts.
Proof.
  intros L A B i. destruct i as [|[|i]]; [exact A|exact B|].
  unfold step. destruct (nth_error ts (S (S i))) eqn:N; [|reflexivity].
  assert (nth_error ts (S (S i)) <> None) by congruence.
  apply nth_error_Some in H. lia.
Qed.

Definition met (c : memcall) : list thread :=
  match run (goroutines [mem_locks put_first; mem_locks c]) meet with Some ts => ts | None => [] end.

Lemma size_waits : exists is ts,
  run (goroutines [mem_locks put_first; mem_locks (MSize [0])]) is = Some ts /\
  stuck ts /\ Forall (fun t => th_prog t <> []) ts.
Proof.
  exists meet, (met (MSize [0])). split; [vm_compute; reflexivity|]. split.
  - apply stuck_two; vm_compute; reflexivity.
  - apply Forall_forall. intros t I. vm_compute in I.
    destruct I as [<-|[<-|[]]]; discriminate.
Qed.

Lemma keys_waits : exists is ts,
  run (goroutines [mem_locks put_first; mem_locks (MKeys [0])]) is = Some ts /\
  stuck ts /\ Forall (fun t => th_prog t <> []) ts.
Proof.
  exists meet, (met (MKeys [0])). split; [vm_compute; reflexivity|]. split.
  - apply stuck_two; vm_compute; reflexivity.
  - apply Forall_forall. intros t I. vm_compute in I.
    destruct I as [<-|[<-|[]]]; discriminate.
Qed.

(* Close, then a call of Sync. *)
Lemma sync_waits work : exists is ts t,
  run (goroutines [db_locks DClose; db_locks (DSync work)]) is = Some ts /\
  stuck ts /\ nth_error ts 0 = Some (Th [] [(Sync, W)] false) /\
  nth_error ts 1 = Some t /\ waits_for Sync t.
Proof.
  exists [0; 0; 0; 0; 0],
    [Th [] [(Sync, W)] false; start (db_locks (DSync work))],
    (start (db_locks (DSync work))).
  split.
  - destruct work as [[[t n] bs]|]; vm_compute; reflexivity.
  - split; [apply stuck_two; [reflexivity| |]|].
    + destruct work as [[[t n] bs]|]; reflexivity.
    + destruct work as [[[t n] bs]|]; reflexivity.
    + split; [reflexivity|]. split; [reflexivity|]. split; [|reflexivity].
      destruct work as [[[t n] bs]|]; (eexists; eexists; reflexivity).
Qed.
