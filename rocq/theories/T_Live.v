(* C104: Puts and Gets at the same time as a Sync. *)

From Coq Require Import List Arith Lia.
Import ListNotations.
From Verif Require Import M_WinBlock M_Live S_Live P_LiveSync P_LiveEx.

(* In any order of the steps of Puts, Gets and Syncs in which no time ends inside a
   Put nor between the two first statements of a Sync: a Get that is not interrupted
   gives every message returned to the callers of Put unless the Sync is between its
   first change of an offset and its write of the window, and gives it once if the
   Sync is not between this write and the release of the entries.  Missing: Gets whose
   own steps are apart, times that end elsewhere (both false, below). *)
Theorem C104_partial W h0 es : timely W h0 (lstart h0) es -> let st := lrun W (lstart h0) es in
  (forall h i, not_writing st -> returned st h i -> In i (get_now st h)) /\
  (forall h, settled st -> NoDup (get_now st h)).
Proof. exact (fun Ht => conj (fun h i => live_all W h0 es h i Ht) (fun h => live_once W h0 es h Ht)). Qed.
Print Assumptions C104_partial.

(* Whatever the steps between those of a Get, it gives messages of its topic only. *)
Theorem C104_only_partial W h0 es : timely W h0 (lstart h0) es -> let st := lrun W (lstart h0) es in
  forall j h l i, nth_error (l_gets st) j = Some (GDone h l) -> In i l -> put_on st h i.
Proof. exact (fun Ht j h l i => live_only W h0 es j h l i Ht). Qed.
Print Assumptions C104_only_partial.

(* A Get while a Sync runs can give a message twice. *)
Theorem C104_twice_refuted W : 1 < W -> exists es, timely W 0 (lstart 0) es /\ let st := lrun W (lstart 0) es in
  l_puts st = [LDone 0 1] /\ nth_error (l_gets st) 0 = Some (GDone 1 [0; 0]).
Proof. exact (twice W). Qed.
Print Assumptions C104_twice_refuted.

(* A Get while a Sync runs can miss a message whose Put returned before it began. *)
Theorem C104_miss_refuted W : 1 < W -> exists es es', timely W 0 (lstart 0) (es ++ EGet 1 :: es') /\
  returned (lrun W (lstart 0) es) 1 0 /\ l_gets (lrun W (lstart 0) es) = [] /\
  nth_error (l_gets (lrun W (lstart 0) (es ++ EGet 1 :: es'))) 0 = Some (GDone 1 []).
Proof. exact (missed W). Qed.
Print Assumptions C104_miss_refuted.

(* ... and all the messages of its topic that are on disk. *)
Theorem C104_hidden_refuted : exists es, timely entriesPerWindowBlock 0 (lstart 0) es /\
  let st := lrun entriesPerWindowBlock (lstart 0) es in
  (forall i, i < 336 -> returned st 1 i) /\ get_now st 1 = [335].
Proof. exact hidden. Qed.
Print Assumptions C104_hidden_refuted.

(* If a time ends between the two first statements of a Sync, a message can stay
   twice in its topic when the Sync has ended, and after another Sync. *)
Theorem C104_stays_refuted W : 1 < W -> exists es es',
  (let st := lrun W (lstart 0) es in l_sync st = YIdle /\ l_puts st = [LDone 0 2; LDone 0 1] /\ get_now st 1 = [1; 1]) /\
  (let st := lrun W (lstart 0) (es ++ es') in
     l_sync st = YIdle /\ In ETick es' /\ l_puts st = [LDone 0 2; LDone 0 1; LDone 2 1] /\ get_now st 1 = [1; 2; 1]).
Proof. exact (stays W). Qed.
Print Assumptions C104_stays_refuted.

(* If a time ends inside the first Put of a topic, the Sync can fail; another topic
   then loses its messages when a later Sync has gone through. *)
Theorem C104_abort_refuted : exists es, let st := lrun entriesPerWindowBlock (lstart 0) es in
  l_sync st = YIdle /\ (forall i, i < 336 -> returned st 1 i) /\ returned st 2 336 /\
  get_now st 1 = [] /\ get_now st 2 = [336].
Proof. exact aborted. Qed.
Print Assumptions C104_abort_refuted.

(* A run that meets the hypotheses: Puts, and a Get, between the steps of a Sync. *)
Example C104_example : timely 335 0 (lstart 0) mixed_run /\ let st := lrun 335 (lstart 0) mixed_run in
  settled st /\ returned st 1 0 /\ returned st 1 2 /\ get_now st 1 = [2; 0] /\
  nth_error (l_gets st) 0 = Some (GDone 1 [0; 2; 0]).
Proof. exact mixed. Qed.
