(** Consistent hashing: C37. *)
From Verif Require Import M_Bytes M_Consistent S_Consistent P_Consistent.
Open Scope N_scope.

(** C37: in every table that came from full ones by removals and additions, of
    which at least one block is left, every key is placed on one block in use. *)
Theorem C37_working_partial : forall a c R key, table a c R -> exists b, placed c key b /\ b < a /\ ~ In b R.
Proof. exact find_working. Qed.
Print Assumptions C37_working_partial.
(** A removal moves only the keys of the removed block. *)
Theorem C37_remove_partial : forall a c R b c' key x, table a c R -> b < a -> ~ In b R -> N.of_nat (length R) + 1 < a -> removeBlock c b = Some c' ->
  placed c key x -> x <> b -> placed c' key x.
Proof. exact remove_moves. Qed.
Print Assumptions C37_remove_partial.
(** An addition brings back the block that was removed last, and moves keys only
    to it. *)
Theorem C37_add_partial : forall a c b R, table a c (b :: R) -> exists c', addBlock c = Some (c', b) /\ table a c' R /\
  forall key x, placed c key x -> placed c' key x \/ placed c' key b.
Proof. exact add_moves. Qed.
Print Assumptions C37_add_partial.
(** Removal and addition do not panic and cancel out. *)
Theorem C37_undo_partial : forall a c R b, table a c R -> b < a -> ~ In b R -> N.of_nat (length R) + 1 < a ->
  exists c', removeBlock c b = Some c' /\ addBlock c' = Some (c, b).
Proof. exact remove_undo. Qed.
Print Assumptions C37_undo_partial.
(** With all blocks in use, as in the database, FindBlock needs no round; of a
    table of 100000 blocks (mutex.go, memdb/time_lock.go) a third is never used. *)
Theorem C37_full : forall a c key, a < 2 ^ 32 -> initConsistent a a = Some c -> exists b, b < a /\ b < 65536 /\ forall fuel, findBlock c key fuel = Found b.
Proof. exact find_full. Qed.
Print Assumptions C37_full.

(** C37 is false for tables that start with unused blocks: after adding one and
    removing another FindBlock loops for ever. *)
Theorem C37_grow_refuted : exists c c1 b c2 key, initConsistent 2 1 = Some c /\ addBlock c = Some (c1, b) /\ removeBlock c1 0 = Some c2 /\ hangs c2 key.
Proof. exact grow_bad. Qed.
Print Assumptions C37_grow_refuted.
(** It is false when the last block is removed: it is still given, and removing
    it again panics. *)
Theorem C37_last_refuted : exists c c1, initConsistent 1 1 = Some c /\ removeBlock c 0 = Some c1 /\ (forall key, placed c1 key 0) /\ removeBlock c1 0 = None.
Proof. exact last_bad. Qed.
Print Assumptions C37_last_refuted.
(** FindPreviousBlock changes the table: afterwards a key is placed on the block
    that was removed. *)
Theorem C37_previous_refuted : exists c c1 c2 key b, initConsistent 2 2 = Some c /\ removeBlock c 0 = Some c1 /\
  findPrevious c1 key 5 = Some (c2, Found b) /\ placed c1 key 1 /\ placed c2 key 0.
Proof. exact previous_bad. Qed.
Print Assumptions C37_previous_refuted.

(** Six blocks, of which 2, 5 and 0 were removed. *)
Example C37_example : table 6 six [0; 5; 2] /\ map (fun k => findBlock six k 9) [1; 2; 3; 4; 5; 6; 7; 8] = map Found [1; 1; 4; 4; 4; 4; 1; 1].
Proof. split; [exact six_table|]. vm_compute. reflexivity. Qed.
