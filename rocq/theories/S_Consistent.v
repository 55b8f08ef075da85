(** Histories of a consistent hash table, and where keys are placed. *)
From Verif Require Import M_Bytes M_Consistent.
Open Scope N_scope.

(** FindBlock ends and gives [b]. *)
Definition placed (c : anchor) (key b : N) : Prop := exists n, forall fuel, (n <= fuel)%nat -> findBlock c key fuel = Found b.
(** FindBlock does not end. *)
Definition hangs (c : anchor) (key : N) : Prop := forall fuel, findBlock c key fuel = More.

(** Tables of [a] blocks, all in use at first; the second argument lists the blocks
    that are not in use, the last one removed first.  At least one block stays. *)
Inductive table (a : N) : anchor -> list N -> Prop :=
| tb_init c : a <= 65535 -> initConsistent a a = Some c -> table a c []
| tb_remove c R b c' : table a c R -> b < a -> ~ In b R -> N.of_nat (length R) + 1 < a -> removeBlock c b = Some c' -> table a c' (b :: R)
| tb_again c R b c' : table a c R -> In b R -> removeBlock c b = Some c' -> table a c' R
| tb_add c b R c' x : table a c (b :: R) -> addBlock c = Some (c', x) -> table a c' R.
