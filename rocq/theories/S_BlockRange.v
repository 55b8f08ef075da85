(** Specification of block ranges. *)
From Coq Require Import List ZArith.
Import ListNotations.
Open Scope Z_scope.

Fixpoint zseq (a : Z) (n : nat) : list Z :=
  match n with O => [] | S n' => a :: zseq (a + 1) n' end.

(** The block numbers a part stands for: one block, or first to last. *)
Definition expand (part : list Z) : list Z :=
  match part with
  | [a] => [a]
  | [a; z] => zseq a (Z.to_nat (z - a + 1))
  | _ => []
  end.

Definition good_part (part : list Z) : Prop :=
  match part with
  | [a] => True
  | [a; z] => a < z
  | _ => False
  end.

Definition int32_ok (z : Z) : Prop := - 2 ^ 31 <= z < 2 ^ 31.
