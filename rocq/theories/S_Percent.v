(** What percentiles and means of a part should be. *)
From Verif Require Import M_Bytes S_Streams.
Open Scope nat_scope.

(** [k] is the whole number nearest to n*a/b, the larger of two. *)
Definition nearest (n a b k : nat) : Prop := 2 * b * k <= 2 * a * n + b < 2 * b * (k + 1).
(** [m] is the mean of [l], rounded down. *)
Definition mean_of (m : Z) (l : list Z) : Prop :=
  l <> [] /\ (m * Z.of_nat (length l) <= total l < (m + 1) * Z.of_nat (length l))%Z.
(** Every one of [lo] is at most every one of [hi]. *)
Definition all_below (lo hi : list Z) : Prop := forall x y, In x lo -> In y hi -> (x <= y)%Z.
