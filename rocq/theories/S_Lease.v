(** Specification vocabulary for free space: ranges of bytes and how often a
    byte is covered. *)
From Coq Require Import List ZArith.
Import ListNotations.
Open Scope Z_scope.

Notation range := (Z * N)%type.                (* offset, length *)
Definition in_range (x : Z) (r : range) : Prop := fst r <= x < fst r + Z.of_N (snd r).
Definition in_rangeb (x : Z) (r : range) : bool :=
  ((fst r <=? x) && (x <? fst r + Z.of_N (snd r)))%bool.

(** How many ranges of the list contain byte [x]. *)
Definition cover (l : list range) (x : Z) : nat := length (filter (in_rangeb x) l).

(** No byte belongs to two ranges. *)
Definition disjoint (l : list range) : Prop := forall x, (cover l x <= 1)%nat.
Definition is_free (l : list range) (x : Z) : Prop := exists r, In r l /\ in_range x r.

(** Total number of bytes in the ranges. *)
Definition total (l : list range) : Z := fold_right (fun r a => Z.of_N (snd r) + a) 0 l.
