(** Specification of the ring: the owner of a key, from the set of points. *)
From Verif Require Import M_Bytes M_Ring.
Open Scope N_scope.

Definition is_point (replicas : nat) (h : bytes -> N) (itoa : nat -> bytes) (nodes : list bytes) (n : bytes) (v : N) : Prop :=
  In n nodes /\ exists i, (i < replicas)%nat /\ v = h (itoa i ++ n).

(** Position on the circle: hash, then name. *)
Definition before (v1 : N) (n1 : bytes) (v2 : N) (n2 : bytes) : Prop :=
  v1 < v2 \/ (v1 = v2 /\ (n1 = n2 \/ str_lt n1 n2 = true)).

(** [o] owns [key]: its point at [v] is the first one at or after the key, or
    no point is and it is the first of all. *)
Definition owns (replicas : nat) (h : bytes -> N) (itoa : nat -> bytes) (nodes : list bytes) (key o : bytes) : Prop :=
  exists v, is_point replicas h itoa nodes o v /\
    ((before (h key) key v o /\
      forall n' v', is_point replicas h itoa nodes n' v' -> before (h key) key v' n' -> before v o v' n')
     \/
     ((forall n' v', is_point replicas h itoa nodes n' v' -> ~ before (h key) key v' n') /\
      forall n' v', is_point replicas h itoa nodes n' v' -> before v o v' n')).

(** A ring after several calls of [Add]. *)
Definition built (replicas : nat) (h : bytes -> N) (itoa : nat -> bytes) (srt : list elem -> list elem)
           (adds : list (list bytes)) : ring :=
  fold_left ring_add adds (newRing replicas h itoa srt).
