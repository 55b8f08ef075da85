(** Model of server/internal/pkg/hash/ringhash.go. *)
From Verif Require Import M_Bytes.
From Coq Require Import Permutation Sorted.
Open Scope N_scope.

(** Go string comparison [a < b], bytewise. *)
Fixpoint str_lt (a b : bytes) : bool :=
  match a, b with
  | _, [] => false
  | [], _ :: _ => true
  | x :: a, y :: b => if x <? y then true else if y <? x then false else str_lt a b
  end.

(** ringhash.go:31-34 [elem] *)
Record elem := mkElem { e_key : bytes; e_hash : N }.
(** ringhash.go:40-49 [Less] *)
Definition less (a b : elem) : bool :=
  if e_hash a <? e_hash b then true
  else if e_hash a =? e_hash b then str_lt (e_key a) (e_key b)
  else false.

(** What [sort.Sort] does is a function argument; [sorts] is what it promises:
    a rearrangement in which no element is less than an earlier one. *)
Definition not_less (a b : elem) : Prop := less b a = false.
Definition sorts (f : list elem -> list elem) : Prop :=
  forall l, Permutation l (f l) /\ StronglySorted not_less (f l).

(** ringhash.go:52-58 [Ring].  The hash function and [strconv.Itoa] are
    arguments. *)
Record ring := mkRing { r_keys : list elem; r_replicas : nat; r_hash : bytes -> N; r_itoa : nat -> bytes;
                        r_sort : list elem -> list elem }.
Definition newRing (replicas : nat) (h : bytes -> N) (itoa : nat -> bytes) (srt : list elem -> list elem) : ring :=
  mkRing [] replicas h itoa srt.

(** ringhash.go:82-87: the points of one node *)
Definition points (replicas : nat) (h : bytes -> N) (itoa : nat -> bytes) (key : bytes) : list elem :=
  map (fun i => mkElem key (h (itoa i ++ key))) (seq 0 replicas).

(** ringhash.go:81-92 [Add]; the signature is a function of the sorted points
    (lines 92-107) and is not kept. *)
Definition ring_add (r : ring) (keys : list bytes) : ring :=
  mkRing (r_sort r (r_keys r ++ flat_map (points (r_replicas r) (r_hash r) (r_itoa r)) keys))
         (r_replicas r) (r_hash r) (r_itoa r) (r_sort r).

(** [sort.Search] of the Go library: i, j := 0, n; halve while i < j. *)
Fixpoint search (fuel : nat) (f : nat -> bool) (i j : nat) : nat :=
  match fuel with
  | O => i
  | S k => if Nat.ltb i j
           then let h := Nat.div2 (i + j) in
                if f h then search k f i h else search k f (S h) j
           else i
  end.

(** ringhash.go:126-129 *)
Definition at_or_after (hash : N) (key : bytes) (el : elem) : bool :=
  ((hash <? e_hash el) || ((e_hash el =? hash) && negb (str_lt (e_key el) key)))%bool.

(** ringhash.go:115-137 [Get] *)
Definition ring_get (r : ring) (key : bytes) : bytes :=
  match r_keys r with
  | [] => []
  | e0 :: _ =>
      let n := length (r_keys r) in
      let hash := r_hash r key in
      let idx := search (S n) (fun i => at_or_after hash key (nth i (r_keys r) e0)) 0 n in
      let idx := if Nat.eqb idx n then O else idx in
      e_key (nth idx (r_keys r) e0)
  end.
