(* What an added topic can rely on. *)

From Coq Require Import List Arith Bool.
Import ListNotations.
From Verif Require Import M_TrieRace.

(* The call of goroutine [k], for topic [h], has returned. *)
Definition added (st : tst) (k h : nat) : Prop := nth_error (t_adds st) k = Some (ADone h).

(* A lookup of the topic finds it. *)
Definition found (st : tst) (h : nat) (parts : list nat) : Prop :=
  exists n x, go_down (t_nodes st) 0 parts = Some n /\ nth_error (t_nodes st) n = Some x /\
    In h (tn_topics x).

(* In the run a goroutine put a new node at [path] although there was one
   already. *)
Definition replaced (shard : nat -> nat) (parts : nat -> list nat) (es : list tevent)
  (path : list nat) : Prop :=
  exists es1 k es2 h before p todo curr n, es = es1 ++ EStep k :: es2 /\
    nth_error (t_adds (trun shard parts tstart es1)) k = Some (ASet h before p todo curr) /\
    nth_error (t_nodes (trun shard parts tstart es1)) curr = Some n /\
    kid (tn_kids n) p <> None /\ path = before ++ [p].
