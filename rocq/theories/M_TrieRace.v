(* Several goroutines add topics to the trie of the database at the same time
   (/repo/trie.go:117-152, called by every Put: db.go:380-385, and Batch).  One step
   of a goroutine is what it does under one lock of the trie.

   Simplified: a part of a topic (hash and wild characters) is a number; the parts
   of a topic are a function of its hash; the depth and the offset of a topic are
   left out. *)

From Coq Require Import List Arith Bool.
Import ListNotations.

(* /repo/trie.go:58-64: part and parent of a node, all the way up, are the path of
   the node. *)
Record tnode : Type := TN {
  tn_path : list nat; tn_kids : list (nat * nat); tn_topics : list nat
}.

(* A call of add (/repo/trie.go:117-152) for a topic: waiting for the mutex of its
   hash; in the loop, with the parts done, the parts to do and the node; with a
   part that has no node yet, before the lock of line 138; returned. *)
Inductive tadd : Type :=
| AGo (h : nat)
| AAt (h : nat) (before todo : list nat) (curr : nat)
| ASet (h : nat) (before : list nat) (p : nat) (todo : list nat) (curr : nat)
| ADone (h : nat).

Record tst : Type := TS {
  t_nodes : list tnode;        (* the nodes ever made; the first is the root *)
  t_summary : list nat;        (* topicTrie.summary: hashes of topics *)
  t_adds : list tadd
}.

(* /repo/trie.go:83-90. *)
Definition tstart : tst := TS [TN [] [] []] [] [].

Fixpoint kid (kids : list (nat * nat)) (p : nat) : option nat :=
  match kids with
  | [] => None
  | (q, c) :: r => if Nat.eqb q p then Some c else kid r p
  end.

Fixpoint put_at {A : Type} (i : nat) (x : A) (xs : list A) : list A :=
  match xs, i with
  | [], _ => []
  | _ :: r, O => x :: r
  | y :: r, S j => y :: put_at j x r
  end.

(* /repo/trie.go:119-121 and mutex.go: a call holds the mutex of the shard of its hash from
   line 120 to its return. *)
Definition holds (shard : nat -> nat) (h : nat) (a : tadd) : bool :=
  match a with
  | AAt h' _ _ _ | ASet h' _ _ _ _ => Nat.eqb (shard h') (shard h)
  | AGo _ | ADone _ => false
  end.

Definition set_add (st : tst) (k : nat) (a : tadd) : tst :=
  TS (t_nodes st) (t_summary st) (put_at k a (t_adds st)).

(* /repo/trie.go:117-152. *)
Definition add_step (shard : nat -> nat) (parts : nat -> list nat) (st : tst) (k : nat) : tst :=
  match nth_error (t_adds st) k with
  | Some (AGo h) =>
      if existsb (holds shard h) (t_adds st) then st                          (* waits: line 120 *)
      else if existsb (Nat.eqb h) (t_summary st) then set_add st k (ADone h)  (* line 122 *)
      else set_add st k (AAt h [] (parts h) 0)                                (* line 125 *)
  | Some (AAt h before (p :: todo) curr) =>                                   (* lines 131-133 *)
      match nth_error (t_nodes st) curr with
      | None => st
      | Some n =>
          match kid (tn_kids n) p with
          | Some c => set_add st k (AAt h (before ++ [p]) todo c)
          | None => set_add st k (ASet h before p todo curr)
          end
      end
  | Some (ASet h before p todo curr) =>                                       (* lines 135-142 *)
      match nth_error (t_nodes st) curr with
      | None => st
      | Some n =>
          let new := length (t_nodes st) in
          TS (put_at curr (TN (tn_path n) ((p, new) :: tn_kids n) (tn_topics n)) (t_nodes st)
              ++ [TN (before ++ [p]) [] []])
             (t_summary st) (put_at k (AAt h (before ++ [p]) todo new) (t_adds st))
      end
  | Some (AAt h before [] curr) =>                                            (* lines 145-151 *)
      match nth_error (t_nodes st) curr with
      | None => st
      | Some n =>
          TS (put_at curr (TN (tn_path n) (tn_kids n) (h :: tn_topics n)) (t_nodes st))
             (h :: t_summary st) (put_at k (ADone h) (t_adds st))
      end
  | Some (ADone _) | None => st
  end.

Inductive tevent : Type :=
| EAdd (h : nat)       (* a goroutine calls add for the topic *)
| EStep (k : nat).     (* goroutine k goes on *)

Definition tstep (shard : nat -> nat) (parts : nat -> list nat) (st : tst) (e : tevent) : tst :=
  match e with
  | EAdd h => TS (t_nodes st) (t_summary st) (t_adds st ++ [AGo h])
  | EStep k => add_step shard parts st k
  end.

Definition trun (shard : nat -> nat) (parts : nat -> list nat) (st : tst) (es : list tevent) : tst :=
  fold_left (tstep shard parts) es st.

(* /repo/trie.go:155-186: lookup of a topic without wildcards goes down along its
   parts, under the read lock of the trie. *)
Fixpoint go_down (nodes : list tnode) (n : nat) (parts : list nat) : option nat :=
  match parts with
  | [] => Some n
  | p :: r =>
      match nth_error nodes n with
      | None => None
      | Some x => match kid (tn_kids x) p with
                  | None => None
                  | Some c => go_down nodes c r
                  end
      end
  end.
