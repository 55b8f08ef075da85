(* What Gets give while Puts and Syncs run. *)

From Coq Require Import List Arith.
Import ListNotations.
From Verif Require Import M_Live.

(* Put number [i], on topic [h], has returned. *)
Definition returned (st : lst) (h i : nat) : Prop := exists t, nth_error (l_puts st) i = Some (LDone t h).

(* Put number [i] is on topic [h]. *)
Definition put_on (st : lst) (h i : nat) : Prop :=
  exists x, nth_error (l_puts st) i = Some x /\
    match x with LNew k => k = h | LMem _ k => k = h | LWin _ k => k = h | LDone _ k => k = h end.

(* A Put has begun and not returned. *)
Definition underway (x : lput) : Prop := match x with LMem _ _ | LWin _ _ => True | _ => False end.

(* A Get of [h] that is not interrupted. *)
Definition get_now (st : lst) (h : nat) : list nat :=
  match nfind (l_trie st) h with
  | None => []
  | Some off => in_window st h ++ on_file st h off
  end.

(* No time ends while a Put is under way, nor between the first two statements of a
   Sync (/repo/db_sync.go:216-217); nothing is put to [h0]. *)
Fixpoint timely (W h0 : nat) (st : lst) (es : list levent) : Prop :=
  match es with
  | [] => True
  | e :: r =>
      match e with
      | ETick => (forall x, In x (l_puts st) -> ~ underway x) /\ (forall k, l_sync st <> YSnap k)
      | EPut h => h <> h0
      | _ => True
      end /\ timely W h0 (lstep W st e) r
  end.

(* Where Sync is: not between the change of the first offset and the write of the
   window; not, in addition, between this write and the release of the entries. *)
Definition not_writing (st : lst) : Prop :=
  match l_sync st with YTopics _ _ _ _ | YWrite _ _ _ => False | _ => True end.
Definition settled (st : lst) : Prop :=
  match l_sync st with YIdle | YSnap _ | YNext _ | YFree _ _ => True | _ => False end.
