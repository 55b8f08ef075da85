(** Waiting for the log pool: what should happen. *)
From Verif Require Import M_Pool.
From Coq Require Import List Arith.
Import ListNotations.

(** Every goroutine gets its turn again and again (also the ones that wait: then
    nothing happens). *)
Definition again (ev : nat -> pev) (e : pev) : Prop := forall n, exists m, n <= m /\ ev m = e.

Definition fair (ev : nat -> pev) : Prop :=
  again ev ELoop /\ again ev EDisp /\ again ev ECom /\ forall i, again ev (EWrite i).

Definition waits (s : pst) (i : nat) : Prop := exists x, nth_error (p_bw s) i = Some (BWait x).
Definition returned (s : pst) (i : nat) : Prop := exists x, nth_error (p_bw s) i = Some (BRet x).

(** Never as many logs as the queue can hold *)
Definition never_full (cap : nat) (ev : nat -> pev) : Prop :=
  forall n, length (p_lq (pool_at cap ev n)) < cap.

Definition never (ev : nat -> pev) (e : pev) : Prop := forall n, ev n <> e.

(** The logs handed to the pool in a run, in their order: those that the steps put
    into the queue. *)
Fixpoint sent (cap : nat) (s : pst) (l : list pev) : list nat :=
  match l with
  | [] => []
  | e :: r => skipn (length (p_wq s)) (p_wq (pool_step cap s e)) ++ sent cap (pool_step cap s e) r
  end.
(** Those that are still in the pool, the first one in front *)
Definition inside (s : pst) : list nat :=
  (match p_com s with MHand _ x => [x] | _ => [] end) ++ p_lq s ++
  (match p_disp s with DHand x => [x] | _ => [] end) ++ p_wq s.
(** A list without some of its elements *)
Inductive sublist : list nat -> list nat -> Prop :=
| sl_nil : sublist [] []
| sl_keep : forall x a b, sublist a b -> sublist (x :: a) (x :: b)
| sl_drop : forall x a b, sublist a b -> sublist a (x :: b).
