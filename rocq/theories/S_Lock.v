(** What a lock is for. *)
From Verif Require Import M_Lock.

(** The process has the database open. *)
Definition has_lock (s : locks) (p : nat) : Prop := exists i, lk_phase s p = PHeld i.
Definition exclusive (s : locks) : Prop := forall p q, has_lock s p -> has_lock s q -> p = q.
Definition op_proc (o : lop) : nat := match o with LOpen p | LFlock p | LRemove p | LClose p | LDie p => p end.

(** Open and Close as a whole. *)
Inductive cop := COpen (p : nat) | CClose (p : nat) | CDie (p : nat).
Definition calls (o : cop) : list lop :=
  match o with COpen p => [LOpen p; LFlock p] | CClose p => [LRemove p; LClose p] | CDie p => [LDie p] end.
Definition cop_proc (o : cop) : nat := match o with COpen p | CClose p | CDie p => p end.
(** Close was called. *)
Definition removes (o : lop) : bool := match o with LRemove _ => true | _ => false end.
