(** Specification of the election. *)
From Coq Require Import List.
From Verif Require Import M_Leader.

(** Histories in which no process is started again. *)
Definition no_restart (es : list event) : Prop := forall n, ~ In (ERestart n) es.
