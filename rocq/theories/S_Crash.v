(** A crash in a session with restarts: which messages must be in the logs. *)
From Verif Require Import M_Bytes M_MemDB M_DB S_DB S_Session S_Restart.
Open Scope Z_scope.

(** What was sent in work and restarts. *)
Definition rsends (o : rop) : list sent := match o with RDo o => sends o | RRestart _ _ _ _ _ => [] end.

(** Number of messages that were put before a tick of the log whose commit was
    done since: [cur] were put since the last tick, [q] are the numbers of
    those put before the ticks whose commits are still to be done. *)
Fixpoint flushed (q : list nat) (cur : nat) (ops : list sop) : nat :=
  match ops with
  | [] => 0
  | SPut _ _ _ _ _ _ :: r => flushed q (S cur) r
  | STick _ :: r => flushed (q ++ [cur]) 0 r
  | SCommit :: r => match q with [] => flushed [] cur r | n :: q => n + flushed q cur r end
  | _ :: r => flushed q cur r
  end.

Definition is_get (o : sop) : Prop := match o with SGet _ _ _ _ _ => True | _ => False end.
