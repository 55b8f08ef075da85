(** What a batch of the in-memory store leaves in the log directory. *)
From Verif Require Import M_Bytes M_Bloom M_Wal M_MemDB S_MemDB S_Abort.
Open Scope Z_scope.

(** The logs that a batch writes: each Write puts what came since the last one
    in a log with the time of the block, unless nothing came. *)
Fixpoint batch_logs (t : Z) (pend : list (ikey * bytes)) (l : list bact) : list (Z * list (ikey * bytes)) :=
  match l with
  | [] => []
  | BPut k v :: l => batch_logs t (pend ++ [((false, k), v)]) l
  | BWrite now _ :: l => match pend with [] => [] | _ => [(t, pend)] end ++ batch_logs now [] l
  end.

(** Histories in which nothing is deleted and the block [u] is not freed. *)
Definition spares (u : Z) (o : mop) : Prop :=
  match o with ODelete _ => False | OFree t => t <> u | _ => True end.
