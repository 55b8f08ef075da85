(** A batch of the in-memory store that is aborted. *)
From Verif Require Import M_Bytes M_Bloom M_Wal M_MemDB S_MemDB.
Open Scope Z_scope.

(** What the user of a batch does: puts, and writes at a time, from which on
    the batch has a new block. *)
Inductive bact := BPut (key : N) (data : bytes) | BWrite (now : Z) (pick : option nat).
(** The operations of the store, and the times of the blocks that were written. *)
Fixpoint batch_ops (t : Z) (l : list bact) : list mop :=
  match l with
  | [] => []
  | BPut k v :: l => OBatchPut t k v :: batch_ops t l
  | BWrite now pick :: l => OBatchWrite t now pick :: batch_ops now l
  end.
Fixpoint batch_times (t : Z) (l : list bact) : list Z :=
  match l with
  | [] => []
  | BPut _ _ :: l => batch_times t l
  | BWrite now _ :: l => t :: batch_times now l
  end.
(** The last act is a write. *)
Fixpoint ends_written (w : bool) (l : list bact) : Prop :=
  match l with
  | [] => w = true
  | BPut _ _ :: l => ends_written false l
  | BWrite _ _ :: l => ends_written true l
  end.
(** The times are names not in use. *)
Definition fresh_times (s : mdb) (ts : list Z) : Prop :=
  NoDup ts /\ forall t, In t ts -> snd (mem_free s t) = MNotExist /\ dget (m_wal s) (FLog t) = None /\ dget (m_wal s) (FTmp t) = None.
Definition bact_times (l : list bact) : list Z := flat_map (fun a => match a with BWrite now _ => [now] | _ => [] end) l.

(** ** A log that lost its end: how an undamaged one is replayed. *)
Definition whole (l : Z * list (ikey * bytes)) : Z * (list bytes * endstate) := (fst l, ([log_bytes (snd l)], EndOk)).
