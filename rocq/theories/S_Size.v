(** The size of the in-memory store, and when a time block is let go. *)
From Verif Require Import M_Bytes M_Bloom M_Wal M_MemDB S_MemDB.
Open Scope Z_scope.

(** Puts of keys that the block does not hold already. *)
Definition new_key (cur : Z) (A : contents) (o : mop) : Prop :=
  match o with
  | OPut k _ => A cur k = None
  | OBatchPut t k _ => A t k = None
  | _ => True
  end.
Definition new_keys (c : mcfg) (now : Z) (h : list (mop * mout)) : Prop :=
  forall h1 o out h2 cur A, h = h1 ++ (o, out) :: h2 -> acts_all c (trunc now (c_dur c)) (fun _ _ => None) h1 cur A -> new_key cur A o.

(** Histories without batches. *)
Definition no_batch (o : mop) : Prop :=
  match o with
  | OBatchNew _ _ | OBatchPut _ _ _ | OBatchWrite _ _ _ | OBatchCommit _ => False
  | _ => True
  end.
(** The names of the log files. *)
Definition log_of (d : dir) (id : Z) : Prop := In (FLog id) (map fst d).

(** The keys put by a history. *)
Definition put_key (o : mop) : list N :=
  match o with OPut k _ => [k] | OBatchPut _ k _ => [k] | _ => [] end.
