(** C71-C73: the size of the in-memory store, the release of emptied blocks,
    and the closed store. *)
From Verif Require Import M_Bytes M_Bloom M_Wal M_MemDB S_MemDB S_Size P_MemEx P_Size P_SizeEx.
Open Scope Z_scope.

(** In histories that never put a key a block already holds, [Size] is the
    number of pairs of a block and a key held there. *)
Theorem C71_partial : forall c gens now s h s',
  cfg_ok c gens -> mem_open c gens [] now = Some s -> mrun c s h s' -> Forall (fun x => op_ok (fst x)) h -> new_keys c now h ->
  exists A ks, acts_all c (trunc now (c_dur c)) (fun _ _ => None) h (m_cur s') A /\ NoDup ks /\
    (forall t k, In (t, k) ks <-> A t k <> None) /\ mem_size s' = Z.of_nat (length ks).
Proof. exact size_run. Qed.
Print Assumptions C71_partial.

(** A key put twice into one block counts twice. *)
Theorem C71_refuted : exists c gens now s0 h s A, cfg_ok c gens /\ mem_open c gens [] now = Some s0 /\ mrun c s0 h s /\
  Forall (fun x => op_ok (fst x)) h /\ acts_all c (trunc now (c_dur c)) (fun _ _ => None) h (m_cur s) A /\
  (exists t k, forall t' k', A t' k' <> None <-> t' = t /\ k' = k) /\ mem_size s = 2.
Proof. exact counted_twice. Qed.
Print Assumptions C71_refuted.

(** In such histories without batches, deleting the last key of a past block
    lets the block go: freeing it finds nothing, and no log file of it is left. *)
Theorem C72_partial : forall c gens now s h s' k s'',
  cfg_ok c gens -> mem_open c gens [] now = Some s -> mrun c s h s' ->
  Forall (fun x => op_ok (fst x)) h -> Forall (fun x => no_batch (fst x)) h -> new_keys c now h -> (k < 2 ^ 64)%N ->
  mem_delete c s' k = (s'', MOk) ->
  exists A, acts_all c (trunc now (c_dur c)) (fun _ _ => None) h (m_cur s') A /\
    forall t, A t k <> None -> (forall t', t < t' -> A t' k = None) -> t < m_cur s' -> (forall k', k' <> k -> A t k' = None) ->
      snd (mem_free s'' t) = MNotExist /\ forall id, log_of (m_wal s'') id -> trunc id (c_dur c) <> t.
Proof. exact release_run. Qed.
Print Assumptions C72_partial.

(** With a key put twice the block stays, and so does its log file. *)
Theorem C72_refuted : exists c gens now s0 h s A t k s' id, cfg_ok c gens /\ mem_open c gens [] now = Some s0 /\ mrun c s0 h s /\
  Forall (fun x => op_ok (fst x)) h /\ Forall (fun x => no_batch (fst x)) h /\ acts_all c (trunc now (c_dur c)) (fun _ _ => None) h (m_cur s) A /\
  A t k <> None /\ (forall t', t < t' -> A t' k = None) /\ t < m_cur s /\ (forall k', k' <> k -> A t k' = None) /\ mem_delete c s k = (s', MOk) /\
  log_of (m_wal s') id /\ trunc id (c_dur c) = t /\ snd (mem_free s' t) = MOk.
Proof. exact kept_block. Qed.
Print Assumptions C72_refuted.

(** A closed store answers that it is closed, changes nothing and shows
    nothing. *)
Theorem C73_partial : forall c s, let s' := mem_close s in
  (forall k v, mem_put c s' k v = (s', MClosed)) /\ (forall t k v, batch_put c s' t k v = (s', MClosed)) /\
  (forall k, mem_get c s' k = (s', GClosed)) /\ (forall t k, mem_lookup s' t k = GClosed) /\ (forall k, mem_delete c s' k = (s', MClosed)) /\
  (forall t, mem_free s' t = (s', MNotExist)) /\ mem_size s' = 0 /\ (forall t, block_keys s' t = []).
Proof. exact closed_answers. Qed.
Print Assumptions C73_partial.

(** Starting a batch on a closed store panics. *)
Theorem C73_refuted : exists c gens now s, cfg_ok c gens /\ mem_open c gens [] now = Some s /\
  mem_newbatch s now None <> None /\ mem_newbatch (mem_close s) now None = None.
Proof. exact closed_batch. Qed.
Print Assumptions C73_refuted.

(** * Cases *)
(** Two keys in two blocks; the first block has a log file, which goes with
    the deletion of its key. *)
Example t_size : let s := snd (ex_run ops_gone) in
  mem_open ex_cfg [ex_gen] [] 10 = Some (ex_open [] 10) /\ mrun ex_cfg (ex_open [] 10) (fst (ex_run ops_gone)) s /\
  Forall (fun x => op_ok (fst x)) (fst (ex_run ops_gone)) /\
  Forall (fun x => no_batch (fst x)) (fst (ex_run ops_gone)) /\ new_keys ex_cfg 10 (fst (ex_run ops_gone)) /\ mem_size s = 2 /\ m_cur s = 20 /\
  log_of (m_wal s) 10 /\ snd (mem_delete ex_cfg s 1) = MOk /\ ~ log_of (m_wal (fst (mem_delete ex_cfg s 1))) 10 /\
  mem_size (fst (mem_delete ex_cfg s 1)) = 1.
Proof.
  cbv zeta. split; [vm_compute; reflexivity|]. split; [apply exec_run|]. split; [apply op_ok_all; repeat constructor|]. exact gone_size.
Qed.
(** The store of that history, closed: two log files. *)
Example t_closed : map fst (m_wal (mem_close (snd (ex_run ops_gone)))) = [FLog 10; FLog 20].
Proof. vm_compute. reflexivity. Qed.
