(** Cases for C71-C73. *)
From Verif Require Import M_Bytes P_Bytes M_Hash M_Bloom M_File M_Wal M_MemDB S_MemDB S_Size P_MemBlock P_MemDB P_MemEx P_Size.
From Coq Require Import Lia ZifyBool ZifyNat ZifyN.
Open Scope Z_scope.

Lemma run_is ops outs : map snd (fst (ex_run ops)) = outs -> fst (ex_run ops) = combine ops outs.
Proof.
  intros <-. pose proof (exec_ops ex_cfg ops (ex_open [] 10)) as E. fold (ex_run ops) in E. rewrite <- E at 2. clear E.
  induction (fst (ex_run ops)) as [|[a b] l IH]; cbn [map combine fst snd]; [reflexivity|]. now rewrite <- IH.
Qed.

(** A key put twice is counted twice. *)
Definition ops_twice : list mop := [OPut 1 vA; OPut 1 vB].
Definition one_key (t : Z) (k : N) (v : bytes) : contents := upd (fun _ _ => None) t k (Some v).
Lemma counted_twice : exists c gens now s0 h s A, cfg_ok c gens /\ mem_open c gens [] now = Some s0 /\ mrun c s0 h s /\
  Forall (fun x => op_ok (fst x)) h /\ acts_all c (trunc now (c_dur c)) (fun _ _ => None) h (m_cur s) A /\
  (exists t k, forall t' k', A t' k' <> None <-> t' = t /\ k' = k) /\ mem_size s = 2.
Proof.
  exists ex_cfg, [ex_gen], 10, (ex_open [] 10), (fst (ex_run ops_twice)), (snd (ex_run ops_twice)), (upd (one_key 10 1 vA) 10 1 (Some vB)).
  split; [exact ex_cfg_ok|]. split; [vm_compute; reflexivity|]. split; [apply exec_run|]. split; [apply op_ok_all; repeat constructor|].
  rewrite (run_is ops_twice [ORes MOk; ORes MOk]) by (vm_compute; reflexivity). cbn [combine ops_twice].
  split.
  - replace (m_cur (snd (ex_run ops_twice))) with 10 by (vm_compute; reflexivity). replace (trunc 10 (c_dur ex_cfg)) with 10 by reflexivity.
    eapply aa_step; [apply ac_put|]. eapply aa_step; [apply ac_put|]. apply aa_nil.
  - split; [|vm_compute; reflexivity]. exists 10, 1%N. intros t' k'. unfold one_key, upd. destruct (t' =? 10) eqn:E1, (k' =? 1)%N eqn:E2; cbn [andb]; split; try congruence; lia.
Qed.

(** A block one of whose keys was put twice is not released by deletions. *)
Definition ops_kept : list mop := [OPut 1 vA; OPut 1 vB; OTick 20 None; OCommit].
Lemma kept_block : exists c gens now s0 h s A t k s' id, cfg_ok c gens /\ mem_open c gens [] now = Some s0 /\ mrun c s0 h s /\
  Forall (fun x => op_ok (fst x)) h /\ Forall (fun x => no_batch (fst x)) h /\ acts_all c (trunc now (c_dur c)) (fun _ _ => None) h (m_cur s) A /\
  A t k <> None /\ (forall t', t < t' -> A t' k = None) /\ t < m_cur s /\ (forall k', k' <> k -> A t k' = None) /\ mem_delete c s k = (s', MOk) /\
  log_of (m_wal s') id /\ trunc id (c_dur c) = t /\ snd (mem_free s' t) = MOk.
Proof.
  exists ex_cfg, [ex_gen], 10, (ex_open [] 10), (fst (ex_run ops_kept)), (snd (ex_run ops_kept)), (upd (one_key 10 1 vA) 10 1 (Some vB)), 10, 1%N,
    (fst (mem_delete ex_cfg (snd (ex_run ops_kept)) 1)), 10.
  split; [exact ex_cfg_ok|]. split; [vm_compute; reflexivity|]. split; [apply exec_run|]. split; [apply op_ok_all; repeat constructor|].
  rewrite (run_is ops_kept [ORes MOk; ORes MOk; ODone; ODone]) by (vm_compute; reflexivity).
  assert (Hc : m_cur (snd (ex_run ops_kept)) = 20) by (vm_compute; reflexivity). rewrite Hc.
  split; [repeat constructor|]. cbn [combine]. unfold ops_kept at 1. split.
  { replace (trunc 10 (c_dur ex_cfg)) with 10 by reflexivity. replace 20 with (trunc 20 (c_dur ex_cfg)) at 2 by reflexivity.
    eapply aa_step; [apply ac_put|]. eapply aa_step; [apply ac_put|]. eapply aa_step; [apply ac_tick|]. eapply aa_step; [apply ac_commit|]. apply aa_nil. }
  split; [discriminate|]. split. { intros t' Ht. unfold one_key, upd. destruct (t' =? 10) eqn:E1; [lia|]. reflexivity. }
  split; [lia|]. split. { intros k' Hk. unfold one_key, upd. destruct (k' =? 1)%N eqn:E1; [lia|]. now rewrite !Bool.andb_false_r. }
  assert (Ed : snd (mem_delete ex_cfg (snd (ex_run ops_kept)) 1) = MOk) by (vm_compute; reflexivity). split; [rewrite <- Ed; apply surjective_pairing|].
  split; [vm_compute; left; reflexivity|]. split; vm_compute; reflexivity.
Qed.

(** The same two keys put once each. *)
Definition ops_gone : list mop := [OPut 1 vA; OTick 20 None; OCommit; OPut 2 vB].
Example gone_size : let s := snd (ex_run ops_gone) in
  Forall (fun x => no_batch (fst x)) (fst (ex_run ops_gone)) /\ new_keys ex_cfg 10 (fst (ex_run ops_gone)) /\ mem_size s = 2 /\ m_cur s = 20 /\
  log_of (m_wal s) 10 /\ snd (mem_delete ex_cfg s 1) = MOk /\ ~ log_of (m_wal (fst (mem_delete ex_cfg s 1))) 10 /\
  mem_size (fst (mem_delete ex_cfg s 1)) = 1.
Proof.
  cbv zeta. split. { rewrite Forall_forall. intros [o out] Hx. apply ex_in in Hx. cbn in Hx. decompose [or] Hx; subst; cbn; auto; contradiction. }
  split. { apply once_new.
    replace (flat_map (fun x : mop * mout => put_key (fst x)) (fst (ex_run ops_gone))) with (flat_map put_key (map fst (fst (ex_run ops_gone)))) by (induction (fst (ex_run ops_gone)) as [|x l IH]; cbn; [reflexivity|now rewrite IH]).
    unfold ex_run. rewrite exec_ops. cbn. repeat constructor; cbn; intuition discriminate. }
  split; [vm_compute; reflexivity|]. split; [vm_compute; reflexivity|]. split; [vm_compute; left; reflexivity|]. split; [vm_compute; reflexivity|].
  split; [vm_compute; tauto|vm_compute; reflexivity].
Qed.

Lemma closed_batch : exists c gens now s, cfg_ok c gens /\ mem_open c gens [] now = Some s /\
  mem_newbatch s now None <> None /\ mem_newbatch (mem_close s) now None = None.
Proof.
  exists ex_cfg, [ex_gen], 10, (ex_open [] 10). split; [exact ex_cfg_ok|]. split; [vm_compute; reflexivity|]. split; [|reflexivity].
  unfold mem_newbatch. replace (m_closed (ex_open [] 10)) with false by (vm_compute; reflexivity). discriminate.
Qed.
