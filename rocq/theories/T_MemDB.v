(** C34, C35: the in-memory store. *)
From Verif Require Import M_Bytes M_Bloom M_Wal M_MemDB S_MemDB P_MemDB P_MemGet P_MemLog P_MemEx.
From Coq Require Import Lia.
Open Scope Z_scope.

(** Whatever is put, deleted, freed, committed or batched, and whatever buffers
    the pool hands out again, looking a key up in a time block gives what the
    history put there. *)
Theorem C34_lookup : forall c gens now s h s',
  cfg_ok c gens -> mem_open c gens [] now = Some s -> mrun c s h s' ->
  Forall (fun x => op_ok (fst x)) h ->
  exists A, acts_all c (trunc now (c_dur c)) (fun _ _ => None) h (m_cur s') A /\
    forall t k, mem_lookup s' t k = match A t k with Some v => GOk v | None => GNotExist end.
Proof. exact lookup_run. Qed.
Print Assumptions C34_lookup.

(** Get gives the value put last, for histories without batches in which a key
    is put again only in the block it is in or after it was deleted, and the
    pool does not reuse buffers.  Missing: other histories, where it is wrong. *)
Theorem C34_get_partial : forall c gens now s h s',
  cfg_ok c gens -> mem_open c gens [] now = Some s -> mrun c s h s' ->
  (forall h1 o out h2 g1, h = h1 ++ (o, out) :: h2 -> gacts_all c (gstart c now) h1 g1 -> allowed c g1 o /\ op_ok o) ->
  exists g, gacts_all c (gstart c now) h g.
Proof.
  exact (fun c gens now s h s' Hc Ho Hr Ha =>
    match grun c s h s' Hr (gstart c now) (ginv_empty c gens now s Hc Ho) Ha with
    | ex_intro _ g (conj H _) => ex_intro _ g H
    end).
Qed.
Print Assumptions C34_get_partial.

(** A key read once and put again in a later block still gives the first value. *)
Theorem C34_refuted : exists c gens now s0 h s, cfg_ok c gens /\ mem_open c gens [] now = Some s0 /\ mrun c s0 h s /\
  Forall (fun x => op_ok (fst x)) h /\
  exists k v w, expected h k = Some v /\ snd (mem_get c s k) = GOk w /\ w <> v.
Proof. exact stale. Qed.
Print Assumptions C34_refuted.

(** A batch hides a key put after it: Get says it does not exist. *)
Theorem C34_batch_refuted : exists c gens now s0 h s, cfg_ok c gens /\ mem_open c gens [] now = Some s0 /\ mrun c s0 h s /\
  Forall (fun x => op_ok (fst x)) h /\
  exists k v, expected h k = Some v /\ snd (mem_get c s k) = GNotExist /\ exists t, mem_lookup s t k = GOk v.
Proof. exact hidden. Qed.
Print Assumptions C34_batch_refuted.

(** When the pool hands a freed buffer out again, Get of a key that was in it
    gives the bytes of another key. *)
Theorem C34_reuse_refuted : exists c gens now s0 h s, cfg_ok c gens /\ mem_open c gens [] now = Some s0 /\ mrun c s0 h s /\
  Forall (fun x => op_ok (fst x)) h /\
  exists k k' v, k <> k' /\ snd (mem_get c s k) = GOk v /\ expected h k' = Some v /\
    (forall o out, In (o, out) h -> o <> OPut k v).
Proof. exact reuse. Qed.
Print Assumptions C34_reuse_refuted.

(** Opening a directory of logs gives, for every key, the last value logged
    unless a tombstone follows; and the store then goes on as C34_get_partial
    says.  Missing: keys in several time blocks, keys put again after their
    tombstone, and tombstones for other blocks, where it is wrong. *)
Theorem C35_partial : forall c gens d logs now,
  cfg_ok c gens -> logs_ok c logs ->
  replay d = map (fun l => (fst l, ([log_bytes (snd l)], EndOk))) logs ->
  (forall a, In a logs -> trunc (fst a) (c_logint c) <= trunc now (c_dur c)) ->
  exists s, mem_open c gens d now = Some s /\
    forall h s', mrun c s h s' ->
    (forall h1 o out h2 g1, h = h1 ++ (o, out) :: h2 -> gacts_all c (recovered c logs now) h1 g1 -> allowed c g1 o /\ op_ok o) ->
    exists g, gacts_all c (recovered c logs now) h g.
Proof.
  exact (fun c gens d logs now Hc Hl Hr Ht =>
    match recover_inv c gens d logs now Hc Hl Hr Ht with
    | ex_intro _ s (conj H1 H2) => ex_intro _ s (conj H1 (fun h s' Hrun Ha =>
        match grun c s h s' Hrun (recovered c logs now) H2 Ha with
        | ex_intro _ g (conj H _) => ex_intro _ g H
        end))
    end).
Qed.
Print Assumptions C35_partial.

(** A key deleted before its log is written, with a value of fewer than eight
    bytes: the directory cannot be opened any more. *)
Theorem C35_panic_refuted : exists c gens now s0 h s, cfg_ok c gens /\ mem_open c gens [] now = Some s0 /\ mrun c s0 h s /\
  Forall (fun x => op_ok (fst x)) h /\ forall now', mem_open c gens (m_wal s) now' = None.
Proof. exact replay_panic. Qed.
Print Assumptions C35_panic_refuted.

(** A key deleted and put again is lost by a replay. *)
Theorem C35_refuted : exists c gens now s0 h s, cfg_ok c gens /\ mem_open c gens [] now = Some s0 /\ mrun c s0 h s /\
  Forall (fun x => op_ok (fst x)) h /\
  exists k v s', expected h k = Some v /\ snd (mem_get c s k) = GOk v /\ mem_open c gens (m_wal s) 50 = Some s' /\
    snd (mem_get c s' k) <> GOk v.
Proof. exact replay_reput. Qed.
Print Assumptions C35_refuted.

(** A deleted key comes back with a replay. *)
Theorem C35_back_refuted : exists c gens now s0 h s, cfg_ok c gens /\ mem_open c gens [] now = Some s0 /\ mrun c s0 h s /\
  Forall (fun x => op_ok (fst x)) h /\
  exists k v s', expected h k = None /\ snd (mem_get c s k) = GNotExist /\ mem_open c gens (m_wal s) 50 = Some s' /\
    snd (mem_get c s' k) = GOk v.
Proof. exact replay_back. Qed.
Print Assumptions C35_back_refuted.

(** * Cases *)
Definition t_ops : list mop := [OPut 1 vA; OGet 1; OPut 1 vB; OTick 20 None; OPut 2 vA; ODelete 1; OPut 1 vA; OGet 1; OCommit; OFree 20; OGet 1; OGet 2; OGet 3].
Example t_lookup : let s := snd (ex_run t_ops) in
  mem_open ex_cfg [ex_gen] [] 10 = Some (ex_open [] 10) /\ mrun ex_cfg (ex_open [] 10) (fst (ex_run t_ops)) s /\
  Forall (fun x => op_ok (fst x)) (fst (ex_run t_ops)) /\
  map snd (fst (ex_run t_ops)) = [ORes MOk; OVal (GOk vA); ORes MOk; ODone; ORes MOk; ORes MOk; ORes MOk; OVal (GOk vA); ODone;
    ORes MOk; OVal GErr; OVal GErr; OVal GNotExist].
Proof.
  cbv zeta. split; [vm_compute; reflexivity|]. split; [apply exec_run|]. split; [apply op_ok_all; repeat constructor|].
  vm_compute. reflexivity.
Qed.

Definition t_ops2 : list mop := [OPut 1 vA; OPut 3 vB; OTick 20 None; OCommit; ODelete 1; OTick 30 None; OCommit].
Definition t_logs : list (Z * list ((bool * N) * bytes)) :=
  [(10, [((false, 1%N), vA); ((false, 3%N), vB)]); (20, [((true, 1%N), [10; 0; 0; 0; 0; 0; 0; 0]%N)])].
Example t_replay : replay (m_wal (snd (ex_run t_ops2))) = map (fun l => (fst l, ([log_bytes (snd l)], EndOk))) t_logs.
Proof. vm_compute. reflexivity. Qed.
Example t_logs_ok : logs_ok ex_cfg t_logs.
Proof.
  split.
  - intros l1 a l2 b l3 E. destruct l1 as [|x [|y l1]]; cbn [app t_logs] in E.
    + injection E as <- E. destruct l2 as [|z [|z2 l2]]; cbn [app] in E; [|discriminate|discriminate].
      injection E as <- _. vm_compute. discriminate.
    + injection E as _ _ E. destruct l2; discriminate.
    + destruct l1; discriminate.
  - intros id k v Hin. cbn in Hin. repeat destruct Hin as [Hin|Hin]; try contradiction; injection Hin as <- <- <-; repeat constructor.
  - intros id1 id2 k v1 v2 H1 H2. cbn in H1, H2.
    repeat destruct H1 as [H1|H1]; try contradiction; try discriminate; injection H1 as <- <- <-;
    repeat destruct H2 as [H2|H2]; try contradiction; try discriminate; injection H2 as <- <-; reflexivity.
  - intros id k w H1. cbn in H1. repeat destruct H1 as [H1|H1]; try contradiction; try discriminate.
    injection H1 as <- <- <-. split; [cbn; lia|]. intros id2 v H2. cbn in H2.
    repeat destruct H2 as [H2|H2]; try contradiction; try discriminate. injection H2 as <- <-. reflexivity.
  - intros l1 l2 id1 id2 k w v E. cbn in E. destruct l1 as [|a [|b [|d l1]]]; cbn [app] in E; try discriminate.
    + injection E as _ _ _ _ _ <-. intros [].
    + injection E as _ _ _ E. destruct l1; discriminate.
Qed.
Example t_recovered : map (g_slot (recovered ex_cfg t_logs 50)) [1; 2; 3]%N = [Absent; Absent; Held 10 vB].
Proof. reflexivity. Qed.
