(** Runs of the in-memory store that go wrong. *)
From Verif Require Import M_Bytes M_Hash M_Bloom M_Wal M_MemDB S_MemDB P_Bytes P_Bloom P_MemBlock P_MemDB P_MemGet P_MemLog.
From Coq Require Import Lia ZifyBool ZifyNat ZifyN.
Open Scope Z_scope.

Fixpoint exec (c : mcfg) (s : mdb) (ops : list mop) : list (mop * mout) * mdb :=
  match ops with
  | [] => ([], s)
  | o :: r => let (s1, out) := mstep c s o in let (h, s2) := exec c s1 r in ((o, out) :: h, s2)
  end.
Lemma exec_run c ops : forall s, mrun c s (fst (exec c s ops)) (snd (exec c s ops)).
Proof.
  induction ops as [|o ops IH]; intros s; cbn [exec]; [constructor|].
  destruct (mstep c s o) as [s1 out] eqn:E. specialize (IH s1). destruct (exec c s1 ops) as [h s2]. cbn [fst snd] in *.
  econstructor; eassumption.
Qed.
Lemma exec_ops c ops : forall s, map fst (fst (exec c s ops)) = ops.
Proof.
  induction ops as [|o ops IH]; intros s; cbn [exec]; [reflexivity|]. destruct (mstep c s o) as [s1 out].
  specialize (IH s1). destruct (exec c s1 ops) as [h s2]. cbn [fst map] in *. now rewrite IH.
Qed.

Lemma exec_in c ops s o out : In (o, out) (fst (exec c s ops)) -> In o ops.
Proof. intros H. rewrite <- (exec_ops c ops s). now apply (in_map fst) in H. Qed.

(** One filter, blocks of ten time units. *)
Definition ex_cfg : mcfg := mkMC (fun _ => 0%nat) 10 10.
Definition ex_keys : list N := [3; 5; 7; 11; 13; 17; 19]%N.
Definition ex_gen : bloom := mkBloom (repeat 0%N (N.to_nat ((bloomBits + 63) / 64))) ex_keys bloomBits.
Lemma ex_cfg_ok : cfg_ok ex_cfg [ex_gen].
Proof.
  split; [|intros k; cbn; lia]. constructor; [|constructor]. exists ex_keys. split; [reflexivity|]. split; [reflexivity|].
  repeat constructor.
Qed.
Definition ex_open (d : dir) (now : Z) : mdb :=
  match mem_open ex_cfg [ex_gen] d now with Some s => s | None => mem_empty [] [] end.
Definition ex_run (ops : list mop) : list (mop * mout) * mdb := exec ex_cfg (ex_open [] 10) ops.
Lemma ex_in ops o out : In (o, out) (fst (ex_run ops)) -> In o ops.
Proof. unfold ex_run. apply exec_in. Qed.

Definition vA : bytes := [1; 1; 1; 1; 1; 1; 1; 1]%N.
Definition vB : bytes := [2; 2; 2; 2; 2; 2; 2; 2]%N.

Lemma op_ok_all ops c s : Forall op_ok ops -> Forall (fun x => op_ok (fst x)) (fst (exec c s ops)).
Proof.
  intros H. rewrite Forall_forall in *. intros x Hx. apply H. rewrite <- (exec_ops c ops s). now apply in_map.
Qed.

Ltac run_facts ops :=
  exists ex_cfg, [ex_gen], 10, (ex_open [] 10), (fst (ex_run ops)), (snd (ex_run ops));
  split; [exact ex_cfg_ok|]; split; [vm_compute; reflexivity|]; split; [apply exec_run|];
  split; [apply op_ok_all; repeat constructor|].

(** A value read once is kept: the key put again in the next block still reads as before. *)
Definition ops_stale : list mop := [OPut 1 vA; OGet 1; OTick 20 None; OPut 1 vB].
Lemma stale : exists c gens now s0 h s, cfg_ok c gens /\ mem_open c gens [] now = Some s0 /\ mrun c s0 h s /\
  Forall (fun x => op_ok (fst x)) h /\
  exists k v w, expected h k = Some v /\ snd (mem_get c s k) = GOk w /\ w <> v.
Proof.
  run_facts ops_stale. exists 1%N, vB, vA. split; [vm_compute; reflexivity|]. split; [vm_compute; reflexivity|discriminate].
Qed.

(** A batch hides what is put after it. *)
Definition ops_hidden : list mop := [OBatchNew 15 None; OBatchPut 15 1 vA; OBatchWrite 15 16 None; OBatchCommit [15]; OPut 2 vB].
Lemma hidden : exists c gens now s0 h s, cfg_ok c gens /\ mem_open c gens [] now = Some s0 /\ mrun c s0 h s /\
  Forall (fun x => op_ok (fst x)) h /\
  exists k v, expected h k = Some v /\ snd (mem_get c s k) = GNotExist /\
    exists t, mem_lookup s t k = GOk v.
Proof.
  run_facts ops_hidden. exists 2%N, vB. split; [vm_compute; reflexivity|]. split; [vm_compute; reflexivity|].
  exists 10. vm_compute. reflexivity.
Qed.

(** A buffer given back is read again through the query plan: the bytes of another key come out. *)
Definition ops_reuse : list mop := [OPut 1 vA; OGet 1; OFree 10; OTick 20 (Some 0%nat); OPut 2 vB].
Lemma reuse : exists c gens now s0 h s, cfg_ok c gens /\ mem_open c gens [] now = Some s0 /\ mrun c s0 h s /\
  Forall (fun x => op_ok (fst x)) h /\
  exists k k' v, k <> k' /\ snd (mem_get c s k) = GOk v /\ expected h k' = Some v /\
    (forall o out, In (o, out) h -> o <> OPut k v).
Proof.
  run_facts ops_reuse. exists 1%N, 2%N, vB. split; [discriminate|]. split; [vm_compute; reflexivity|].
  split; [vm_compute; reflexivity|]. intros o out Hin.
  pose proof (ex_in _ _ _ Hin) as Ho. clear Hin. unfold ops_reuse in Ho.
  repeat destruct Ho as [Ho|Ho]; try (rewrite <- Ho; discriminate). contradiction.
Qed.

(** * Replay *)
(** Deleted before its log was written: the value is taken for a time; a short one stops Open. *)
Definition ops_panic : list mop := [OPut 1 [7]%N; ODelete 1; OTick 20 None; OCommit].
Lemma replay_panic : exists c gens now s0 h s, cfg_ok c gens /\ mem_open c gens [] now = Some s0 /\ mrun c s0 h s /\
  Forall (fun x => op_ok (fst x)) h /\ forall now', mem_open c gens (m_wal s) now' = None.
Proof. run_facts ops_panic. intros now'. vm_compute. reflexivity. Qed.

(** Deleted and put again, the first block gone since: the value put last is lost. *)
Definition ops_reput : list mop :=
  [OPut 1 vA; OPut 3 vA; OTick 20 None; OCommit; ODelete 1; OTick 30 None; OCommit; OPut 1 vB; OTick 40 None; OCommit; OFree 10].
Lemma replay_reput : exists c gens now s0 h s, cfg_ok c gens /\ mem_open c gens [] now = Some s0 /\ mrun c s0 h s /\
  Forall (fun x => op_ok (fst x)) h /\
  exists k v s', expected h k = Some v /\ snd (mem_get c s k) = GOk v /\ mem_open c gens (m_wal s) 50 = Some s' /\
    snd (mem_get c s' k) <> GOk v.
Proof.
  run_facts ops_reput. exists 1%N, vB, (ex_open (m_wal (snd (ex_run ops_reput))) 50). split; [vm_compute; reflexivity|].
  split; [vm_compute; reflexivity|]. split; [vm_compute; reflexivity|]. vm_compute. discriminate.
Qed.

(** The log with the tombstone goes with its block: the key comes back. *)
Definition ops_back : list mop :=
  [OPut 1 vA; OPut 3 vA; OTick 20 None; OCommit; ODelete 1; OTick 30 None; OCommit; OFree 20].
Lemma replay_back : exists c gens now s0 h s, cfg_ok c gens /\ mem_open c gens [] now = Some s0 /\ mrun c s0 h s /\
  Forall (fun x => op_ok (fst x)) h /\
  exists k v s', expected h k = None /\ snd (mem_get c s k) = GNotExist /\ mem_open c gens (m_wal s) 50 = Some s' /\
    snd (mem_get c s' k) = GOk v.
Proof.
  run_facts ops_back. exists 1%N, vA, (ex_open (m_wal (snd (ex_run ops_back))) 50). split; [vm_compute; reflexivity|].
  split; [vm_compute; reflexivity|]. split; vm_compute; reflexivity.
Qed.
