(** C86: a publication reaches the subscribers. *)
From Coq Require Import Lia ZifyBool ZifyNat ZifyN.
From Verif Require Import M_Bytes M_Keys M_MsgIds M_Conn S_Conn P_Conn P_Pending P_Origin P_Forget.
From Verif Require M_Subs.
Open Scope N_scope.

(** Connections only gain. *)
Definition grow (s s' : server) : Prop :=
  forall c k, aget (v_conns s) c = Some k -> exists k', aget (v_conns s') c = Some k' /\ k_open k' = k_open k /\
    k_client k' = k_client k /\ (exists o, k_out k' = k_out k ++ o) /\ (forall l, k_batch k = Some l -> exists l', k_batch k' = Some (l ++ l')).
Lemma grow_refl : forall s, grow s s.
Proof.
  intros s c k H. exists k. split; [assumption|]. split; [reflexivity|]. split; [reflexivity|]. split; [exists []; now rewrite app_nil_r|].
  intros l Hl. exists []. now rewrite app_nil_r.
Qed.
Lemma grow_trans : forall a b c, grow a b -> grow b c -> grow a c.
Proof.
  intros a b c H G q k Hk. destruct (H _ _ Hk) as (k1 & H1 & O1 & C1 & (o1 & X1) & B1).
  destruct (G _ _ H1) as (k2 & H2 & O2 & C2 & (o2 & X2) & B2). exists k2. split; [assumption|]. split; [congruence|]. split; [congruence|]. split.
  - exists (o1 ++ o2). now rewrite X2, X1, app_assoc.
  - intros l Hl. destruct (B1 _ Hl) as [l1 Hl1]. destruct (B2 _ Hl1) as [l2 Hl2]. exists (l1 ++ l2). now rewrite Hl2, app_assoc.
Qed.
Lemma grow_conns : forall s s', v_conns s' = v_conns s -> grow s s'.
Proof. intros s s' H c k Hk. destruct (grow_refl s c k Hk) as (k' & G). exists k'. now rewrite H. Qed.
Lemma grow_put : forall s c pk, grow s (put_out s c pk).
Proof.
  intros s c pk q k Hk. unfold put_out. rewrite get_on. destruct (q =? c) eqn:F; [|now apply grow_refl].
  assert (q = c) by lia. subst. rewrite Hk. cbn [option_map]. eexists. split; [reflexivity|].
  destruct (k_open k) eqn:O; cbn; split; auto; split; auto; (split; [eexists; try reflexivity|]).
  - intros l Hl. exists []. now rewrite app_nil_r.
  - now rewrite app_nil_r.
  - intros l Hl. exists []. now rewrite app_nil_r.
Qed.
Lemma grow_out : forall s s' c pk, grow s s' -> In pk (out s c) -> In pk (out s' c).
Proof.
  intros s s' c pk G H. unfold out in *. destruct (aget (v_conns s) c) as [k|] eqn:Hk; [|contradiction].
  destruct (G _ _ Hk) as (k' & Hk' & _ & _ & (o & X) & _). rewrite Hk', X. apply in_or_app. now left.
Qed.
Lemma grow_reaches : forall s s' p m n, grow s s' -> reaches s p m n -> reaches s' p m n.
Proof.
  intros s s' p m n G. unfold reaches. destruct (reliable (p_mode p) && reliable (s_mode n)); [now apply grow_out|].
  destruct ((s_mode n =? 2) || (0 <? s_delay n)%Z); [|now apply grow_out].
  intros (k & l & Hk & Hl & Hin). destruct (G _ _ Hk) as (k' & Hk' & _ & _ & _ & B). destruct (B _ Hl) as [l' Hl'].
  exists k', (l ++ l'). split; [assumption|]. split; [assumption|]. apply in_or_app. now left.
Qed.
Lemma grow_listens : forall s s' c, grow s s' -> listens s c -> listens s' c.
Proof.
  intros s s' c G (k & id & Hk & Ho & Hc). destruct (G _ _ Hk) as (k' & Hk' & O & C & _). exists k', id.
  split; [assumption|]. split; congruence.
Qed.

Section DELIVER.
  Variable E : env.
  (** One subscriber *)
  Lemma send_one : forall x es s c p m n todo, Inv E x es s -> p_id p <> 0 -> p_mode p <= 2 -> s_mode n <= 2 -> listens s (s_conn n) ->
    exists s', run_task E s (TSend c p m (p_id p) n todo) = Some (s', Some (TLoop c p m (p_id p) todo)) /\ grow s s' /\ reaches s' p m n.
  Proof.
    intros x es s c p m n todo I0 Hid Hp Hn (k & id & Hk & Ho & Hc). cbn [run_task]. rewrite Hk.
    assert (X : reliable (p_mode p) && reliable (s_mode n) = false ->
      exists s', match send_message s (s_conn n) (p_id p) (s_mode n) (s_delay n) m with
              | Some (s1, Some i) => Some (s1, Some (TLoop c p m i todo)) | Some (s1, None) => Some (s1, None)
              | None => None end = Some (s', Some (TLoop c p m (p_id p) todo)) /\ grow s s' /\ reaches s' p m n).
    { intro Nr. unfold send_message. rewrite (proj2 (N.eqb_neq _ _) Hid). unfold reaches. rewrite Nr.
      destruct ((s_mode n =? 2) || (0 <? s_delay n)%Z).
      - unfold batch_add. rewrite Hk. destruct (k_batch k) as [l|] eqn:Hb.
        + eexists. split; [reflexivity|]. split.
          * intros q k0 Hk0. rewrite get_set. destruct (q =? s_conn n) eqn:F; [|now apply grow_refl].
            assert (q = s_conn n) by lia. subst. rewrite Hk in Hk0. injection Hk0 as <-. eexists. split; [reflexivity|].
            cbn. split; [reflexivity|]. split; [reflexivity|]. split; [exists []; now rewrite app_nil_r|].
            intros l0 Hl0. rewrite Hb in Hl0. injection Hl0 as <-. eauto.
          * eexists. exists (l ++ [m]). rewrite get_set, N.eqb_refl. split; [reflexivity|]. split; [reflexivity|]. apply in_or_app. right. now left.
        + exfalso. apply (k_ready _ _ _ _ _ (i_conn _ _ _ _ I0 _ _ Hk)); congruence.
      - eexists. split; [reflexivity|]. split.
        + eapply grow_trans; [|apply grow_put]. now apply grow_conns.
        + unfold out, put_out. rewrite get_on, N.eqb_refl. cbn [persist_out set_log v_conns]. rewrite Hk. cbn [option_map]. rewrite Ho.
          cbn. apply in_or_app. right. now left. }
    destruct (reliable (p_mode p)) eqn:Rp.
    - destruct (reliable (s_mode n)) eqn:Rn.
      + rewrite Ho. eexists. split; [reflexivity|]. split.
        * eapply grow_trans; [|apply grow_put]. now apply grow_conns.
        * unfold reaches. rewrite Rp, Rn. cbn [andb]. unfold out, put_out. rewrite get_on, N.eqb_refl.
          cbn [persist_out set_log v_conns]. rewrite Hk. cbn [option_map]. rewrite Ho. cbn. apply in_or_app. right. now left.
      + assert (s_mode n = 0) by (unfold reliable in Rn; lia). rewrite H. rewrite H in X. cbn [N.eqb]. now apply X.
    - assert (p_mode p = 0) by (unfold reliable in Rp; lia). rewrite H. cbn [N.eqb]. now apply X.
  Qed.
  Hypothesis HE : parses_small E.
  Lemma task_step : forall s i t s1 r, nth_error (v_tasks s) i = Some t -> run_task E s t = Some (s1, Some r) ->
    exists s', step E s (ERun i) = Some s' /\ v_conns s' = v_conns s1 /\ v_tasks s' = firstn i (v_tasks s) ++ [r] ++ skipn (S i) (v_tasks s).
  Proof. intros s i t s1 r Ht F. cbn [step]. rewrite Ht, F. eexists. split; [reflexivity|]. auto. Qed.
  Lemma nth_put : forall (l : list task) i t r, nth_error l i = Some t -> nth_error (firstn i l ++ [r] ++ skipn (S i) l) i = Some r.
  Proof.
    intros l i t r H. assert (Hi : (i < length l)%nat) by (apply nth_error_Some; congruence).
    rewrite nth_error_app2; rewrite firstn_length_le by lia; [|lia]. now rewrite Nat.sub_diag.
  Qed.
  Lemma loop_all : forall todo n es s c p m i, run E (server_new n) es = Some s -> p_id p <> 0 -> p_mode p <= 2 ->
    (forall x, In x todo -> s_mode x <= 2) ->
    (forall x k, In x todo -> aget (v_conns s) (s_conn x) = Some k -> k_open k = true -> k_client k <> None) ->
    nth_error (v_tasks s) i = Some (TLoop c p m (p_id p) todo) ->
    exists j s', run E s (repeat (ERun i) j) = Some s' /\ grow s s' /\
      forall x, In x todo -> listens s (s_conn x) -> reaches s' p m x.
  Proof.
    induction todo as [|x todo IH]; intros n es s c p m i R Hid Hp Hm Hcl Ht.
    - exists O, s. split; [reflexivity|]. split; [apply grow_refl|]. intros x [].
    - assert (Hm' : forall y, In y todo -> s_mode y <= 2) by (intros; apply Hm; now right).
      assert (Next : forall s1, run E (server_new n) (es ++ [ERun i]) = Some s1 -> v_conns s1 = v_conns s ->
        nth_error (v_tasks s1) i = Some (TLoop c p m (p_id p) todo) -> step E s (ERun i) = Some s1 -> ~ listens s (s_conn x) ->
        exists j s', run E s (repeat (ERun i) j) = Some s' /\ grow s s' /\
          forall y, In y (x :: todo) -> listens s (s_conn y) -> reaches s' p m y).
      { intros s1 R1 Ec T1 S1 Nl.
        destruct (IH n (es ++ [ERun i]) s1 c p m i R1 Hid Hp Hm') as (j & s' & Rj & G & D).
        - intros y k Hy. rewrite Ec. apply Hcl. now right.
        - exact T1.
        - exists (S j), s'. cbn [repeat run]. rewrite S1. split; [exact Rj|].
          split; [apply (grow_trans s s1 s'); [now apply grow_conns|exact G]|].
          intros y [<-|Hy] Ly; [contradiction|]. apply D; [assumption|]. destruct Ly as (k & id & Hk & L). exists k, id. now rewrite Ec. }
      destruct (aget (v_conns s) (s_conn x)) as [k|] eqn:Hk.
      + destruct (k_open k) eqn:Ho.
        * assert (Lx : listens s (s_conn x)).
          { destruct (k_client k) as [id|] eqn:Hc; [exists k, id; auto|]. exfalso. exact (Hcl x k (or_introl eq_refl) Hk Ho Hc). }
          (* step 1: to TSend *)
          assert (F1 : run_task E s (TLoop c p m (p_id p) (x :: todo)) = Some (s, Some (TSend c p m (p_id p) x todo))).
          { cbn [run_task]. rewrite Hk, Ho. now rewrite (proj2 (N.eqb_neq _ _) Hid). }
          destruct (task_step _ _ _ _ _ Ht F1) as (s1 & S1 & C1 & T1).
          assert (R1 : run E (server_new n) (es ++ [ERun i]) = Some s1) by (rewrite (run_app E es _ s) by assumption; cbn [run]; now rewrite S1).
          assert (N1 : nth_error (v_tasks s1) i = Some (TSend c p m (p_id p) x todo)) by (rewrite T1; eapply nth_put; exact Ht).
          assert (L1 : listens s1 (s_conn x)) by (apply (grow_listens s s1); [now apply grow_conns|exact Lx]).
          pose proof (inv_reached E HE _ _ _ R1) as I1.
          destruct (send_one None _ s1 c p m x todo I1 Hid Hp (Hm x (or_introl eq_refl)) L1) as (s2 & F2 & G2 & D2).
          destruct (task_step _ _ _ _ _ N1 F2) as (s3 & S3 & C3 & T3).
          assert (R3 : run E (server_new n) ((es ++ [ERun i]) ++ [ERun i]) = Some s3) by (rewrite (run_app E (es ++ [ERun i]) _ s1) by assumption; cbn [run]; now rewrite S3).
          assert (G3 : grow s s3).
          { apply (grow_trans s s1 s3); [apply (grow_conns s s1 C1)|]. apply (grow_trans s1 s2 s3); [exact G2|]. now apply grow_conns. }
          destruct (IH n _ s3 c p m i R3 Hid Hp Hm') as (j & s' & Rj & G & D).
          -- intros y k3 Hy Hk3 Ho3.
             destruct (aget (v_conns s) (s_conn y)) as [ky|] eqn:Hky.
             ++ destruct (G3 _ _ Hky) as (k' & Hk' & O' & C' & _). rewrite Hk3 in Hk'. injection Hk' as <-.
                rewrite C'. apply (Hcl y ky); [now right|assumption|congruence].
             ++ (* no new connections *)
                exfalso. assert (K3 : keeps_sess s s3).
                { apply (ks_trans s s1 s3); [apply (ks_conns s s1 C1)|]. apply (ks_trans s1 s2 s3); [eapply ks_run_task; exact F2|]. now apply ks_conns. }
                destruct (K3 _ _ Hk3) as (k0 & Hk0 & _). congruence.
          -- rewrite T3. eapply nth_put; exact N1.
          -- exists (S (S j)), s'. cbn [repeat run]. rewrite S1, S3. split; [exact Rj|]. split; [eapply grow_trans; eassumption|].
             intros y [<-|Hy] Ly.
             ++ eapply grow_reaches; [exact G|]. apply (grow_reaches s2 s3); [|exact D2]. now apply grow_conns.
             ++ apply D; [assumption|]. eapply grow_listens; eassumption.
        * assert (F1 : run_task E s (TLoop c p m (p_id p) (x :: todo)) = Some (s, Some (TLoop c p m (p_id p) todo))).
          { cbn [run_task]. now rewrite Hk, Ho. }
          destruct (task_step _ _ _ _ _ Ht F1) as (s1 & S1 & C1 & T1). eapply Next; [| | |exact S1|].
          -- rewrite (run_app E es _ s) by assumption. cbn [run]. now rewrite S1.
          -- assumption.
          -- rewrite T1. eapply nth_put; exact Ht.
          -- intros (k0 & id & Hk0 & Ho0 & _). congruence.
      + assert (F1 : run_task E s (TLoop c p m (p_id p) (x :: todo)) = Some (s, Some (TLoop c p m (p_id p) todo))).
        { cbn [run_task]. now rewrite Hk. }
        destruct (task_step _ _ _ _ _ Ht F1) as (s1 & S1 & C1 & T1). eapply Next; [| | |exact S1|].
        * rewrite (run_app E es _ s) by assumption. cbn [run]. now rewrite S1.
        * assumption.
        * rewrite T1. eapply nth_put; exact Ht.
        * intros (k0 & id & Hk0 & Ho0 & _). congruence.
  Qed.
  Lemma ack_conns : forall s c pk, grow s (ack s c pk) /\ v_tasks (ack s c pk) = v_tasks s /\ v_subs (ack s c pk) = v_subs s.
  Proof.
    intros. unfold ack. destruct (is_stuck s c); [split; [apply grow_refl|auto]|]. split; [apply grow_put|].
    unfold put_out. now rewrite on_tasks, on_vsubs.
  Qed.
  Lemma put_client : forall s c pk q k', aget (v_conns (put_out s c pk)) q = Some k' ->
    exists k, aget (v_conns s) q = Some k /\ k_client k' = k_client k /\ k_open k' = k_open k.
  Proof.
    intros s c pk q k'. unfold put_out. rewrite get_on. destruct (q =? c) eqn:F; [|eauto]. assert (q = c) by lia. subst.
    destruct (aget (v_conns s) c) as [k|]; [|discriminate]. cbn. intros [= <-]. exists k. destruct (k_open k) eqn:O; cbn; auto.
  Qed.
  Lemma reached_all : forall s c k id p m0 t, reached E s ->
    aget (v_conns s) c = Some k -> k_open k = true -> k_stuck k = false -> k_client k = Some id ->
    p_id p <> 0 -> p_mode p <= 2 -> p_msgs p = [m0] -> on_publish (k_insecure k) (id_contract id) (pm_topic m0) = VAllowed t ->
    e_store E (st_topic t) (pm_payload m0) = true ->
    (forall x kx, In x (v_subs s) -> aget (v_conns s) (s_conn x) = Some kx -> k_open kx = true -> k_client kx <> None) ->
    (forall x, In x (v_subs s) -> s_mode x <= 2) ->
    exists j s', run E s (EPacket c (QPub p) :: repeat (ERun (length (v_tasks s))) (S j)) = Some s' /\
      In (KCtl tPUBLISH fACK (p_id p)) (out s' c) /\
      forall x, In x (v_subs s) -> s_contract x = id_contract id -> e_match E (s_topic x) (st_topic t) = true ->
        listens s (s_conn x) -> reaches s' p (mkPM (st_name t) (pm_payload m0)) x.
  Proof.
    intros s c k id p m0 t (n & es & R) Hk Ho Hst Hc Hid Hp Hms Hon Hsto Hsub Hmod.
    set (s1 := put_out (set_tasks s (v_tasks s ++ [TPub c p t (pm_payload m0)])) c (KCtl tPUBLISH fACK (p_id p))).
    assert (S1 : step E s (EPacket c (QPub p)) = Some s1).
    { cbn [step]. rewrite Hk, Ho, Hst. cbn [andb negb handle]. rewrite Hms. cbn [pub_msgs]. rewrite Hk. unfold check_pub. rewrite Hc, Hon, Hsto.
      cbn [option_map fst snd]. unfold ack, is_stuck. cbn [set_tasks v_conns]. now rewrite Hk, Hst. }
    set (i := length (v_tasks s)).
    assert (T1 : v_tasks s1 = v_tasks s ++ [TPub c p t (pm_payload m0)]) by (unfold s1; now rewrite put_out_tasks).
    assert (N1 : nth_error (v_tasks s1) i = Some (TPub c p t (pm_payload m0))).
    { rewrite T1, nth_error_app2 by (unfold i; lia). unfold i. now rewrite Nat.sub_diag. }
    assert (G1 : grow s s1) by (eapply grow_trans; [|apply grow_put]; now apply grow_conns).
    assert (B1 : v_subs s1 = v_subs s) by (unfold s1, put_out; now rewrite on_vsubs).
    assert (Old : forall q k', aget (v_conns s1) q = Some k' -> exists k0, aget (v_conns s) q = Some k0 /\ k_client k' = k_client k0 /\ k_open k' = k_open k0).
    { intros q k' H. unfold s1 in H. apply put_client in H. exact H. }
    destruct (G1 _ _ Hk) as (k1 & Hk1 & _ & Hc1 & _). rewrite Hc in Hc1.
    set (found := filter (fun x => (s_contract x =? id_contract id) && e_match E (s_topic x) (st_topic t)) (v_subs s1)).
    set (m := mkPM (st_name t) (pm_payload m0)).
    assert (F2 : run_task E s1 (TPub c p t (pm_payload m0)) = Some (s1, Some (TLoop c p m (p_id p) found))).
    { cbn [run_task]. now rewrite Hk1, Hc1. }
    destruct (task_step _ _ _ _ _ N1 F2) as (s2 & S2 & C2 & T2).
    assert (R2 : run E (server_new n) (es ++ [EPacket c (QPub p); ERun i]) = Some s2).
    { rewrite (run_app E es _ s) by assumption. cbn [run]. now rewrite S1, S2. }
    destruct (loop_all found n _ s2 c p m i R2 Hid Hp) as (j & s' & Rj & G & D).
    - intros x Hx. apply filter_In in Hx. destruct Hx as [Hx _]. rewrite B1 in Hx.
      now apply Hmod.
    - intros x kx Hx. rewrite C2. intros Hkx Hox. apply filter_In in Hx. destruct Hx as [Hx _]. rewrite B1 in Hx.
      destruct (Old _ _ Hkx) as (k0 & Hk0 & Hcc & Hoo). rewrite Hcc. eapply Hsub; [exact Hx|exact Hk0|congruence].
    - rewrite T2. eapply nth_put; exact N1.
    - exists j, s'. cbn [run repeat]. rewrite S1. fold i. rewrite S2. split; [exact Rj|]. split.
      + eapply grow_out; [exact G|]. apply (grow_out s1 s2); [now apply grow_conns|]. unfold s1, out, put_out.
        rewrite get_on, N.eqb_refl. cbn [set_tasks v_conns]. rewrite Hk. cbn [option_map]. rewrite Ho. cbn. apply in_or_app. right. now left.
      + intros x Hx Hcon Hmat Lx. apply D.
        * apply filter_In. rewrite B1. split; [assumption|]. rewrite Hmat. lia.
        * apply (grow_listens s s2); [|exact Lx]. apply (grow_trans s s1 s2); [exact G1|]. now apply grow_conns.
  Qed.
End DELIVER.

Lemma reached_wf : forall E s, reached E s -> wf s.
Proof. intros E s (n & es & R). eapply wf_run; [|exact R]. intros c k H. discriminate H. Qed.
Lemma delivered_r : forall E s i p c sess s1, reached E s -> 0 < p_id p < 2 ^ 16 ->
  delivering s i p c sess -> Forall (task_apart p) (v_tasks s) -> step E s (ERun i) = Some s1 ->
  out s1 c = out s c ++ [KCtl tPUBLISH fNOTIFY (p_id p)] /\
  forall es s2, run_apart E sess (p_id p) s1 es -> run E s1 es = Some s2 ->
  waiting s2 sess (p_id p) p /\
  forall c' ty, serves s2 c' sess ->
  exists s3, step E s2 (EPacket c' (QFlow ty fRECEIVE (p_id p))) = Some s3 /\ out s3 c' = out s2 c' ++ [KPub p].
Proof.
  intros E s i p c sess s1 R Hid D. pose proof (reached_wf _ _ R) as W. apply delivered; auto.
  destruct D as (c0 & m & n & todo & k & _ & _ & _ & _ & _ & Hk & _ & <-). apply (W _ _ Hk).
Qed.
Lemma reconnected_r : forall E s c who ch ins key sess s', orders E -> reached E s ->
  (exists k, aget (v_conns s) c = Some k /\ k_open k = true /\ k_stuck k = false /\ m_hung (k_ids k) = false) ->
  sess_get E (v_log s) (sess_key (session_key who key)) = Some (Some sess) -> N.testbit sess 4 = false ->
  step E s (EPacket c (QConnect (CAccepted who ch) ins false key)) = Some s' ->
  serves s' c sess /\
  exists new, out s' c = out s c ++ new /\
  forall id p, 0 < id < 2 ^ 16 -> p_id p = id -> waiting s sess id p ->
    In (KCtl tPUBLISH fNOTIFY id) new /\ waiting s' sess id p.
Proof. intros E s c who ch ins key sess s' O R. apply reconnected; [assumption|eapply reached_wf; eassumption]. Qed.
Lemma origin_r : forall E n es s c q, parses_small E -> run E (server_new n) es = Some s -> In (KPub q) (out s c) ->
  good_pub E es c q.
Proof. intros E n es s c q HE. now apply origin. Qed.
Lemma own_session_r : forall E n es s c q, parses_small E -> calm es -> run E (server_new n) es = Some s ->
  In (KPub q) (out s c) -> own_pub E es c q.
Proof. intros E n es s c q HE. now apply own_session. Qed.
Lemma crash_r : forall E s ev, parses_small E -> reached E s -> step E s ev = None -> crash_cause E s ev.
Proof. intros E s ev HE (n & es & R). now apply (crash E HE n es). Qed.
Lemma reached_all_r : forall E s c k id p m0 t, parses_small E -> reached E s ->
  aget (v_conns s) c = Some k -> k_open k = true -> k_stuck k = false -> k_client k = Some id ->
  p_id p <> 0 -> p_mode p <= 2 -> p_msgs p = [m0] -> on_publish (k_insecure k) (id_contract id) (pm_topic m0) = VAllowed t ->
  e_store E (st_topic t) (pm_payload m0) = true ->
  (forall x kx, In x (v_subs s) -> aget (v_conns s) (s_conn x) = Some kx -> k_open kx = true -> k_client kx <> None) ->
  (forall x, In x (v_subs s) -> s_mode x <= 2) ->
  exists j s', run E s (EPacket c (QPub p) :: repeat (ERun (length (v_tasks s))) (S j)) = Some s' /\
    In (KCtl tPUBLISH fACK (p_id p)) (out s' c) /\
    forall x, In x (v_subs s) -> s_contract x = id_contract id -> e_match E (s_topic x) (st_topic t) = true ->
      listens s (s_conn x) -> reaches s' p (mkPM (st_name t) (pm_payload m0)) x.
Proof. intros E s c k id p m0 t HE. now apply reached_all. Qed.
