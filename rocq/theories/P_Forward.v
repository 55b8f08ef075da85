(** C92: a publication at a node that does not own the contract reaches the
    subscribers of that node and of the owner. *)
From Coq Require Import Lia ZifyBool ZifyNat ZifyN.
From Verif Require Import M_Bytes M_Keys M_MsgIds M_Conn M_Route S_Conn S_Route P_Conn P_Pending P_Forget P_Deliver P_Client P_Route.
From Verif Require M_Subs.
Open Scope N_scope.

Lemma secure_allows : forall ins contract text t, on_publish false contract text = VAllowed t -> on_publish ins contract text = VAllowed t.
Proof.
  intros ins contract text t. unfold on_publish. destruct (parse_skey text) as [u|]; [|discriminate].
  destruct (st_invalid u); [discriminate|]. destruct (list_eq_dec N.eq_dec (st_key u) kUnitdb); [discriminate|].
  destruct ins; [|auto]. destruct (on_secure contract u) as [e|[]]; [discriminate|discriminate|auto].
Qed.

Section FWD.
  Variable RC : rings.
  Variable E : env.
  Definition upd (l : list task) (i : nat) (t : task) : list task := firstn i l ++ t :: skipn (S i) l.
  Lemma upd_nth : forall l i t0 t, nth_error l i = Some t0 -> nth_error (upd l i t) i = Some t.
  Proof. intros l i t0 t H. eapply (nth_put l i t0 t H). Qed.
  Lemma upd_upd : forall l i t0 t1 t2, nth_error l i = Some t0 -> upd (upd l i t1) i t2 = upd l i t2.
  Proof.
    induction l as [|x l IH]; intros i t0 t1 t2 H; [destruct i; discriminate|]. destruct i as [|i]; [reflexivity|]. cbn in H.
    unfold upd in *. cbn [firstn skipn app]. f_equal. eapply IH; exact H.
  Qed.
  Lemma upd_len : forall l i t0 t, nth_error l i = Some t0 -> length (upd l i t) = length l.
  Proof.
    intros l i t0 t H. assert (Hi : (i < length l)%nat) by (apply nth_error_Some; congruence).
    unfold upd. rewrite app_length. cbn [length]. rewrite firstn_length, skipn_length. lia.
  Qed.
  (** The goroutine of node [n] goes on, only the server of [n] changes. *)
  Definition only (n : nat) (G G' : net) : Prop :=
    (forall m, m <> n -> G' m = G m) /\ cn_fwd (G' n) = cn_fwd (G n) /\ cn_remote (G' n) = cn_remote (G n) /\
    v_subs (cn_srv (G' n)) = v_subs (cn_srv (G n)).
  Lemma only_refl : forall n G, only n G G.
  Proof. intros n G. repeat split; auto. Qed.
  Lemma only_trans : forall n a b c, only n a b -> only n b c -> only n a c.
  Proof.
    intros n a b c (H1 & H2 & H3 & H4) (K1 & K2 & K3 & K4). split; [intros m D; rewrite K1, H1 by assumption; reflexivity|]. repeat split; congruence.
  Qed.
  Lemma node_step : forall G n i t s1 t', nth_error (v_tasks (cn_srv (G n))) i = Some t -> send_gone (G n) t = None ->
    run_task E (cn_srv (G n)) t = Some (s1, Some t') ->
    exists G', c_step RC E G (CRun n i) = Some G' /\ only n G G' /\ v_conns (cn_srv (G' n)) = v_conns s1 /\
      v_tasks (cn_srv (G' n)) = upd (v_tasks (cn_srv (G n))) i t'.
  Proof.
    intros G n i t s1 t' Ht Hg F. cbn [c_step]. unfold run_net. rewrite Ht, Hg.
    assert (S : step E (cn_srv (G n)) (ERun i) = Some (set_tasks s1 (upd (v_tasks (cn_srv (G n))) i t'))) by (cbn [step]; rewrite Ht, F; reflexivity).
    rewrite S. cbn [v_tasks set_tasks]. rewrite (upd_len _ _ _ _ Ht), (proj2 (Nat.ltb_ge _ _)) by lia.
    destruct (run_task_subs _ _ _ _ _ F) as [Sub _].
    assert (X : exists G', Some (put_node G n (mkCN (set_tasks s1 (upd (v_tasks (cn_srv (G n))) i t')) (cn_fwd (G n)) (cn_remote (G n)) (cn_told (G n)))) = Some G' /\ only n G G' /\
      v_conns (cn_srv (G' n)) = v_conns s1 /\ v_tasks (cn_srv (G' n)) = upd (v_tasks (cn_srv (G n))) i t').
    { eexists. split; [reflexivity|]. unfold only. rewrite !put_same. cbn. split; [|auto]. split; [|auto]. intros m D. now apply put_other. }
    destruct t as [c p t pl|c p m id [|y todo]|c p m id y todo]; try exact X. cbn in F. discriminate F.
  Qed.
  Lemma send_ready : forall s c p m n todo, p_id p <> 0 -> p_mode p <= 2 -> deliverable s n -> listens s (s_conn n) ->
    exists s', run_task E s (TSend c p m (p_id p) n todo) = Some (s', Some (TLoop c p m (p_id p) todo)) /\ grow s s' /\ reaches s' p m n.
  Proof.
    intros s c p m n todo Hid Hp [Hn R] (k & id & Hk & Ho & Hc). destruct (R _ Hk Ho) as [_ Hb0]. cbn [run_task]. rewrite Hk.
    assert (X : reliable (p_mode p) && reliable (s_mode n) = false ->
      exists s', match send_message s (s_conn n) (p_id p) (s_mode n) (s_delay n) m with
              | Some (s1, Some i) => Some (s1, Some (TLoop c p m i todo)) | Some (s1, None) => Some (s1, None)
              | None => None end = Some (s', Some (TLoop c p m (p_id p) todo)) /\ grow s s' /\ reaches s' p m n).
    { intro Nr. unfold send_message. rewrite (proj2 (N.eqb_neq _ _) Hid). unfold reaches. rewrite Nr.
      destruct ((s_mode n =? 2) || (0 <? s_delay n)%Z) eqn:Hbt.
      - unfold batch_add. rewrite Hk. destruct (k_batch k) as [l|] eqn:Hb; [|now destruct (Hb0 Hbt)].
        eexists. split; [reflexivity|]. split.
        * intros q k0 Hk0. rewrite get_set. destruct (q =? s_conn n) eqn:F; [|now apply grow_refl].
          assert (q = s_conn n) by lia. subst. rewrite Hk in Hk0. injection Hk0 as <-. eexists. split; [reflexivity|].
          cbn. split; [reflexivity|]. split; [reflexivity|]. split; [exists []; now rewrite app_nil_r|].
          intros l0 Hl0. rewrite Hb in Hl0. injection Hl0 as <-. eauto.
        * eexists. exists (l ++ [m]). rewrite get_set, N.eqb_refl. split; [reflexivity|]. split; [reflexivity|]. apply in_or_app. right. now left.
      - eexists. split; [reflexivity|]. split.
        + eapply grow_trans; [|apply grow_put]. now apply grow_conns.
        + unfold out, put_out. rewrite get_on, N.eqb_refl. cbn [persist_out set_log v_conns]. rewrite Hk. cbn [option_map]. rewrite Ho.
          cbn. apply in_or_app. right. now left. }
    destruct (reliable (p_mode p)) eqn:Rp.
    - destruct (reliable (s_mode n)) eqn:Rn.
      + rewrite Ho. eexists. split; [reflexivity|]. split.
        * eapply grow_trans; [|apply grow_put]. now apply grow_conns.
        * unfold reaches. rewrite Rp, Rn. cbn [andb]. unfold out, put_out. rewrite get_on, N.eqb_refl.
          cbn [persist_out set_log v_conns]. rewrite Hk. cbn [option_map]. rewrite Ho. cbn. apply in_or_app. right. now left.
      + assert (s_mode n = 0) by (unfold reliable in Rn; lia). rewrite H. rewrite H in X. cbn [N.eqb]. now apply X.
    - assert (p_mode p = 0) by (unfold reliable in Rp; lia). rewrite H. cbn [N.eqb]. now apply X.
  Qed.
  Lemma ready_grow : forall s s' x, grow s s' -> keeps_sess s s' -> deliverable s x -> deliverable s' x.
  Proof.
    intros s s' x G K [H R]. split; [assumption|]. intros k' Hk' Ho. destruct (K _ _ Hk') as (k & Hk & _).
    destruct (G _ _ Hk) as (k1 & Hk1 & O1 & C1 & _ & B1). rewrite Hk' in Hk1. injection Hk1 as <-. rewrite O1 in Ho.
    destruct (R _ Hk Ho) as [Rc Rb]. split; [congruence|]. intro Hbt. specialize (Rb Hbt). destruct (k_batch k) as [l|] eqn:Hb; [|contradiction].
    destruct (B1 _ eq_refl) as [l' ->]. discriminate.
  Qed.
  Lemma loop_ready : forall todo G n c p m i, p_id p <> 0 -> p_mode p <= 2 -> Forall (deliverable (cn_srv (G n))) todo ->
    nth_error (v_tasks (cn_srv (G n))) i = Some (TLoop c p m (p_id p) todo) ->
    exists j G', c_run RC E G (repeat (CRun n i) j) = Some G' /\ only n G G' /\ grow (cn_srv (G n)) (cn_srv (G' n)) /\ keeps_sess (cn_srv (G n)) (cn_srv (G' n)) /\
      v_tasks (cn_srv (G' n)) = upd (v_tasks (cn_srv (G n))) i (TLoop c p m (p_id p) []) /\
      forall x, In x todo -> listens (cn_srv (G n)) (s_conn x) -> reaches (cn_srv (G' n)) p m x.
  Proof.
    induction todo as [|x todo IH]; intros G n c p m i Hid Hp Hr Ht.
    - exists O, G. split; [reflexivity|]. split; [apply only_refl|]. split; [apply grow_refl|]. split; [apply ks_refl|]. split; [|intros x []].
      unfold upd. rewrite <- (firstn_skipn i (v_tasks (cn_srv (G n)))) at 1. f_equal.
      clear -Ht. revert Ht. generalize (v_tasks (cn_srv (G n))). induction i as [|i IH]; intros [|y l] H; try discriminate; cbn in H; [injection H as ->; reflexivity|].
      cbn [skipn]. now apply IH.
    - inversion Hr as [|? ? Rx Rt]; subst.
      assert (Next : forall G1, c_step RC E G (CRun n i) = Some G1 -> only n G G1 -> v_conns (cn_srv (G1 n)) = v_conns (cn_srv (G n)) ->
        v_tasks (cn_srv (G1 n)) = upd (v_tasks (cn_srv (G n))) i (TLoop c p m (p_id p) todo) -> ~ listens (cn_srv (G n)) (s_conn x) ->
        exists j G', c_run RC E G (repeat (CRun n i) j) = Some G' /\ only n G G' /\ grow (cn_srv (G n)) (cn_srv (G' n)) /\ keeps_sess (cn_srv (G n)) (cn_srv (G' n)) /\
          v_tasks (cn_srv (G' n)) = upd (v_tasks (cn_srv (G n))) i (TLoop c p m (p_id p) []) /\
          forall y, In y (x :: todo) -> listens (cn_srv (G n)) (s_conn y) -> reaches (cn_srv (G' n)) p m y).
      { intros G1 S1 O1 C1 T1 Nl.
        assert (Gr : grow (cn_srv (G n)) (cn_srv (G1 n))) by now apply grow_conns. assert (Ks : keeps_sess (cn_srv (G n)) (cn_srv (G1 n))) by now apply ks_conns.
        destruct (IH G1 n c p m i Hid Hp) as (j & G' & Rj & O & G2 & K2 & T & D).
        - eapply Forall_impl; [|exact Rt]. intro y. now apply ready_grow.
        - rewrite T1. eapply upd_nth; exact Ht.
        - exists (S j), G'. cbn [repeat c_run]. rewrite S1. split; [exact Rj|]. split; [eapply only_trans; eassumption|]. split; [eapply grow_trans; eassumption|].
          split; [eapply ks_trans; eassumption|]. split; [rewrite T, T1; eapply upd_upd; exact Ht|].
          intros y [<-|Hy] Ly; [contradiction|]. apply D; [assumption|]. eapply grow_listens; eassumption. }
      destruct (aget (v_conns (cn_srv (G n))) (s_conn x)) as [k|] eqn:Hk.
      + destruct (k_open k) eqn:Ho.
        * destruct Rx as [Rm Rx]. destruct (Rx _ Hk Ho) as [Hc _].
          assert (Lx : listens (cn_srv (G n)) (s_conn x)) by (destruct (k_client k) as [id|] eqn:Hcl; [exists k, id; auto|contradiction]).
          assert (F1 : run_task E (cn_srv (G n)) (TLoop c p m (p_id p) (x :: todo)) = Some (cn_srv (G n), Some (TSend c p m (p_id p) x todo))).
          { cbn [run_task]. rewrite Hk, Ho. now rewrite (proj2 (N.eqb_neq _ _) Hid). }
          destruct (node_step _ _ _ _ _ _ Ht eq_refl F1) as (G1 & S1 & O1 & C1 & T1).
          assert (N1 : nth_error (v_tasks (cn_srv (G1 n))) i = Some (TSend c p m (p_id p) x todo)) by (rewrite T1; eapply upd_nth; exact Ht).
          assert (Gr1 : grow (cn_srv (G n)) (cn_srv (G1 n))) by now apply grow_conns. assert (Ks1 : keeps_sess (cn_srv (G n)) (cn_srv (G1 n))) by now apply ks_conns.
          destruct (send_ready (cn_srv (G1 n)) c p m x todo Hid Hp) as (s2 & F2 & G2 & D2).
          { eapply ready_grow; [exact Gr1|exact Ks1|]. now split. }
          { eapply grow_listens; eassumption. }
          assert (Sg : send_gone (G1 n) (TSend c p m (p_id p) x todo) = None).
          { unfold send_gone. rewrite C1, Hk, Ho. now destruct (aget (cn_remote (G1 n)) (s_conn x)). }
          destruct (node_step _ _ _ _ _ _ N1 Sg F2) as (G3 & S3 & O3 & C3 & T3).
          assert (Gr3 : grow (cn_srv (G n)) (cn_srv (G3 n))).
          { eapply grow_trans; [exact Gr1|]. eapply grow_trans; [exact G2|]. now apply grow_conns. }
          assert (Ks3 : keeps_sess (cn_srv (G n)) (cn_srv (G3 n))).
          { eapply ks_trans; [exact Ks1|]. eapply ks_trans; [eapply ks_run_task; exact F2|]. now apply ks_conns. }
          destruct (IH G3 n c p m i Hid Hp) as (j & G' & Rj & O & Gr & Ks & T & D).
          -- eapply Forall_impl; [|exact Rt]. intro y. now apply ready_grow.
          -- rewrite T3. eapply upd_nth; exact N1.
          -- exists (S (S j)), G'. cbn [repeat c_run]. rewrite S1, S3. split; [exact Rj|]. split; [eapply only_trans; [exact O1|eapply only_trans; eassumption]|].
             split; [eapply grow_trans; eassumption|]. split; [eapply ks_trans; eassumption|].
             split. { rewrite T, T3. rewrite (upd_upd _ _ _ _ _ N1), T1. eapply upd_upd; exact Ht. }
             intros y [<-|Hy] Ly.
             ++ eapply grow_reaches; [exact Gr|]. apply (grow_reaches s2); [|exact D2]. now apply grow_conns.
             ++ apply D; [assumption|]. eapply grow_listens; eassumption.
        * assert (F1 : run_task E (cn_srv (G n)) (TLoop c p m (p_id p) (x :: todo)) = Some (cn_srv (G n), Some (TLoop c p m (p_id p) todo))).
          { cbn [run_task]. now rewrite Hk, Ho. }
          destruct (node_step _ _ _ _ _ _ Ht eq_refl F1) as (G1 & S1 & O1 & C1 & T1). eapply Next; try eassumption.
          intros (k0 & id & Hk0 & Ho0 & _). congruence.
      + assert (F1 : run_task E (cn_srv (G n)) (TLoop c p m (p_id p) (x :: todo)) = Some (cn_srv (G n), Some (TLoop c p m (p_id p) todo))).
        { cbn [run_task]. now rewrite Hk. }
        destruct (node_step _ _ _ _ _ _ Ht eq_refl F1) as (G1 & S1 & O1 & C1 & T1). eapply Next; try eassumption.
        intros (k0 & id & Hk0 & Ho0 & _). congruence.
  Qed.
  (** all of one goroutine up to the end of its loop *)
  Lemma task_ready : forall G n c k id p m0 t i, p_id p <> 0 -> p_mode p <= 2 ->
    aget (v_conns (cn_srv (G n))) c = Some k -> k_client k = Some id ->
    (forall x, In x (v_subs (cn_srv (G n))) -> deliverable (cn_srv (G n)) x) ->
    nth_error (v_tasks (cn_srv (G n))) i = Some (TPub c p t (pm_payload m0)) ->
    exists j G', c_run RC E G (repeat (CRun n i) j) = Some G' /\ only n G G' /\ grow (cn_srv (G n)) (cn_srv (G' n)) /\
      v_tasks (cn_srv (G' n)) = upd (v_tasks (cn_srv (G n))) i (TLoop c p (mkPM (st_name t) (pm_payload m0)) (p_id p) []) /\
      forall x, In x (v_subs (cn_srv (G n))) -> s_contract x = id_contract id -> e_match E (s_topic x) (st_topic t) = true ->
        listens (cn_srv (G n)) (s_conn x) -> reaches (cn_srv (G' n)) p (mkPM (st_name t) (pm_payload m0)) x.
  Proof.
    intros G n c k id p m0 t i Hid Hp Hk Hc Hr Ht.
    set (found := filter (fun x => (s_contract x =? id_contract id) && e_match E (s_topic x) (st_topic t)) (v_subs (cn_srv (G n)))).
    set (m := mkPM (st_name t) (pm_payload m0)).
    assert (F2 : run_task E (cn_srv (G n)) (TPub c p t (pm_payload m0)) = Some (cn_srv (G n), Some (TLoop c p m (p_id p) found))).
    { cbn [run_task]. now rewrite Hk, Hc. }
    destruct (node_step _ _ _ _ _ _ Ht eq_refl F2) as (G1 & S1 & O1 & C1 & T1).
    assert (Gr1 : grow (cn_srv (G n)) (cn_srv (G1 n))) by now apply grow_conns. assert (Ks1 : keeps_sess (cn_srv (G n)) (cn_srv (G1 n))) by now apply ks_conns.
    destruct (loop_ready found G1 n c p m i Hid Hp) as (j & G' & Rj & O & Gr & _ & T & D).
    - apply Forall_forall. intros x Hx. apply filter_In in Hx. eapply ready_grow; [exact Gr1|exact Ks1|]. now apply Hr.
    - rewrite T1. eapply upd_nth; exact Ht.
    - exists (S j), G'. cbn [repeat c_run]. rewrite S1. split; [exact Rj|]. split; [eapply only_trans; eassumption|]. split; [eapply grow_trans; eassumption|].
      split; [rewrite T, T1; eapply upd_upd; exact Ht|].
      intros x Hx Hcon Hmat Lx. apply D; [|eapply grow_listens; eassumption]. apply filter_In. split; [assumption|]. rewrite Hmat. lia.
  Qed.

  Lemma nth_pad : forall (l : list bool) i k, nth i (l ++ repeat false k) false = nth i l false.
  Proof.
    intros l i k. destruct (Nat.lt_ge_cases i (length l)) as [H|H]; [now apply app_nth1|]. rewrite app_nth2 by assumption.
    rewrite (nth_overflow l) by assumption. destruct (Nat.lt_ge_cases (i - length l) k) as [H1|H1]; [|apply nth_overflow; now rewrite repeat_length].
    apply (repeat_spec k false). apply nth_In. now rewrite repeat_length.
  Qed.
  Lemma nth_last : forall (l : list task) t, nth_error (l ++ [t]) (length l) = Some t.
  Proof. intros. rewrite nth_error_app2 by lia. now rewrite Nat.sub_diag. Qed.
  Lemma one_msg : forall s c k id p m0 t, aget (v_conns s) c = Some k -> k_client k = Some id -> p_msgs p = [m0] ->
    on_publish false (id_contract id) (pm_topic m0) = VAllowed t -> e_store E (st_topic t) (pm_payload m0) = true ->
    pub_msgs E s c p (p_msgs p) = Some (set_tasks s (v_tasks s ++ [TPub c p t (pm_payload m0)]), true).
  Proof.
    intros s c k id p m0 t Hk Hc Hms Hon Hst. rewrite Hms. cbn [pub_msgs]. rewrite Hk. unfold check_pub. rewrite Hc, (secure_allows _ _ _ _ Hon), Hst. reflexivity.
  Qed.
  Lemma forwarded : forall G n m c k id p m0 t, (length (cn_fwd (G n)) <= length (v_tasks (cn_srv (G n))))%nat ->
    m = rc_ring RC n (id_contract id) -> m <> n -> rc_agree RC n m = true ->
    aget (cn_remote (G n)) c = None -> aget (v_conns (cn_srv (G n))) c = Some k -> k_open k = true -> k_stuck k = false -> k_client k = Some id ->
    p_id p <> 0 -> p_mode p <= 2 -> p_msgs p = [m0] -> on_publish false (id_contract id) (pm_topic m0) = VAllowed t ->
    e_store E (st_topic t) (pm_payload m0) = true ->
    (forall a x, a = n \/ a = m -> In x (v_subs (cn_srv (G a))) -> deliverable (cn_srv (G a)) x) ->
    (forall x, In x (v_subs (cn_srv (G m))) -> s_conn x = c -> batched x = false) ->
    exists j j' G', c_run RC E G (CPacket n c (QPub p) :: repeat (CRun n (length (v_tasks (cn_srv (G n))))) j ++ repeat (CRun m (length (v_tasks (cn_srv (G m))))) j') = Some G' /\
      In (KCtl tPUBLISH fACK (p_id p)) (c_out G' n c) /\
      forall a x, a = n \/ a = m -> In x (v_subs (cn_srv (G a))) -> s_contract x = id_contract id -> e_match E (s_topic x) (st_topic t) = true ->
        listens (cn_srv (G a)) (s_conn x) -> reaches (cn_srv (G' a)) p (mkPM (st_name t) (pm_payload m0)) x.
  Proof.
    intros G n m c k id p m0 t Hl Em Dm Hag Hr Hk Ho Hst Hc Hid Hp Hms Hon Hsto Hsub Hbt.
    (* 1: the packet *)
    set (i := length (v_tasks (cn_srv (G n)))). set (i' := length (v_tasks (cn_srv (G m)))).
    set (s1 := put_out (set_tasks (cn_srv (G n)) (v_tasks (cn_srv (G n)) ++ [TPub c p t (pm_payload m0)])) c (KCtl tPUBLISH fACK (p_id p))).
    assert (H1 : handle E (cn_srv (G n)) c (QPub p) = Some s1).
    { cbn [handle]. rewrite (one_msg _ _ _ _ _ _ _ Hk Hc Hms Hon Hsto). cbn [option_map fst snd]. unfold ack, is_stuck. cbn [set_tasks v_conns]. now rewrite Hk, Hst. }
    set (x1 := started false (set_srv s1 (G n))). set (G1 := put_node (put_node G n (set_srv s1 (G n))) n x1).
    assert (S1 : c_step RC E G (CPacket n c (QPub p)) = Some G1).
    { cbn [c_step]. rewrite Hr, Hk, Ho, Hst. cbn [andb negb]. unfold handle_net. rewrite H1. cbn [lift]. rewrite put_same. reflexivity. }
    assert (N1 : G1 n = x1) by (unfold G1; apply put_same).
    assert (M1 : forall b, b <> n -> G1 b = G b) by (intros b D; unfold G1; now rewrite !put_other).
    assert (T1 : v_tasks s1 = v_tasks (cn_srv (G n)) ++ [TPub c p t (pm_payload m0)]) by (unfold s1; now rewrite put_out_tasks).
    assert (B1 : v_subs s1 = v_subs (cn_srv (G n))) by (unfold s1, put_out; now rewrite on_vsubs).
    assert (Gr1 : grow (cn_srv (G n)) s1) by (eapply grow_trans; [|apply grow_put]; now apply grow_conns).
    assert (Ks1 : keeps_sess (cn_srv (G n)) s1) by (eapply ks_trans; [|apply ks_put_out]; now apply ks_conns).
    destruct (Gr1 _ _ Hk) as (k1 & Hk1 & Ho1 & Hc1 & _). rewrite Hc in Hc1.
    (* 2: the goroutine at n *)
    destruct (task_ready G1 n c k1 id p m0 t i Hid Hp) as (j & G2 & R2 & (O2 & F2 & Rem2 & Sub2) & Gr2 & T2 & D2).
    { rewrite N1. exact Hk1. } { exact Hc1. }
    { rewrite N1. cbn [x1 started set_srv cn_srv]. rewrite B1. intros x Hx. eapply ready_grow; [exact Gr1|exact Ks1|]. apply Hsub; auto. }
    { rewrite N1. cbn [x1 started set_srv cn_srv]. rewrite T1. apply nth_last. }
    set (msg := mkPM (st_name t) (pm_payload m0)) in *.
    rewrite N1 in *. cbn [x1 started set_srv cn_srv cn_fwd cn_remote] in F2, Rem2, Sub2, Gr2, T2, D2.
    assert (L2 : length (v_tasks (cn_srv (G2 n))) = S i).
    { rewrite T2, T1. rewrite (upd_len _ i _ _ (nth_last _ _)). rewrite app_length. cbn [length]. unfold i. lia. }
    assert (N2 : nth_error (v_tasks (cn_srv (G2 n))) i = Some (TLoop c p msg (p_id p) [])).
    { rewrite T2, T1. eapply upd_nth. apply nth_last. }
    (* 3: its end *)
    set (s3 := set_tasks (cn_srv (G2 n)) (firstn i (v_tasks (cn_srv (G2 n))) ++ [] ++ skipn (S i) (v_tasks (cn_srv (G2 n))))).
    assert (St3 : step E (cn_srv (G2 n)) (ERun i) = Some s3) by (cbn [step]; rewrite N2; reflexivity).
    set (x3 := mkCN s3 (firstn i (cn_fwd (G2 n)) ++ skipn (S i) (cn_fwd (G2 n))) (cn_remote (G2 n)) (cn_told (G2 n))).
    set (G3 := put_node G2 n x3).
    destruct (Gr2 _ _ Hk1) as (k2 & Hk2 & Ho2 & Hc2 & _). rewrite Hc1 in Hc2.
    assert (Hfw : nth i (cn_fwd (G2 n)) false = false).
    { rewrite F2, nth_pad. apply nth_overflow. exact Hl. }
    set (x4 := mkCN s3 (cn_fwd x3) (cn_remote x3) ((c, m) :: cn_told x3)). set (G4 := put_node G3 n x4).
    assert (M4 : forall b, b <> n -> G4 b = G b).
    { intros b D. unfold G4, G3. rewrite !put_other by assumption. rewrite O2 by assumption. now apply M1. }
    (* 4: the owner *)
    set (sr := match live (cn_srv (G m)) c with Some _ => (cn_srv (G m), cn_remote (G m)) | None => (set_conn (cn_srv (G m)) c (rpc_conn (k_sess k2) id), aput (cn_remote (G m)) c n) end).
    set (s5 := on_conn (fst sr) c (set_client id)).
    assert (K5 : exists k5, aget (v_conns s5) c = Some k5 /\ k_client k5 = Some id).
    { unfold s5. rewrite get_on, N.eqb_refl. unfold sr. destruct (live (cn_srv (G m)) c) as [k0|] eqn:L; cbn [fst].
      - assert (Hk0 : aget (v_conns (cn_srv (G m))) c = Some k0).
        { unfold live in L. destruct (aget (v_conns (cn_srv (G m))) c) as [k3|]; [|discriminate]. destruct (k_open k3); [exact L|discriminate]. }
        rewrite Hk0. eexists. split; reflexivity.
      - rewrite get_set, N.eqb_refl. eexists. split; reflexivity. }
    assert (E5 : forall b, b <> c -> aget (v_conns s5) b = aget (v_conns (cn_srv (G m))) b).
    { intros b D. unfold s5. rewrite get_on, (proj2 (N.eqb_neq _ _) D). unfold sr. destruct (live (cn_srv (G m)) c); cbn [fst]; [reflexivity|].
      now rewrite get_set, (proj2 (N.eqb_neq _ _) D). }
    assert (T5 : v_tasks s5 = v_tasks (cn_srv (G m)) /\ v_subs s5 = v_subs (cn_srv (G m))).
    { unfold s5. rewrite on_tasks, on_vsubs. unfold sr. now destruct (live (cn_srv (G m)) c). }
    destruct T5 as [T5 B5]. destruct K5 as (k5 & Hk5 & Hc5).
    set (s6 := set_tasks s5 (v_tasks s5 ++ [TPub c p t (pm_payload m0)])).
    set (y6 := started true (mkCN s6 (cn_fwd (G m)) (snd sr) (cn_told (G m)))).
    assert (Ma : master E (G m) n c (k_sess k2) id (QPub p) = Some y6).
    { unfold master. fold sr. rewrite (surjective_pairing sr). fold s5. rewrite (one_msg _ _ _ _ _ _ _ Hk5 Hc5 Hms Hon Hsto). reflexivity. }
    set (G5 := put_node G4 m y6).
    assert (S3 : c_step RC E G2 (CRun n i) = Some G5).
    { cbn [c_step]. unfold run_net. rewrite N2. cbn [send_gone]. rewrite St3. rewrite L2.
      assert (L3 : length (v_tasks s3) = i).
      { unfold s3. cbn [set_tasks v_tasks app]. rewrite app_length, firstn_length, skipn_length, L2. lia. }
      rewrite L3, (proj2 (Nat.ltb_lt _ _)) by lia. fold x3. fold G3. rewrite Hfw. unfold publish_end.
      assert (X : G3 n = x3) by (unfold G3; apply put_same). rewrite X. cbn [x3 cn_srv s3 set_tasks v_conns]. rewrite Hk2, Hc2.
      unfold is_remote. rewrite <- Em, (proj2 (Nat.eqb_neq _ _) Dm). cbn [negb andb]. unfold route. cbv zeta. rewrite <- Em, Hag, X.
      change (put_node G3 n (mkCN (cn_srv x3) (cn_fwd x3) (cn_remote x3) ((c, m) :: cn_told x3))) with G4. rewrite (M4 m Dm), Ma. reflexivity. }
    assert (M5 : G5 m = y6) by (unfold G5; apply put_same).
    assert (N5 : G5 n = x4) by (unfold G5; rewrite put_other by congruence; unfold G4; apply put_same).
    (* 5: the goroutine at m *)
    assert (Dl5 : forall x, In x (v_subs (cn_srv (G m))) -> deliverable s5 x).
    { intros x Hx. destruct (Hsub m x (or_intror eq_refl) Hx) as [Hm Hd]. split; [exact Hm|]. intros kx Hkx Hox.
      destruct (N.eq_dec (s_conn x) c) as [D|D].
      - rewrite D, Hk5 in Hkx. injection Hkx as <-. split; [congruence|]. intro Hb. rewrite (Hbt x Hx D) in Hb. discriminate.
      - rewrite E5 in Hkx by assumption. now apply Hd. }
    assert (Ls5 : forall q, listens (cn_srv (G m)) q -> listens s5 q).
    { intros q (kq & iq & Hkq & Hoq & Hcq). destruct (N.eq_dec q c) as [->|D].
      - exists k5, id. split; [assumption|]. split; [|assumption]. unfold s5 in Hk5. rewrite get_on, N.eqb_refl in Hk5.
        unfold sr in Hk5. unfold live in Hk5. rewrite Hkq, Hoq in Hk5. cbn [fst] in Hk5. rewrite Hkq in Hk5. injection Hk5 as <-. exact Hoq.
      - exists kq, iq. rewrite E5 by assumption. auto. }
    destruct (task_ready G5 m c k5 id p m0 t i' Hid Hp) as (j' & G6 & R6 & (O6 & F6 & Rem6 & Sub6) & Gr6 & T6 & D6).
    { rewrite M5. exact Hk5. } { exact Hc5. }
    { rewrite M5. cbn [y6 started cn_srv s6 set_tasks v_subs]. rewrite B5. intros x Hx. exact (Dl5 x Hx). }
    { rewrite M5. cbn [y6 started cn_srv s6 set_tasks v_tasks]. rewrite T5. apply nth_last. }
    rewrite M5 in *. cbn [y6 started cn_srv s6 set_tasks v_subs] in D6.
    assert (N6 : G6 n = x4) by (rewrite O6 by congruence; exact N5).
    exists (S j), j', G6. split; [|split].
    - cbn [c_run app]. rewrite S1. replace (S j) with (j + 1)%nat by lia. rewrite repeat_app, <- app_assoc. fold i i'.
      rewrite (c_run_app RC E). rewrite R2. cbn [repeat app c_run]. rewrite S3. exact R6.
    - unfold c_out. rewrite N6. cbn [x4 cn_srv]. unfold out. cbn [s3 set_tasks v_conns].
      assert (A1 : In (KCtl tPUBLISH fACK (p_id p)) (out s1 c)).
      { unfold s1, out, put_out. rewrite get_on, N.eqb_refl. cbn [set_tasks v_conns]. rewrite Hk. cbn [option_map]. rewrite Ho. cbn. apply in_or_app. right. now left. }
      exact (grow_out _ _ _ _ Gr2 A1).
    - intros a x [->| ->] Hx Hcon Hmat Lx.
      + rewrite N6. cbn [x4 cn_srv]. apply (grow_reaches (cn_srv (G2 n)) s3); [now apply grow_conns|]. apply D2; auto.
        * now rewrite B1.
        * eapply grow_listens; [exact Gr1|exact Lx].
      + apply D6; auto.
        * now rewrite B5.
        * destruct (Ls5 _ Lx) as (kq & iq & Hq). exists kq, iq. exact Hq.
  Qed.
End FWD.
Lemma forwarded_r : forall RC E starts es G n m c k id p m0 t, apart starts es -> c_run RC E (fresh starts) es = Some G ->
  m = rc_ring RC n (id_contract id) -> m <> n -> rc_agree RC n m = true ->
  aget (cn_remote (G n)) c = None -> aget (v_conns (cn_srv (G n))) c = Some k -> k_open k = true -> k_stuck k = false -> k_client k = Some id ->
  p_id p <> 0 -> p_mode p <= 2 -> p_msgs p = [m0] -> on_publish false (id_contract id) (pm_topic m0) = VAllowed t ->
  e_store E (st_topic t) (pm_payload m0) = true ->
  (forall a x, a = n \/ a = m -> In x (v_subs (cn_srv (G a))) -> deliverable (cn_srv (G a)) x) ->
  (forall x, In x (v_subs (cn_srv (G m))) -> s_conn x = c -> batched x = false) ->
  exists j j' G', c_run RC E G (CPacket n c (QPub p) :: repeat (CRun n (length (v_tasks (cn_srv (G n))))) j ++ repeat (CRun m (length (v_tasks (cn_srv (G m))))) j') = Some G' /\
    In (KCtl tPUBLISH fACK (p_id p)) (c_out G' n c) /\
    forall a x, a = n \/ a = m -> In x (v_subs (cn_srv (G a))) -> s_contract x = id_contract id -> e_match E (s_topic x) (st_topic t) = true ->
      listens (cn_srv (G a)) (s_conn x) -> reaches (cn_srv (G' a)) p (mkPM (st_name t) (pm_payload m0)) x.
Proof.
  intros RC E starts es G n m c k id p m0 t Ap R. apply forwarded.
  assert (O : all_ok es (fun n c => In c (numbers n (starts n) es)) G).
  { eapply (who_run RC E es _ Ap es (fresh starts)); [apply incl_refl| |intros a b Hc; exact Hc|exact R]. intro a. apply node_new_ok. }
  rewrite (o_len _ _ _ _ (O n)). lia.
Qed.
