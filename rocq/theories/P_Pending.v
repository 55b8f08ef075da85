(** C80, C82, C83: the messages of a session that wait for their receipt. *)
From Coq Require Import Lia ZifyBool ZifyNat ZifyN.
From Verif Require Import M_Bytes M_Keys M_MsgIds M_Conn S_Conn P_Conn.
From Verif Require M_Subs.
Open Scope N_scope.

(** ** Well formed numbers *)
Definition keeps_sess (s s' : server) : Prop :=
  forall c k', aget (v_conns s') c = Some k' -> exists k, aget (v_conns s) c = Some k /\ k_sess k' = k_sess k.
Lemma ks_refl : forall s, keeps_sess s s.
Proof. intros s c k H. eauto. Qed.
Lemma ks_trans : forall a b c, keeps_sess a b -> keeps_sess b c -> keeps_sess a c.
Proof. intros a b c H G q k Hk. destruct (G _ _ Hk) as (k1 & H1 & E1). destruct (H _ _ H1) as (k2 & H2 & E2). exists k2. split; [assumption|congruence]. Qed.
Lemma ks_wf : forall s s', keeps_sess s s' -> wf s -> wf s'.
Proof. intros s s' H W c k Hk. destruct (H _ _ Hk) as (k0 & H0 & E0). rewrite E0. now apply (W c). Qed.
Lemma ks_conns : forall s s', v_conns s' = v_conns s -> keeps_sess s s'.
Proof. intros s s' H c k Hk. rewrite H in Hk. eauto. Qed.
Lemma ks_on : forall s c f, (forall k, k_sess (f k) = k_sess k) -> keeps_sess s (on_conn s c f).
Proof.
  intros s c f Hf q k. rewrite get_on. destruct (q =? c) eqn:F; [|eauto]. assert (q = c) by lia. subst.
  destruct (aget (v_conns s) c) as [k0|]; cbn; [|discriminate]. intro H. injection H as <-. exists k0. auto.
Qed.
Lemma ks_aput : forall s s' c k k', aget (v_conns s) c = Some k -> k_sess k' = k_sess k ->
  v_conns s' = aput (v_conns s) c k' -> keeps_sess s s'.
Proof.
  intros s s' c k k' Hk Hs He q kq Hq. rewrite He, aget_aput in Hq. destruct (q =? c) eqn:F; [|eauto].
  assert (q = c) by lia. subst q. injection Hq as <-. eauto.
Qed.
Lemma ks_put_out : forall s c pk, keeps_sess s (put_out s c pk).
Proof. intros. apply ks_on. intro k. now destruct (k_open k). Qed.
Lemma ks_next : forall s c s1 r, next_id s c = (s1, r) -> keeps_sess s s1.
Proof.
  intros s c s1 r H. unfold next_id in H. destruct (aget (v_conns s) c) as [k|] eqn:Hk.
  - destruct (mids_step (k_ids k) (MNext tPUBLISH)) as [m x]. injection H as <- <-.
    eapply ks_aput; [exact Hk| |reflexivity]. reflexivity.
  - injection H as <- <-. apply ks_refl.
Qed.
Lemma ks_batch : forall s c m s1, batch_add s c m = Some s1 -> keeps_sess s s1.
Proof.
  intros s c m s1 H. unfold batch_add in H. destruct (aget (v_conns s) c) as [k|] eqn:Hk.
  - destruct (k_batch k); [|discriminate]. injection H as <-. eapply ks_aput; [exact Hk| |reflexivity]. reflexivity.
  - injection H as <-. apply ks_refl.
Qed.
Lemma ks_send : forall s c id mode delay m s1 r, send_message s c id mode delay m = Some (s1, r) -> keeps_sess s s1.
Proof.
  intros s c id mode delay m s1 r H. apply send_inv in H. destruct H as (s0 & H0 & H1).
  assert (K : keeps_sess s s0).
  { destruct (id =? 0); [eapply ks_next; exact H0|]. destruct H0 as [-> _]. apply ks_refl. }
  destruct r as [i|]; [|subst; exact K]. destruct H1 as [H1| ->].
  - eapply ks_trans; [exact K|]. eapply ks_batch; exact H1.
  - eapply ks_trans; [exact K|]. eapply ks_trans; [|apply ks_put_out]. apply ks_conns, persist_conns.
Qed.
Lemma ks_moves : forall E c q s s', moves E c q s s' -> keeps_sess s s'.
Proof.
  induction 1.
  - apply ks_refl.
  - eapply ks_trans; eassumption.
  - eapply ks_send; eassumption.
  - apply ks_put_out.
  - now apply ks_on.
  - eapply ks_aput; [eassumption| |reflexivity]. reflexivity.
  - eapply ks_aput; [eassumption| |reflexivity]. reflexivity.
  - now apply ks_conns.
Qed.
Lemma ks_close : forall s c s1, close_conn s c = Some s1 -> keeps_sess s s1.
Proof.
  intros s c s1 H. unfold close_conn in H. destruct (aget (v_conns s) c) as [k|] eqn:Hk; [|injection H as <-; apply ks_refl].
  destruct (negb (k_open k)); [injection H as <-; apply ks_refl|].
  destruct (k_subs k); [|destruct (k_client k); [|discriminate]]; injection H as <-;
    (eapply ks_aput; [exact Hk| |reflexivity]; reflexivity).
Qed.
Lemma ks_say : forall s c m s1, say s c m = Some s1 -> keeps_sess s s1.
Proof.
  intros s c m s1 H. unfold say in H. destruct (send_message s c 0 0 0 m) as [[s2 [i|]]|] eqn:F; [| |discriminate]; injection H as <-.
  - eapply ks_send; exact F.
  - eapply ks_trans; [eapply ks_send; exact F|]. now apply ks_on.
Qed.
Lemma ks_resume_key : forall E c s key, keeps_sess s (resume_key E c s key).
Proof.
  intros. unfold resume_key. destruct (log_get E (v_log s) key) as [[p|ty f i]|]; [| |apply ks_refl];
    destruct (N.testbit key 4); try (now apply ks_conns).
  eapply ks_trans; [|apply ks_put_out]. now apply ks_on.
Qed.
Lemma ks_resume : forall E s c b, keeps_sess s (resume E s c b).
Proof.
  intros. unfold resume. generalize (log_keys E (v_log s) b). intro l. revert s.
  induction l as [|x l IH]; intro s; cbn; [apply ks_refl|]. eapply ks_trans; [apply ks_resume_key|apply IH].
Qed.
Lemma wf_set_sess : forall s c n, n < 2 ^ 32 -> wf s -> wf (on_conn s c (set_sess n)).
Proof.
  intros s c n Hn W q k. rewrite get_on. destruct (q =? c) eqn:F; [|apply W]. assert (q = c) by lia. subst.
  destruct (aget (v_conns s) c) as [k0|] eqn:Hk; cbn; [|discriminate]. intro H. injection H as <-. cbn.
  split; [apply (W _ _ Hk)|assumption].
Qed.
Lemma sess_get_lt : forall E l key n, sess_get E l key = Some (Some n) -> n < 2 ^ 32.
Proof.
  intros E l key n H. unfold sess_get in H. destruct (aget l key) as [[p|m]|]; [| |discriminate].
  - destruct (e_head E p); cbn in H; [|discriminate]. injection H as <-. apply u32_lt.
  - injection H as <-. apply u32_lt.
Qed.
Lemma wf_conns : forall s s', v_conns s' = v_conns s -> wf s -> wf s'.
Proof. intros s s' H. apply ks_wf, ks_conns, H. Qed.

(** What CONNECT comes to when the identifier is accepted. *)
Lemma connect_inv : forall E s c id ch ins clean key s', on_connect_msg E s c (CAccepted id ch) ins clean key = Some s' ->
  forall k, aget (v_conns s) c = Some k ->
  let s1 := on_conn (put_out (on_conn s c (set_insecure ins)) c (KCtl tCONNECT fACK 0)) c (set_client id) in
  if m_hung (k_ids k) then s' = on_conn s1 c set_stuck
  else
    let s2 := on_conn s1 c (fun k => set_batch (Some []) (set_ids (fst (mids_step (k_ids k) MReset)) k)) in
    exists s4, match sess_get E (v_log s) (sess_key (session_key id key)) with
               | None => s4 = s2
               | Some None => False
               | Some (Some old) =>
                   s4 = on_conn (if clean then set_log s2 (log_reset E (v_log s2) old) else resume E s2 c old) c (set_sess old)
               end /\
    v_conns s' = v_conns s4 /\ v_tasks s' = v_tasks s4 /\ v_subs s' = v_subs s4 /\
    (forall q, aget (v_log s') q =
       if q =? sess_key (session_key id key) then
         (if (session_key id key =? epoch32 id)%Z then Some (LSess (k_sess k))
          else if q =? u32 (id_epoch id) then Some (LSess (k_sess k)) else Some (LSess (k_sess k)))
       else if (session_key id key =? epoch32 id)%Z then aget (v_log s4) q
       else if q =? u32 (id_epoch id) then Some (LSess (k_sess k)) else aget (v_log s4) q).
Proof.
  intros E s c id ch ins clean key s' H k Hk s1. unfold on_connect_msg in H. fold s1 in H.
  assert (G : exists k1, aget (v_conns s1) c = Some k1 /\ k_ids k1 = k_ids k /\ k_sess k1 = k_sess k).
  { unfold s1, put_out. rewrite get_on, N.eqb_refl, get_on, N.eqb_refl, get_on, N.eqb_refl, Hk.
    cbn [option_map]. eexists. split; [reflexivity|]. now destruct (k_open (set_insecure ins k)). }
  destruct G as (k1 & Hk1 & Hi & Hs). rewrite Hk1, Hi in H.
  destruct (m_hung (k_ids k)); [now injection H as <-|].
  set (s2 := on_conn s1 c _) in *. intro s2'. subst s2'. fold s2.
  assert (Hl : v_log s2 = v_log s).
  { unfold s2, s1. now rewrite !on_log, put_out_log, on_log. }
  rewrite Hl in H. rewrite Hl.
  destruct (sess_get E (v_log s) (sess_key (session_key id key))) as [[old|]|] eqn:Hg; [|discriminate|].
  - match type of H with context [on_conn ?x c (set_sess old)] => set (s4 := on_conn x c (set_sess old)) in * end.
    exists s4. split; [reflexivity|]. rewrite Hs in H. injection H as <-.
    destruct (session_key id key =? epoch32 id)%Z; cbn [set_log v_log v_conns v_tasks v_subs]; repeat split; intro q; rewrite ?aget_aput;
      destruct (q =? sess_key (session_key id key)); try reflexivity; now destruct (q =? u32 (id_epoch id)).
  - exists s2. split; [reflexivity|]. rewrite Hs in H. injection H as <-.
    destruct (session_key id key =? epoch32 id)%Z; cbn [set_log v_log v_conns v_tasks v_subs]; repeat split; intro q; rewrite ?aget_aput;
      destruct (q =? sess_key (session_key id key)); try reflexivity; now destruct (q =? u32 (id_epoch id)).
Qed.
Lemma wf_connect : forall E s c who ins clean key s', wf s -> on_connect_msg E s c who ins clean key = Some s' -> wf s'.
Proof.
  intros E s c who ins clean key s' W H.
  assert (W0 : wf (put_out (on_conn s c (set_insecure ins)) c (KCtl tCONNECT fACK 0))).
  { eapply ks_wf; [apply ks_put_out|]. eapply ks_wf; [|exact W]. now apply ks_on. }
  destruct who as [|id ch|id].
  - discriminate.
  - destruct (aget (v_conns s) c) as [k|] eqn:Hk.
    + pose proof (connect_inv _ _ _ _ _ _ _ _ _ H _ Hk) as G. cbv zeta in G.
      set (s1 := on_conn _ c (set_client id)) in G.
      assert (W1 : wf s1) by (eapply ks_wf; [|exact W0]; now apply ks_on).
      destruct (m_hung (k_ids k)); [subst; eapply ks_wf; [|exact W1]; now apply ks_on|].
      destruct G as (s4 & G4 & Gc & _). eapply wf_conns; [exact Gc|].
      set (s2 := on_conn s1 c _) in G4.
      assert (W2 : wf s2) by (eapply ks_wf; [|exact W1]; now apply ks_on).
      destruct (sess_get _ _ _) as [[old|]|] eqn:F; [|contradiction|now subst].
      subst s4. apply wf_set_sess; [eapply sess_get_lt; exact F|].
      destruct clean; [eapply wf_conns; [|exact W2]; reflexivity|]. eapply ks_wf; [apply ks_resume|exact W2].
    + unfold on_connect_msg in H.
      assert (G : aget (v_conns (on_conn (put_out (on_conn s c (set_insecure ins)) c (KCtl tCONNECT fACK 0)) c (set_client id))) c = None).
      { unfold put_out. now rewrite get_on, N.eqb_refl, get_on, N.eqb_refl, get_on, N.eqb_refl, Hk. }
      rewrite G in H. injection H as <-. eapply ks_wf; [|exact W0]. now apply ks_on.
  - cbn in H. destruct (say _ c (mkPM tClientid id)) as [s1|] eqn:F; [|discriminate].
    assert (W1 : wf s1) by (eapply ks_wf; [eapply ks_say; exact F|exact W0]).
    destruct (is_stuck s1 c); [now injection H as <-|]. eapply ks_wf; [eapply ks_close; exact H|exact W1].
Qed.
Lemma persist_in_conns : forall s b pk, v_conns (persist_in s b pk) = v_conns s.
Proof. intros s b [p|ty f i]; cbn; [reflexivity|]. now destruct (f =? fRECEIPT). Qed.
Lemma ks_flow : forall E s c ty flow id s', on_flow E s c ty flow id = Some s' -> keeps_sess s s'.
Proof.
  intros E s c ty flow id s' H. unfold on_flow in H.
  destruct (aget (v_conns s) c) as [k|] eqn:Hk; [|injection H as <-; apply ks_refl].
  set (s1 := if match k_client k with Some _ => true | None => false end then _ else s) in *.
  assert (K : keeps_sess s s1) by (unfold s1; destruct (k_client k); apply ks_conns; [apply persist_in_conns|reflexivity]).
  destruct (flow =? fRECEIVE).
  - destruct (log_get E (v_log s1) _) as [[p|]|].
    + injection H as <-. eapply ks_trans; [exact K|apply ks_put_out].
    + injection H as <-. exact K.
    + eapply ks_trans; [exact K|eapply ks_close; exact H].
  - destruct (flow =? fRECEIPT); [|injection H as <-; exact K]. injection H as <-.
    eapply ks_trans; [|apply ks_put_out]. eapply ks_trans; [exact K|]. apply ks_conns.
    destruct (k_client k); reflexivity.
Qed.
Lemma ks_run_task : forall E s t s1 r, run_task E s t = Some (s1, r) -> keeps_sess s s1.
Proof.
  intros E s t s1 r H. destruct t as [c p t pl|c p m id [|n todo]|c p m id n todo]; cbn in H.
  - destruct (aget (v_conns s) c) as [k|]; [destruct (k_client k); [|discriminate]|]; injection H as <- <-; apply ks_refl.
  - injection H as <- <-. apply ks_refl.
  - destruct (aget (v_conns s) (s_conn n)) as [k|]; [destruct (k_open k)|]; try (injection H as <- <-; apply ks_refl).
    destruct (id =? 0).
    + destruct (next_id s c) as [s2 [i|]] eqn:F; injection H as <- <-; eapply ks_next; exact F.
    + injection H as <- <-. apply ks_refl.
  - destruct (aget (v_conns s) (s_conn n)) as [k|] eqn:Hk; [|injection H as <- <-; apply ks_refl].
    assert (X : forall s1 r, match send_message s (s_conn n) id (s_mode n) (s_delay n) m with
              | Some (s1, Some i) => Some (s1, Some (TLoop c p m i todo)) | Some (s1, None) => Some (s1, None)
              | None => None end = Some (s1, r) -> keeps_sess s s1).
    { intros s2 r2. destruct (send_message _ _ _ _ _ _) as [[s3 [i|]]|] eqn:F; intro G; [| |discriminate];
        injection G as <- <-; eapply ks_send; exact F. }
    destruct (reliable (p_mode p)).
    + destruct (reliable (s_mode n)).
      * destruct (k_open k); [|discriminate]. injection H as <- <-.
        eapply ks_trans; [|apply ks_put_out]. now apply ks_conns.
      * destruct (s_mode n =? 0); [eapply X; exact H|]. injection H as <- <-. apply ks_refl.
    + destruct (p_mode p =? 0); [eapply X; exact H|]. injection H as <- <-. apply ks_refl.
Qed.
Lemma ks_send_batch : forall s c, keeps_sess s (send_batch s c).
Proof.
  intros. unfold send_batch. destruct (aget (v_conns s) c) as [k|] eqn:Hk; [|apply ks_refl].
  destruct (k_batch k) as [[|m l]|]; try apply ks_refl. destruct (k_open k); [|apply ks_refl].
  destruct (next_id _ c) as [s1 r] eqn:F.
  assert (K : keeps_sess s s1).
  { eapply ks_trans; [|eapply ks_next; exact F]. eapply ks_aput; [exact Hk| |reflexivity]. reflexivity. }
  destruct r; [|exact K]. eapply ks_trans; [exact K|]. eapply ks_trans; [|apply ks_put_out]. apply ks_conns, persist_conns.
Qed.
Lemma wf_step : forall E s ev s', wf s -> step E s ev = Some s' -> wf s'.
Proof.
  intros E s ev s' W H. destruct ev as [|c q|i|c|c|n]; cbn in H.
  - injection H as <-. intros c k. cbn [v_conns]. rewrite aget_aput. destruct (c =? _) eqn:F; [|apply W].
    intro G. injection G as <-. cbn. pose proof (u32_lt (v_next s + 1)). split; [lia|assumption].
  - destruct (aget (v_conns s) c) as [k|]; [|now injection H as <-].
    destruct (k_open k && negb (k_stuck k)); [|now injection H as <-].
    destruct q as [who ins cl key|l id|l id|p|l id| |ty flow id];
      try (eapply ks_wf; [eapply ks_moves, handle_moves; [|exact H]; exact I|exact W]).
    + eapply wf_connect; [exact W|exact H].
    + eapply ks_wf; [eapply ks_flow; exact H|exact W].
  - destruct (nth_error (v_tasks s) i) as [t|]; [|now injection H as <-].
    destruct (run_task E s t) as [[s1 r]|] eqn:F; [|discriminate]. injection H as <-.
    eapply wf_conns; [|eapply ks_wf; [eapply ks_run_task; exact F|exact W]]. reflexivity.
  - injection H as <-. eapply ks_wf; [apply ks_send_batch|exact W].
  - eapply ks_wf; [eapply ks_close; exact H|exact W].
  - injection H as <-. intros c k G. discriminate.
Qed.
Lemma wf_new : forall n, wf (server_new n).
Proof. intros n c k H. discriminate. Qed.
Lemma wf_run : forall E es s s', wf s -> run E s es = Some s' -> wf s'.
Proof.
  induction es as [|ev es IH]; cbn; intros s s' W H; [now injection H as <-|].
  destruct (step E s ev) as [s1|] eqn:F; [|discriminate]. eapply IH; [|exact H]. eapply wf_step; eassumption.
Qed.

(** ** The log at one key *)
  Lemma reliable_iff : forall m, reliable m = true <-> m = 1 \/ m = 2.
  Proof. intro m. unfold reliable. destruct (m =? 1) eqn:A; destruct (m =? 2) eqn:B; cbn; split; try lia; intuition lia. Qed.
  Lemma Forall_replace : forall (P : task -> Prop) l i r, Forall P l -> match r with Some t => P t | None => True end ->
    Forall P (firstn i l ++ match r with Some t' => [t'] | None => [] end ++ skipn (S i) l).
  Proof.
    intros P l i r H G. assert (A : Forall P (firstn i l)) by (rewrite <- (firstn_skipn i l) in H; now apply Forall_app in H).
    assert (B : Forall P (skipn (S i) l)) by (rewrite <- (firstn_skipn (S i) l) in H; now apply Forall_app in H).
    apply Forall_app. split; [assumption|]. apply Forall_app. split; [destruct r; auto|assumption].
  Qed.
  Lemma idx_incl : forall l z ty x, In x (map fst l) -> In x (map fst (idx_put l z ty)).
  Proof.
    intros l z ty x H. unfold idx_put. cbn. destruct (Z.eq_dec z x); [now left|right].
    apply in_map_iff in H. destruct H as ([a b] & <- & H). apply in_map_iff. exists (a, b). split; [reflexivity|].
    apply filter_In. split; [assumption|]. cbn in *. lia.
  Qed.
Section FRAME.
  Variable E : env.
  Variable sess id : N.
  Hypothesis Hsess : sess < 2 ^ 32.
  Hypothesis Hid : 0 < id < 2 ^ 16.
  Let key := log_key id sess.
  Definition fr (s s' : server) : Prop :=
    incl (assigned s sess) (assigned s' sess) /\
    (~ In id (assigned s' sess) -> aget (v_log s') key = aget (v_log s) key).
  Lemma fr_refl : forall s, fr s s.
  Proof. intro s. split; [easy|auto]. Qed.
  Lemma fr_trans : forall a b c, fr a b -> fr b c -> fr a c.
  Proof.
    intros a b c [I1 L1] [I2 L2]. split; [eapply incl_tran; eassumption|].
    intro H. rewrite (L2 H). apply L1. intro G. apply H, I2, G.
  Qed.
  Lemma assigned_conns : forall s s' c, v_conns s' = v_conns s -> assigned s' c = assigned s c.
  Proof. intros s s' c H. unfold assigned. now rewrite H. Qed.
  Lemma fr_same : forall s s', v_conns s' = v_conns s -> aget (v_log s') key = aget (v_log s) key -> fr s s'.
  Proof. intros s s' H G. split; [rewrite (assigned_conns s s') by assumption; easy|auto]. Qed.
  Lemma assigned_on : forall s c f q, (forall k, m_index (k_ids (f k)) = m_index (k_ids k)) ->
    assigned (on_conn s c f) q = assigned s q.
  Proof.
    intros s c f q Hf. unfold assigned. rewrite get_on. destruct (q =? c) eqn:F; [|reflexivity].
    assert (q = c) by lia. subst. destruct (aget (v_conns s) c); cbn; [|reflexivity]. now rewrite Hf.
  Qed.
  Lemma fr_on : forall s c f, (forall k, m_index (k_ids (f k)) = m_index (k_ids k)) -> fr s (on_conn s c f).
  Proof. intros s c f Hf. split; [rewrite assigned_on by assumption; easy|]. now rewrite on_log. Qed.
  Lemma fr_put_out : forall s c pk, fr s (put_out s c pk).
  Proof. intros. apply fr_on. intro k. now destruct (k_open k). Qed.
  Lemma fr_aput : forall s s' c k k', aget (v_conns s) c = Some k -> m_index (k_ids k') = m_index (k_ids k) ->
    v_conns s' = aput (v_conns s) c k' -> v_log s' = v_log s -> fr s s'.
  Proof.
    intros s s' c k k' Hk Hm Hc Hl. split; [|now rewrite Hl]. unfold assigned. rewrite Hc, aget_aput.
    destruct (sess =? c) eqn:F; [|easy]. assert (c = sess) by lia. subst. rewrite Hk, Hm. easy.
  Qed.
  Lemma assigned_map : forall s c, assigned s c =
    match aget (v_conns s) c with Some k => map (fun z => Z.to_N (z mod 2 ^ 16)) (map fst (m_index (k_ids k))) | None => [] end.
  Proof. intros. unfold assigned. destruct (aget (v_conns s) c); [|reflexivity]. now rewrite map_map. Qed.
  Lemma next_inv : forall s c s1 r, next_id s c = (s1, r) ->
    v_log s1 = v_log s /\ v_tasks s1 = v_tasks s /\ v_subs s1 = v_subs s /\
    (forall q, incl (assigned s q) (assigned s1 q)) /\ (forall i, r = Some i -> In i (assigned s1 c) /\ exists k, aget (v_conns s) c = Some k).
  Proof.
    intros s c s1 r H. unfold next_id in H. destruct (aget (v_conns s) c) as [k|] eqn:Hk.
    - assert (Same : forall m, m_index m = m_index (k_ids k) -> forall q, incl (assigned s q) (assigned (set_conn s c (set_ids m k)) q)).
      { intros m Hm q. rewrite !assigned_map. cbn [set_conn v_conns].
        rewrite aget_aput. destruct (q =? c) eqn:F; [|easy]. assert (q = c) by lia. subst. rewrite Hk. cbn [set_ids k_ids]. rewrite Hm. easy. }
      unfold mids_step in H. destruct (m_hung (k_ids k)).
      + injection H as <- <-. split; [reflexivity|]. split; [reflexivity|]. split; [reflexivity|]. split; [now apply Same|easy].
      + destruct (zmem (i32 (m_id (k_ids k) + 1)) (m_resume (k_ids k))); injection H as <- <-;
          (split; [reflexivity|]; split; [reflexivity|]; split; [reflexivity|]).
        * split; [now apply Same|easy].
        * split.
          -- intros q x. rewrite !assigned_map. cbn [set_conn v_conns].
             rewrite aget_aput. destruct (q =? c) eqn:F; [|easy]. assert (q = c) by lia. subst. rewrite Hk.
             cbn [set_ids k_ids m_index]. intro Hx. apply in_map_iff in Hx. destruct Hx as (z & <- & Hz).
             apply in_map_iff. exists z. split; [reflexivity|]. now apply idx_incl.
          -- intros i [= <-]. split; [|eauto]. rewrite assigned_map. cbn [set_conn v_conns]. rewrite aget_aput, N.eqb_refl.
             cbn [set_ids k_ids m_index]. left. reflexivity.
    - injection H as <- <-. split; [reflexivity|]. split; [reflexivity|]. split; [reflexivity|]. split; easy.
  Qed.
  Lemma fr_next : forall s c s1 r, next_id s c = (s1, r) -> fr s s1.
  Proof. intros s c s1 r H. destruct (next_inv _ _ _ _ H) as (L & _ & _ & I & _). split; [apply I|]. now rewrite L. Qed.
  Lemma fr_persist : forall s b p, ~ (p_id p = id /\ b = sess) -> b < 2 ^ 32 -> fr s (persist_out s b (KPub p)).
  Proof.
    intros s b p H Hb. apply fr_same; [reflexivity|]. cbn [persist_out set_log v_log]. rewrite aget_aput.
    destruct (key =? log_key (p_id p) b) eqn:F; [|reflexivity]. exfalso. apply H.
    apply N.eqb_eq in F. unfold key in F. apply log_key_inj in F; [|assumption|assumption]. destruct F; auto.
  Qed.
  Lemma fr_batch : forall s c m s1, batch_add s c m = Some s1 -> fr s s1.
  Proof.
    intros s c m s1 H. unfold batch_add in H. destruct (aget (v_conns s) c) as [k|] eqn:Hk.
    - destruct (k_batch k); [|discriminate]. injection H as <-. eapply fr_aput; [exact Hk| |reflexivity|reflexivity]. reflexivity.
    - injection H as <-. apply fr_refl.
  Qed.
  (** A persisted message whose identifier the connection handed out itself. *)
  Lemma fr_own : forall s0 c i mode l, c < 2 ^ 32 -> In i (assigned s0 c) ->
    fr s0 (put_out (persist_out s0 c (KPub (mkPub i mode l))) c (KPub (mkPub i mode l))).
  Proof.
    intros s0 c i mode l Hc Hi. eapply fr_trans; [|apply fr_put_out].
    destruct (N.eq_dec i id) as [->|Hn].
    - destruct (N.eq_dec c sess) as [->|Hn].
      + split; [exact (incl_refl (assigned s0 sess))|]. intro H. exfalso. apply H. exact Hi.
      + apply fr_persist; [cbn; tauto|assumption].
    - apply fr_persist; [cbn; tauto|assumption].
  Qed.
  Lemma fr_send : forall s c i mode delay m s1 r, wf s -> (i = 0 \/ i <> id /\ c < 2 ^ 32) ->
    send_message s c i mode delay m = Some (s1, r) -> fr s s1.
  Proof.
    intros s c i mode delay m s1 r W Hi H. apply send_inv in H. destruct H as (s0 & H0 & H1).
    destruct (i =? 0) eqn:F.
    - pose proof (fr_next _ _ _ _ H0) as K. destruct r as [j|]; [|now subst]. destruct H1 as [H1| ->].
      + eapply fr_trans; [exact K|eapply fr_batch; exact H1].
      + eapply fr_trans; [exact K|]. destruct (next_inv _ _ _ _ H0) as (_ & _ & _ & _ & G).
        destruct (G j eq_refl) as (Hj & k & Hk). apply fr_own; [apply (W _ _ Hk)|assumption].
    - destruct H0 as [-> ->]. assert (Hi' : i <> id /\ c < 2 ^ 32) by (destruct Hi; [lia|assumption]). destruct Hi' as [Hn Hc].
      destruct H1 as [H1| ->].
      + eapply fr_batch; exact H1.
      + eapply fr_trans; [|apply fr_put_out]. apply fr_persist; [cbn; tauto|assumption].
  Qed.
  Lemma fr_moves : forall c q s s', moves E c q s s' -> wf s -> fr s s'.
  Proof.
    induction 1; intro W.
    - apply fr_refl.
    - eapply fr_trans; [now apply IHmoves1|]. apply IHmoves2. eapply ks_wf; [|exact W]. eapply ks_moves; eassumption.
    - eapply fr_send; [exact W| |eassumption]. now left.
    - apply fr_put_out.
    - now apply fr_on.
    - eapply fr_aput; [eassumption| |reflexivity|reflexivity]. reflexivity.
    - eapply fr_aput; [eassumption| |reflexivity|reflexivity]. reflexivity.
    - now apply fr_same.
  Qed.
  Lemma fr_close : forall s c s1, close_conn s c = Some s1 -> fr s s1.
  Proof.
    intros s c s1 H. unfold close_conn in H. destruct (aget (v_conns s) c) as [k|] eqn:Hk; [|injection H as <-; apply fr_refl].
    destruct (negb (k_open k)); [injection H as <-; apply fr_refl|].
    destruct (k_subs k); [|destruct (k_client k); [|discriminate]]; injection H as <-;
      (eapply fr_aput; [exact Hk| |reflexivity|reflexivity]; reflexivity).
  Qed.
  Lemma fr_say : forall s c m s1, wf s -> say s c m = Some s1 -> fr s s1.
  Proof.
    intros s c m s1 W H. unfold say in H. destruct (send_message s c 0 0 0 m) as [[s2 [i|]]|] eqn:F; [| |discriminate]; injection H as <-.
    - eapply fr_send; [exact W| |exact F]. now left.
    - eapply fr_trans; [eapply fr_send; [exact W| |exact F]; now left|]. now apply fr_on.
  Qed.
  (** ** [resume] and [Reset] *)
  Lemma fr_resume_other : forall c s q, q <> key -> fr s (resume_key E c s q).
  Proof.
    intros c s q H. unfold resume_key.
    assert (G : fr s (set_log s (adel (v_log s) q))).
    { apply fr_same; [reflexivity|]. cbn [set_log v_log]. rewrite aget_adel. destruct (key =? q) eqn:F; [lia|reflexivity]. }
    destruct (log_get E (v_log s) q) as [[p|ty f i]|]; [| |apply fr_refl]; destruct (N.testbit q 4); try exact G.
    eapply fr_trans; [|apply fr_put_out]. apply fr_on. intro k. cbn. unfold mids_step. now destruct (m_hung (k_ids k)).
  Qed.
  Lemma fr_resume_key : forall c s p, aget (v_log s) key = Some (LPkt (KPub p)) -> N.testbit key 4 = false ->
    fr s (resume_key E c s key).
  Proof.
    intros c s p H B. unfold resume_key, log_get. rewrite H, B.
    eapply fr_trans; [|apply fr_put_out]. apply fr_on. intro k. cbn. unfold mids_step. now destruct (m_hung (k_ids k)).
  Qed.
  Lemma testbit_key : N.testbit key 4 = N.testbit sess 4.
  Proof.
    unfold key. rewrite log_key_eq, u32_small by assumption.
    rewrite <- (N.mod_pow2_bits_low (id * 2 ^ 32 + sess) 32 4) by reflexivity.
    rewrite N.add_comm, N.mod_add by discriminate. rewrite N.mod_small by assumption. reflexivity.
  Qed.
  Lemma resume_log_same : forall c q s, resume_key E c s q = resume_key E c s q /\
    (q <> key -> aget (v_log (resume_key E c s q)) key = aget (v_log s) key).
  Proof.
    intros c q s. split; [reflexivity|]. intro H. unfold resume_key.
    assert (G : aget (v_log (set_log s (adel (v_log s) q))) key = aget (v_log s) key).
    { cbn [set_log v_log]. rewrite aget_adel. destruct (key =? q) eqn:F; [lia|reflexivity]. }
    destruct (log_get E (v_log s) q) as [[p|ty f i]|]; [| |reflexivity]; destruct (N.testbit q 4); try exact G.
    now rewrite put_out_log, on_log.
  Qed.
  Lemma fr_resume : forall c b s p, aget (v_log s) key = Some (LPkt (KPub p)) -> b < 2 ^ 32 ->
    (b = sess -> N.testbit sess 4 = false) ->
    fr s (resume E s c b) /\ aget (v_log (resume E s c b)) key = Some (LPkt (KPub p)).
  Proof.
    intros c b s p H Hb HB. unfold resume.
    assert (Hl : forall q, In q (log_keys E (v_log s) b) -> q = key -> b = sess).
    { intros q Hq ->. apply filter_In in Hq. destruct Hq as [_ Hq]. now apply has_prefix_iff in Hq. }
    revert H Hl. generalize (log_keys E (v_log s) b). intro l. revert s.
    induction l as [|q l IH]; intros s H Hl; cbn [fold_left]; [split; [apply fr_refl|assumption]|].
    assert (G : fr s (resume_key E c s q) /\ aget (v_log (resume_key E c s q)) key = Some (LPkt (KPub p))).
    { destruct (N.eq_dec q key) as [->|Hn].
      - assert (B : N.testbit key 4 = false) by (rewrite testbit_key; apply HB; eapply Hl; [left; reflexivity|reflexivity]).
        split; [eapply fr_resume_key; eassumption|].
        unfold resume_key, log_get. rewrite H, B, put_out_log, on_log. exact H.
      - split; [now apply fr_resume_other|]. now rewrite (proj2 (resume_log_same c q s) Hn). }
    destruct G as [G1 G2]. destruct (IH _ G2) as [G3 G4]; [intros; eapply Hl; [right; eassumption|assumption]|].
    split; [eapply fr_trans; eassumption|assumption].
  Qed.
  Lemma reset_other : forall l b, b < 2 ^ 32 -> b <> sess -> aget (log_reset E l b) key = aget l key.
  Proof.
    intros l b Hb Hn. unfold log_reset.
    assert (Hl : forall q, In q (log_keys E l b) -> q <> key).
    { intros q Hq ->. apply filter_In in Hq. destruct Hq as [_ Hq]. now apply has_prefix_iff in Hq. }
    revert Hl. generalize (log_keys E l b). intro ks. revert l. induction ks as [|q ks IH]; intros l Hl; cbn; [reflexivity|].
    rewrite IH by (intros; apply Hl; now right). rewrite aget_adel.
    destruct (key =? q) eqn:F; [|reflexivity]. exfalso. apply (Hl q); [now left|lia].
  Qed.

  Lemma moves_tasks : forall c q s s', moves E c q s s' ->
    exists l, v_tasks s' = v_tasks s ++ l /\ Forall (fun t => exists p t' pl, q = QPub p /\ t = TPub c p t' pl) l.
  Proof.
    induction 1; try (exists []; rewrite app_nil_r; split; [reflexivity|constructor]).
    - destruct IHmoves1 as (l1 & E1 & F1), IHmoves2 as (l2 & E2 & F2). exists (l1 ++ l2).
      rewrite E2, E1, app_assoc. split; [reflexivity|now apply Forall_app].
    - exists []. rewrite app_nil_r. split; [|constructor]. apply send_inv in H. destruct H as (s0 & G0 & G1).
      cbn in G0. destruct (next_inv _ _ _ _ G0) as (_ & T & _). rewrite <- T.
      destruct r; [|now subst]. destruct G1 as [G1| ->].
      + unfold batch_add in G1. destruct (aget (v_conns s0) c) as [k|]; [destruct (k_batch k); [|discriminate]|];
          now injection G1 as <-.
      + now rewrite put_out_tasks, persist_tasks.
    - exists []. rewrite app_nil_r, put_out_tasks. split; [reflexivity|constructor].
    - exists []. rewrite app_nil_r, on_tasks. split; [reflexivity|constructor].
    - eexists. split; [reflexivity|]. constructor; [|constructor]. eauto 6.
  Qed.
  Lemma close_tasks : forall s c s1, close_conn s c = Some s1 -> v_tasks s1 = v_tasks s.
  Proof.
    intros s c s1 H. unfold close_conn in H. destruct (aget (v_conns s) c) as [k|]; [|now injection H as <-].
    destruct (negb (k_open k)); [now injection H as <-|].
    destruct (k_subs k); [|destruct (k_client k); [|discriminate]]; now injection H as <-.
  Qed.
  Lemma say_tasks : forall s c m s1, say s c m = Some s1 -> v_tasks s1 = v_tasks s.
  Proof.
    intros s c m s1 H. unfold say in H. destruct (send_message s c 0 0 0 m) as [[s2 r]|] eqn:F; [|discriminate].
    assert (T : v_tasks s2 = v_tasks s).
    { apply send_inv in F. destruct F as (s0 & G0 & G1). cbn in G0. destruct (next_inv _ _ _ _ G0) as (_ & T & _).
      rewrite <- T. destruct r; [|now subst]. destruct G1 as [G1| ->].
      - unfold batch_add in G1. destruct (aget (v_conns s0) c) as [k|]; [destruct (k_batch k); [|discriminate]|];
          now injection G1 as <-.
      - now rewrite put_out_tasks, persist_tasks. }
    destruct r; injection H as <-; [assumption|]. now rewrite on_tasks.
  Qed.
  Lemma resume_tasks : forall c b s, v_tasks (resume E s c b) = v_tasks s.
  Proof.
    intros c b s. unfold resume. generalize (log_keys E (v_log s) b). intro l. revert s.
    induction l as [|q l IH]; intro s; cbn [fold_left]; [reflexivity|]. rewrite IH. unfold resume_key.
    destruct (log_get E (v_log s) q) as [[x|ty f i]|]; [| |reflexivity]; destruct (N.testbit q 4); try reflexivity.
    now rewrite put_out_tasks, on_tasks.
  Qed.
  Lemma connect_tasks : forall s c who ins clean k s', on_connect_msg E s c who ins clean k = Some s' -> v_tasks s' = v_tasks s.
  Proof.
    intros s c who ins clean ky s' H. destruct who as [|ci ch|ci]; [discriminate| |].
    - destruct (aget (v_conns s) c) as [k|] eqn:Hk.
      + pose proof (connect_inv _ _ _ _ _ _ _ _ _ H _ Hk) as G. cbv zeta in G. destruct (m_hung (k_ids k)).
        * subst. now rewrite !on_tasks, put_out_tasks, on_tasks.
        * destruct G as (s4 & G4 & _ & Gt & _). rewrite Gt.
          destruct (sess_get _ _ _) as [[old|]|]; [|contradiction|]; subst s4.
          -- rewrite on_tasks. destruct clean; cbn [set_log v_tasks]; rewrite ?resume_tasks, !on_tasks, put_out_tasks, on_tasks; reflexivity.
          -- now rewrite !on_tasks, put_out_tasks, on_tasks.
      + unfold on_connect_msg in H.
        assert (G : aget (v_conns (on_conn (put_out (on_conn s c (set_insecure ins)) c (KCtl tCONNECT fACK 0)) c (set_client ci))) c = None).
        { unfold put_out. now rewrite get_on, N.eqb_refl, get_on, N.eqb_refl, get_on, N.eqb_refl, Hk. }
        rewrite G in H. injection H as <-. now rewrite on_tasks, put_out_tasks, on_tasks.
    - cbn in H. destruct (say _ c (mkPM tClientid ci)) as [s1|] eqn:F; [|discriminate]. apply say_tasks in F.
      rewrite put_out_tasks, on_tasks in F. destruct (is_stuck s1 c); [now injection H as <-|].
      apply close_tasks in H. congruence.
  Qed.
  Lemma flow_tasks : forall s c ty flow i s', on_flow E s c ty flow i = Some s' -> v_tasks s' = v_tasks s.
  Proof.
    intros s c ty flow i s' H. unfold on_flow in H.
    destruct (aget (v_conns s) c) as [k|] eqn:Hk; [|now injection H as <-].
    set (s1 := if match k_client k with Some _ => true | None => false end then _ else s) in *.
    assert (K : v_tasks s1 = v_tasks s).
    { unfold s1. destruct (k_client k); [|reflexivity]. cbn. now destruct (flow =? fRECEIPT). }
    destruct (flow =? fRECEIVE).
    - destruct (log_get E (v_log s1) _) as [[x|]|].
      + injection H as <-. now rewrite put_out_tasks.
      + now injection H as <-.
      + apply close_tasks in H. congruence.
    - destruct (flow =? fRECEIPT); [|now injection H as <-]. injection H as <-.
      rewrite put_out_tasks. destruct (k_client k); [|assumption]. cbn. assumption.
  Qed.


  (** ** The other events *)
  Lemma fr_flow : forall s c ty flow i s', wf s ->
    (flow = fRECEIPT -> i = id -> forall k, aget (v_conns s) c = Some k -> k_sess k <> sess) ->
    on_flow E s c ty flow i = Some s' -> fr s s'.
  Proof.
    intros s c ty flow i s' W A H. unfold on_flow in H.
    destruct (aget (v_conns s) c) as [k|] eqn:Hk; [|injection H as <-; apply fr_refl].
    assert (Hks : k_sess k < 2 ^ 32) by (apply (W _ _ Hk)).
    set (s1 := if match k_client k with Some _ => true | None => false end then _ else s) in *.
    assert (Hne : flow = fRECEIPT -> key <> log_key i (k_sess k)).
    { intros Hf Heq. unfold key in Heq. apply log_key_inj in Heq; [|assumption|assumption]. destruct Heq as [-> He].
      apply (A Hf eq_refl k eq_refl). now symmetry. }
    assert (K : fr s s1).
    { unfold s1. destruct (k_client k); [|apply fr_refl]. cbn [persist_in].
      destruct (flow =? fRECEIPT) eqn:F; [|apply fr_refl]. apply N.eqb_eq in F. apply fr_same; [reflexivity|].
      cbn [set_log v_log]. rewrite aget_aput. now rewrite (proj2 (N.eqb_neq _ _) (Hne F)). }
    destruct (flow =? fRECEIVE).
    - destruct (log_get E (v_log s1) _) as [[x|]|].
      + injection H as <-. eapply fr_trans; [exact K|apply fr_put_out].
      + injection H as <-. exact K.
      + eapply fr_trans; [exact K|eapply fr_close; exact H].
    - destruct (flow =? fRECEIPT) eqn:F; [|injection H as <-; exact K]. injection H as <-. apply N.eqb_eq in F.
      eapply fr_trans; [|apply fr_put_out]. eapply fr_trans; [exact K|].
      destruct (k_client k); [|apply fr_refl]. apply fr_same; [reflexivity|].
      cbn [persist_out]. change (fCOMPLETE =? fCOMPLETE) with true. cbn [set_log v_log]. rewrite aget_adel.
      now rewrite (proj2 (N.eqb_neq _ _) (Hne F)).
  Qed.
  Lemma fr_send_batch : forall s c, wf s -> fr s (send_batch s c).
  Proof.
    intros s c W. unfold send_batch. destruct (aget (v_conns s) c) as [k|] eqn:Hk; [|apply fr_refl].
    destruct (k_batch k) as [[|m l]|]; try apply fr_refl. destruct (k_open k); [|apply fr_refl].
    set (s0 := set_conn s c (set_batch (Some []) k)).
    assert (K : fr s s0) by (eapply fr_aput; [exact Hk| |reflexivity|reflexivity]; reflexivity).
    destruct (next_id s0 c) as [s1 r] eqn:F. pose proof (fr_next _ _ _ _ F) as K1.
    destruct r as [i|]; [|eapply fr_trans; eassumption].
    destruct (next_inv _ _ _ _ F) as (_ & _ & _ & _ & G). destruct (G i eq_refl) as [Hi _].
    eapply fr_trans; [exact K|]. eapply fr_trans; [exact K1|]. apply fr_own; [apply (W _ _ Hk)|exact Hi].
  Qed.
  Lemma send_batch_tasks : forall s c, v_tasks (send_batch s c) = v_tasks s.
  Proof.
    intros s c. unfold send_batch. destruct (aget (v_conns s) c) as [k|]; [|reflexivity].
    destruct (k_batch k) as [[|m l]|]; try reflexivity. destruct (k_open k); [|reflexivity].
    destruct (next_id _ c) as [s1 r] eqn:F. destruct (next_inv _ _ _ _ F) as (_ & T & _).
    destruct r; [|exact T]. rewrite put_out_tasks, persist_tasks. exact T.
  Qed.
  Lemma send_tasks : forall s c i mode delay m s1 r, send_message s c i mode delay m = Some (s1, r) -> v_tasks s1 = v_tasks s.
  Proof.
    intros s c i mode delay m s1 r F. apply send_inv in F. destruct F as (s0 & G0 & G1).
    assert (T : v_tasks s0 = v_tasks s).
    { destruct (i =? 0); [|now destruct G0 as [-> _]]. now destruct (next_inv _ _ _ _ G0) as (_ & T & _). }
    rewrite <- T. destruct r; [|now subst]. destruct G1 as [G1| ->].
    - unfold batch_add in G1. destruct (aget (v_conns s0) c) as [k|]; [destruct (k_batch k); [|discriminate]|];
        now injection G1 as <-.
    - now rewrite put_out_tasks, persist_tasks.
  Qed.
  Lemma fr_other_task : forall s t s1 r, wf s -> task_other id t -> run_task E s t = Some (s1, r) ->
    fr s s1 /\ match r with Some t' => task_other id t' | None => True end.
  Proof.
    intros s t s1 r W A H. destruct t as [c q t pl|c q m i [|n todo]|c q m i n todo]; cbn in H.
    - destruct (aget (v_conns s) c) as [k|]; [destruct (k_client k); [|discriminate]|]; injection H as <- <-; (split; [apply fr_refl|]); [|exact I].
      cbn in *. tauto.
    - injection H as <- <-. split; [apply fr_refl|exact I].
    - destruct (aget (v_conns s) (s_conn n)) as [k|]; [destruct (k_open k)|]; try (injection H as <- <-; split; [apply fr_refl|exact A]).
      destruct A as (A0 & A1 & A2). rewrite (proj2 (N.eqb_neq _ _) A0) in H. injection H as <- <-. split; [apply fr_refl|]. cbn. auto.
    - destruct A as (A0 & A1 & A2).
      destruct (aget (v_conns s) (s_conn n)) as [k|] eqn:Hk; [|injection H as <- <-; split; [apply fr_refl|exact I]].
      assert (X : forall s1 r, match send_message s (s_conn n) i (s_mode n) (s_delay n) m with
              | Some (s1, Some i) => Some (s1, Some (TLoop c q m i todo)) | Some (s1, None) => Some (s1, None)
              | None => None end = Some (s1, r) -> fr s s1 /\ match r with Some t' => task_other id t' | None => True end).
      { intros s2 r2. destruct (send_message _ _ _ _ _ _) as [[s3 x]|] eqn:F; [|discriminate]. intro G.
        assert (Fr : fr s s3).
        { eapply fr_send; [exact W| |exact F]. right. split; [congruence|apply (W _ _ Hk)]. }
        destruct x as [j|]; injection G as <- <-; (split; [exact Fr|]); [|exact I].
        apply send_inv in F. destruct F as (s0 & G0 & _). rewrite (proj2 (N.eqb_neq _ _) A0) in G0. destruct G0 as [_ [= ->]].
        cbn. auto. }
      assert (B : task_other id (TLoop c q m i todo)) by (cbn; auto).
      destruct (reliable (p_mode q)).
      + destruct (reliable (s_mode n)).
        * destruct (k_open k); [|discriminate]. injection H as <- <-. split; [|exact B].
          eapply fr_trans; [|apply fr_put_out]. apply fr_persist; [tauto|apply (W _ _ Hk)].
        * destruct (s_mode n =? 0); [now apply X|]. injection H as <- <-. split; [apply fr_refl|exact B].
      + destruct (p_mode q =? 0); [now apply X|]. injection H as <- <-. split; [apply fr_refl|exact B].
  Qed.
  Lemma run_task_tasks : forall s t s1 r, run_task E s t = Some (s1, r) -> v_tasks s1 = v_tasks s.
  Proof.
    intros s t s1 r H. destruct t as [c q t pl|c q m i [|n todo]|c q m i n todo]; cbn in H.
    - destruct (aget (v_conns s) c) as [k|]; [destruct (k_client k); [|discriminate]|]; now injection H as <- <-.
    - now injection H as <- <-.
    - destruct (aget (v_conns s) (s_conn n)) as [k|]; [destruct (k_open k)|]; try (now injection H as <- <-).
      destruct (i =? 0); [|now injection H as <- <-].
      destruct (next_id s c) as [s2 [j|]] eqn:F; injection H as <- <-; now destruct (next_inv _ _ _ _ F) as (_ & T & _).
    - destruct (aget (v_conns s) (s_conn n)) as [k|] eqn:Hk; [|now injection H as <- <-].
      assert (X : forall s1 r, match send_message s (s_conn n) i (s_mode n) (s_delay n) m with
              | Some (s1, Some i) => Some (s1, Some (TLoop c q m i todo)) | Some (s1, None) => Some (s1, None)
              | None => None end = Some (s1, r) -> v_tasks s1 = v_tasks s).
      { intros s2 r2. destruct (send_message _ _ _ _ _ _) as [[s3 [j|]]|] eqn:F; intro G; [| |discriminate];
          injection G as <- <-; eapply send_tasks; exact F. }
      destruct (reliable (p_mode q)).
      + destruct (reliable (s_mode n)).
        * destruct (k_open k); [|discriminate]. injection H as <- <-. now rewrite put_out_tasks.
        * destruct (s_mode n =? 0); [eapply X; exact H|]. now injection H as <- <-.
      + destruct (p_mode q =? 0); [eapply X; exact H|]. now injection H as <- <-.
  Qed.
  (** Requests other than CONNECT and FLOWCONTROL: *)
  Lemma handle_simple : forall s c q s1, simple_request q -> handle E s c q = Some s1 -> wf s ->
    (forall x, q = QPub x -> p_id x <> 0 /\ p_id x <> id) ->
    fr s s1 /\ exists l, v_tasks s1 = v_tasks s ++ l /\ Forall (task_other id) l.
  Proof.
    intros s c q s1 S H W A. pose proof (handle_moves _ _ _ _ _ S H) as M. split; [eapply fr_moves; eassumption|].
    destruct (moves_tasks _ _ _ _ M) as (l & El & Fl). exists l. split; [exact El|].
    eapply Forall_impl; [|exact Fl]. intros t (x & t' & pl & -> & ->). now apply A.
  Qed.

  (** ** One event *)
  Variable p : pub.
  Hypothesis Hp : p_id p = id.
  Definition pending (s : server) : Prop := aget (v_log s) key = Some (LPkt (KPub p)).
  Lemma fr_connect : forall s c ci ch ins clean k s', wf s -> pending s ->
    (forall old, sess_get E (v_log s) (sess_key (session_key ci k)) = Some (Some old) -> old = sess ->
      clean = false /\ N.testbit sess 4 = false) ->
    on_connect_msg E s c (CAccepted ci ch) ins clean k = Some s' ->
    incl (assigned s sess) (assigned s' sess) /\ pending s'.
  Proof.
    intros s c ci ch ins clean ky s' W P A H.
    destruct (aget (v_conns s) c) as [k|] eqn:Hk.
    - pose proof (connect_inv _ _ _ _ _ _ _ _ _ H _ Hk) as G. cbv zeta in G.
      set (s0 := on_conn s c (set_insecure ins)) in G.
      assert (F1 : fr s (on_conn (put_out s0 c (KCtl tCONNECT fACK 0)) c (set_client ci)) ).
      { eapply fr_trans; [apply (fr_on s c (set_insecure ins)); reflexivity|].
        eapply fr_trans; [apply fr_put_out|]. now apply fr_on. }
      set (s1 := on_conn _ c (set_client ci)) in *.
      assert (L1 : v_log s1 = v_log s) by (unfold s1, s0; now rewrite on_log, put_out_log, on_log).
      destruct (m_hung (k_ids k)).
      + subst s'. unfold pending. rewrite on_log, L1. split; [|exact P].
        eapply incl_tran; [apply F1|]. apply (fr_on s1 c set_stuck). reflexivity.
      + destruct G as (s4 & G4 & Gc & _ & _ & Gl). set (s2 := on_conn s1 c _) in G4.
        assert (F2 : fr s1 s2) by (apply fr_on; intro x; cbn; unfold mids_step; now destruct (m_hung (k_ids x))).
        assert (L2 : v_log s2 = v_log s) by (unfold s2; now rewrite on_log).
        assert (X : incl (assigned s2 sess) (assigned s4 sess) /\ pending s4).
        { destruct (sess_get E (v_log s) (sess_key (session_key ci ky))) as [[old|]|] eqn:Hg; [|contradiction|].
          - pose proof (sess_get_lt _ _ _ _ Hg) as Ho. subst s4. unfold pending. rewrite on_log.
            destruct clean.
            + assert (Hn : old <> sess) by (intro; subst; destruct (A _ eq_refl eq_refl); discriminate).
              split; [|cbn [set_log v_log]; rewrite reset_other by assumption; now rewrite L2].
              rewrite assigned_on by reflexivity. exact (incl_refl (assigned s2 sess)).
            + assert (P2 : aget (v_log s2) key = Some (LPkt (KPub p))) by (now rewrite L2).
              destruct (fr_resume c old s2 p P2 Ho) as [G1 G2]; [intros ->; now apply (A _ eq_refl)|].
              split; [|exact G2]. rewrite assigned_on by reflexivity. apply G1.
          - subst s4. split; [easy|]. unfold pending. rewrite L2. exact P. }
        destruct X as [X1 X2]. split.
        * rewrite (assigned_conns s4 s') by assumption.
          eapply incl_tran; [apply F1|]. eapply incl_tran; [apply F2|exact X1].
        * unfold pending. rewrite Gl.
          pose proof (sess_key_apart id sess ci ky Hid) as K1. pose proof (log_key_epoch id sess (id_epoch ci) ltac:(lia)) as K2.
          fold key in K1, K2. rewrite (proj2 (N.eqb_neq _ _) K1), (proj2 (N.eqb_neq _ _) K2).
          destruct (session_key ci ky =? epoch32 ci)%Z; exact X2.
    - unfold on_connect_msg in H.
      assert (G : aget (v_conns (on_conn (put_out (on_conn s c (set_insecure ins)) c (KCtl tCONNECT fACK 0)) c (set_client ci))) c = None).
      { unfold put_out. now rewrite get_on, N.eqb_refl, get_on, N.eqb_refl, get_on, N.eqb_refl, Hk. }
      rewrite G in H. injection H as <-. split.
      + rewrite assigned_on by reflexivity. eapply incl_tran; [|apply fr_put_out]. rewrite assigned_on by reflexivity. easy.
      + unfold pending. now rewrite on_log, put_out_log, on_log.
  Qed.
  Lemma other_apart : forall t, task_other id t -> task_apart p t.
  Proof. intros [c q t pl|c q m i todo|c q m i n todo]; cbn; rewrite Hp; tauto. Qed.
  Lemma pend_task : forall s t s1 r, wf s -> pending s -> task_apart p t -> run_task E s t = Some (s1, r) ->
    ~ In id (assigned s1 sess) ->
    pending s1 /\ match r with Some t' => task_apart p t' | None => True end.
  Proof.
    intros s t s1 r W P A H Hn.
    assert (Oth : task_other id t -> pending s1 /\ match r with Some t' => task_apart p t' | None => True end).
    { intro O. destruct (fr_other_task _ _ _ _ W O H) as [[_ G] B]. split; [unfold pending; rewrite (G Hn); exact P|].
      destruct r; [|exact I]. now apply other_apart. }
    destruct t as [c q t pl|c q m i [|n todo]|c q m i n todo].
    - apply Oth. cbn in *. now rewrite <- Hp.
    - cbn in H. injection H as <- <-. auto.
    - destruct A as (A0 & A1 & [A2|(-> & A3 & A4)]); [apply Oth; cbn; rewrite <- Hp; auto|].
      cbn in H. rewrite (proj2 (N.eqb_neq _ _) A0) in H. inversion A4.
      destruct (aget (v_conns s) (s_conn n)) as [k|]; [destruct (k_open k)|]; injection H as <- <-; cbn; split; try exact P; auto 6.
    - destruct A as (A0 & A1 & [A2|(-> & A3 & A4)]); [apply Oth; cbn; rewrite <- Hp; auto|].
      inversion_clear A4. cbn in H. destruct (aget (v_conns s) (s_conn n)) as [k|] eqn:Hk; [|injection H as <- <-; auto].
      rewrite (proj2 (reliable_iff _) A3), (proj2 (reliable_iff _) H0) in H.
      destruct (k_open k); [|discriminate]. injection H as <- <-. split; [|cbn; auto 6].
      unfold pending. rewrite put_out_log. cbn [persist_out set_log v_log]. rewrite aget_aput.
      destruct (key =? log_key (p_id p) (k_sess k)); [reflexivity|exact P].
  Qed.
  Lemma pend_step : forall s ev s', wf s -> pending s -> Forall (task_apart p) (v_tasks s) ->
    event_apart E sess id s ev -> step E s ev = Some s' -> ~ In id (assigned s' sess) ->
    pending s' /\ Forall (task_apart p) (v_tasks s').
  Proof.
    intros s ev s' W P T A H Hn. destruct ev as [|c q|i|c|c|n].
    - cbn [step] in H. injection H as <-. split; assumption.
    - cbn [step] in H. destruct (aget (v_conns s) c) as [k|] eqn:Hk; [|injection H as <-; auto].
      destruct (k_open k && negb (k_stuck k)); [|injection H as <-; auto].
      assert (Simple : simple_request q -> (forall x, q = QPub x -> p_id x <> 0 /\ p_id x <> id) ->
        pending s' /\ Forall (task_apart p) (v_tasks s')).
      { intros S B. destruct (handle_simple _ _ _ _ S H W B) as [[_ G] (l & El & Fl)].
        split; [unfold pending; rewrite (G Hn); exact P|]. rewrite El. apply Forall_app. split; [assumption|].
        eapply Forall_impl; [|exact Fl]. apply other_apart. }
      destruct q as [who ins clean ky|l i|l i|x|l i| |ty flow i].
      + cbn [handle] in H. rewrite (connect_tasks _ _ _ _ _ _ _ H). split; [|assumption].
        destruct who as [|ci ch|ci].
        * discriminate.
        * eapply (fr_connect s c ci ch ins clean ky s'); eassumption.
        * cbn in H. destruct (say _ c (mkPM tClientid ci)) as [s1|] eqn:F; [|discriminate].
          assert (W0 : wf (put_out (on_conn s c (set_insecure ins)) c (KCtl tCONNECT fACK 0))).
          { eapply ks_wf; [apply ks_put_out|]. eapply ks_wf; [|exact W]. now apply ks_on. }
          assert (Fr : fr s s1).
          { eapply fr_trans; [|eapply fr_say; [exact W0|exact F]]. eapply fr_trans; [|apply fr_put_out]. now apply fr_on. }
          assert (Fr' : fr s s').
          { destruct (is_stuck s1 c); [injection H as <-; exact Fr|]. eapply fr_trans; [exact Fr|eapply fr_close; exact H]. }
          unfold pending. rewrite (proj2 Fr' Hn). exact P.
      + apply Simple; [exact I|discriminate].
      + apply Simple; [exact I|discriminate].
      + apply Simple; [exact I|]. intros y [= <-]. exact A.
      + apply Simple; [exact I|discriminate].
      + apply Simple; [exact I|discriminate].
      + cbn [handle] in H. rewrite (flow_tasks _ _ _ _ _ _ H). split; [|assumption].
        pose proof (fr_flow _ _ _ _ _ _ W A H) as Fr. unfold pending. rewrite (proj2 Fr Hn). exact P.
    - cbn [step] in H. destruct (nth_error (v_tasks s) i) as [t|] eqn:Ht; [|injection H as <-; auto].
      destruct (run_task E s t) as [[s1 r]|] eqn:F; [|discriminate]. injection H as <-.
      assert (At : task_apart p t) by (eapply Forall_forall; [exact T|eapply nth_error_In; exact Ht]).
      destruct (pend_task _ _ _ _ W P At F Hn) as [P1 B]. split; [exact P1|].
      cbn [set_tasks v_tasks]. now apply Forall_replace.
    - injection H as <-. rewrite send_batch_tasks. split; [|assumption].
      unfold pending. rewrite (proj2 (fr_send_batch s c W) Hn). exact P.
    - cbn [step] in H. rewrite (close_tasks _ _ _ H). split; [|assumption].
      unfold pending. rewrite (proj2 (fr_close _ _ _ H) Hn). exact P.
    - injection H as <-. split; [exact P|constructor].
  Qed.
  Lemma pend_run : forall es s s', wf s -> pending s -> Forall (task_apart p) (v_tasks s) ->
    run_apart E sess id s es -> run E s es = Some s' -> pending s' /\ wf s'.
  Proof.
    induction es as [|ev es IH]; intros s s' W P T A H; cbn [run] in H; [injection H as <-; auto|].
    cbn [run_apart] in A. destruct A as [A B]. destruct (step E s ev) as [s1|] eqn:F; [|contradiction].
    destruct B as [Hn B]. destruct (pend_step _ _ _ W P T A F Hn) as [P1 T1].
    eapply IH; [eapply wf_step; eassumption|exact P1|exact T1|exact B|exact H].
  Qed.
End FRAME.

(** ** C80 *)
Lemma receive_waiting : forall E s c sess id p ty, waiting s sess id p -> serves s c sess ->
  exists s', step E s (EPacket c (QFlow ty fRECEIVE id)) = Some s' /\ out s' c = out s c ++ [KPub p].
Proof.
  intros E s c sess id p ty P (k & Hk & Ho & Hst & Hs). cbn [step]. rewrite Hk, Ho, Hst. cbn [andb negb handle].
  unfold on_flow. rewrite Hk, Hs. change (fRECEIVE =? fRECEIVE) with true. cbn iota. cbn [persist_in]. change (fRECEIVE =? fRECEIPT) with false. cbn iota.
  assert (G : (if match k_client k with Some _ => true | None => false end then s else s) = s) by (now destruct (k_client k)).
  rewrite G. unfold log_get. rewrite P. eexists. split; [reflexivity|].
  unfold out, put_out. rewrite get_on, N.eqb_refl, Hk. cbn [option_map]. now rewrite Ho.
Qed.
Lemma delivered : forall E s i p c sess s1, wf s -> 0 < p_id p < 2 ^ 16 -> sess < 2 ^ 32 ->
  delivering s i p c sess -> Forall (task_apart p) (v_tasks s) -> step E s (ERun i) = Some s1 ->
  out s1 c = out s c ++ [KCtl tPUBLISH fNOTIFY (p_id p)] /\
  forall es s2, run_apart E sess (p_id p) s1 es -> run E s1 es = Some s2 ->
  waiting s2 sess (p_id p) p /\
  forall c' ty, serves s2 c' sess ->
  exists s3, step E s2 (EPacket c' (QFlow ty fRECEIVE (p_id p))) = Some s3 /\ out s3 c' = out s2 c' ++ [KPub p].
Proof.
  intros E s i p c sess s1 W Hid Hs (c0 & m & n & todo & k & Ht & Hm & Hn & Htd & Hc & Hk & Ho & Hks) T H.
  pose proof (wf_step _ _ _ _ W H) as W1.
  cbn [step] in H. rewrite Ht in H. cbn [run_task] in H. rewrite Hc, Hk, (proj2 (reliable_iff _) Hm), (proj2 (reliable_iff _) Hn), Ho, Hks in H.
  injection H as <-. split.
  - unfold out, put_out. cbn [set_tasks v_conns]. rewrite get_on, N.eqb_refl. cbn [persist_out set_log v_conns]. rewrite Hk. cbn [option_map]. now rewrite Ho.
  - intros es s2 A R.
    set (s1 := set_tasks _ _) in *.
    assert (P1 : pending sess (p_id p) p s1).
    { unfold pending, s1. cbn [set_tasks v_log]. rewrite put_out_log. cbn [persist_out set_log v_log]. now rewrite aget_aput, N.eqb_refl. }
    assert (T1 : Forall (task_apart p) (v_tasks s1)).
    { unfold s1. cbn [set_tasks v_tasks]. apply (Forall_replace (task_apart p) (v_tasks s) i (Some (TLoop c0 p m (p_id p) todo))); [assumption|]. cbn.
      split; [lia|]. split; [reflexivity|]. right. auto. }
    destruct (pend_run E sess (p_id p) Hs Hid p eq_refl es s1 s2 W1 P1 T1 A R) as [P2 W2].
    split; [exact P2|]. intros c' ty Sv. now apply receive_waiting with (sess := sess).
Qed.

(** ** C82 *)
Lemma resume_conn : forall E c s q k, aget (v_conns s) c = Some k -> k_open k = true ->
  exists k', aget (v_conns (resume_key E c s q)) c = Some k' /\ k_open k' = true /\ k_stuck k' = k_stuck k /\
    k_client k' = k_client k /\ m_hung (k_ids k') = m_hung (k_ids k) /\
    k_out k' = k_out k ++ match log_get E (v_log s) q with
                          | Some (KPub p) => if N.testbit q 4 then [] else [KCtl tPUBLISH fNOTIFY (p_id p)]
                          | _ => []
                          end.
Proof.
  intros E c s q k Hk Ho. unfold resume_key.
  destruct (log_get E (v_log s) q) as [[p|ty f i]|].
  - destruct (N.testbit q 4); [exists k; rewrite app_nil_r; auto 10|].
    unfold put_out. rewrite get_on, N.eqb_refl, get_on, N.eqb_refl, Hk. cbn [option_map]. eexists. split; [reflexivity|].
    cbn [set_ids k_open]. rewrite Ho. cbn. unfold mids_step. destruct (m_hung (k_ids k)) eqn:F; cbn; rewrite ?F; auto 10.
  - exists k. rewrite app_nil_r. destruct (N.testbit q 4); auto 10.
  - exists k. rewrite app_nil_r. auto 10.
Qed.
Lemma resume_log_other : forall E c s q x, x <> q -> aget (v_log (resume_key E c s q)) x = aget (v_log s) x.
Proof.
  intros E c s q x H. unfold resume_key.
  assert (G : aget (v_log (set_log s (adel (v_log s) q))) x = aget (v_log s) x).
  { cbn [set_log v_log]. rewrite aget_adel. destruct (x =? q) eqn:F; [lia|reflexivity]. }
  destruct (log_get E (v_log s) q) as [[p|ty f i]|]; [| |reflexivity]; destruct (N.testbit q 4); try exact G.
  now rewrite put_out_log, on_log.
Qed.
Lemma resume_fold : forall E c l s k, aget (v_conns s) c = Some k -> k_open k = true ->
  let s' := fold_left (resume_key E c) l s in
  exists k' new, aget (v_conns s') c = Some k' /\ k_open k' = true /\ k_stuck k' = k_stuck k /\
    k_client k' = k_client k /\ m_hung (k_ids k') = m_hung (k_ids k) /\ k_out k' = k_out k ++ new /\
    (forall q p, In q l -> aget (v_log s) q = Some (LPkt (KPub p)) -> N.testbit q 4 = false ->
       In (KCtl tPUBLISH fNOTIFY (p_id p)) new) /\
    (forall q p, aget (v_log s) q = Some (LPkt (KPub p)) -> N.testbit q 4 = false -> aget (v_log s') q = Some (LPkt (KPub p))) /\
    (forall pk, In pk new -> exists q p, In q l /\ log_get E (v_log s) q = Some (KPub p) /\ pk = KCtl tPUBLISH fNOTIFY (p_id p)).
Proof.
  intros E c l. induction l as [|q l IH]; intros s k Hk Ho; cbn [fold_left].
  - exists k, []. rewrite app_nil_r. repeat split; auto. intros pk [].
  - destruct (resume_conn E c s q k Hk Ho) as (k1 & H1 & O1 & S1 & C1 & G1 & X1).
    destruct (IH _ _ H1 O1) as (k2 & new & H2 & O2 & S2 & C2 & G2 & X2 & N2 & L2 & B2).
    assert (Keep : forall x p, aget (v_log s) x = Some (LPkt (KPub p)) -> N.testbit x 4 = false ->
       aget (v_log (resume_key E c s q)) x = Some (LPkt (KPub p))).
    { intros x p Hx Hb. destruct (N.eq_dec x q) as [->|Hn]; [|now rewrite resume_log_other].
      unfold resume_key, log_get. now rewrite Hx, Hb, put_out_log, on_log. }
    exists k2. eexists. split; [exact H2|]. split; [exact O2|]. split; [congruence|]. split; [congruence|]. split; [congruence|].
    split; [rewrite X2, X1, <- app_assoc; reflexivity|]. split; [|split].
    + intros x p [<-|Hx] Hp Hb; apply in_or_app.
      * left. unfold log_get. rewrite Hp, Hb. now left.
      * right. apply (N2 x p Hx); [now apply Keep|assumption].
    + intros x p Hp Hb. apply L2; [now apply Keep|assumption].
    + intros pk Hin. apply in_app_or in Hin. destruct Hin as [Hin|Hin].
      * destruct (log_get E (v_log s) q) as [[p|]|] eqn:F; [|contradiction|contradiction].
        destruct (N.testbit q 4); [contradiction|]. destruct Hin as [<-|[]]. exists q, p. cbn [In]. auto.
      * destruct (B2 _ Hin) as (x & p & Hx & Hg & ->). destruct (N.eq_dec x q) as [->|Hn].
        -- exists q, p. split; [now left|]. split; [|reflexivity]. revert Hg. unfold resume_key, log_get.
           destruct (aget (v_log s) q) as [[[y|ty f i]|z]|] eqn:F.
           ++ destruct (N.testbit q 4); [cbn [set_log v_log]; rewrite aget_adel, N.eqb_refl; discriminate|].
              now rewrite put_out_log, on_log, F.
           ++ destruct (N.testbit q 4); cbn [set_log v_log]; rewrite aget_adel, N.eqb_refl; discriminate.
           ++ destruct (e_parse E z) as [[y|ty f i]|] eqn:Ep.
              ** destruct (N.testbit q 4); [cbn [set_log v_log]; rewrite aget_adel, N.eqb_refl; discriminate|].
                 rewrite put_out_log, on_log, F, Ep. auto.
              ** destruct (N.testbit q 4); cbn [set_log v_log]; rewrite aget_adel, N.eqb_refl; discriminate.
              ** rewrite F, Ep. discriminate.
           ++ rewrite F. discriminate.
        -- exists x, p. split; [now right|]. split; [|reflexivity]. revert Hg. unfold log_get. now rewrite resume_log_other.
Qed.
Lemma log_key_bit4 : forall id sess, sess < 2 ^ 32 -> N.testbit (log_key id sess) 4 = N.testbit sess 4.
Proof.
  intros id sess H. rewrite log_key_eq, u32_small by assumption.
  rewrite <- (N.mod_pow2_bits_low (id * 2 ^ 32 + sess) 32 4) by reflexivity.
  rewrite N.add_comm, N.mod_add by discriminate. now rewrite N.mod_small.
Qed.
(** The connection right before [resume]. *)
Lemma connect_conn : forall s c ins id k, aget (v_conns s) c = Some k -> k_open k = true ->
  exists k1, aget (v_conns (on_conn (on_conn (put_out (on_conn s c (set_insecure ins)) c (KCtl tCONNECT fACK 0)) c (set_client id)) c
       (fun k => set_batch (Some []) (set_ids (fst (mids_step (k_ids k) MReset)) k)))) c = Some k1 /\
    k_open k1 = true /\ k_stuck k1 = k_stuck k /\ k_client k1 = Some id /\ k_sess k1 = k_sess k /\
    m_hung (k_ids k1) = m_hung (k_ids k) /\ k_out k1 = k_out k ++ [KCtl tCONNECT fACK 0].
Proof.
  intros s c ins id k Hk Ho. unfold put_out.
  rewrite get_on, N.eqb_refl, get_on, N.eqb_refl, get_on, N.eqb_refl, get_on, N.eqb_refl, Hk. cbn [option_map].
  eexists. split; [reflexivity|]. destruct k; cbn in *. subst. cbn. unfold mids_step.
  destruct (m_hung k_ids) eqn:F; cbn; repeat split; auto.
Qed.
Lemma reconnected : forall E s c who ch ins key sess s', orders E -> wf s ->
  (exists k, aget (v_conns s) c = Some k /\ k_open k = true /\ k_stuck k = false /\ m_hung (k_ids k) = false) ->
  sess_get E (v_log s) (sess_key (session_key who key)) = Some (Some sess) -> N.testbit sess 4 = false ->
  step E s (EPacket c (QConnect (CAccepted who ch) ins false key)) = Some s' ->
  serves s' c sess /\
  exists new, out s' c = out s c ++ new /\
  forall id p, 0 < id < 2 ^ 16 -> p_id p = id -> waiting s sess id p ->
    In (KCtl tPUBLISH fNOTIFY id) new /\ waiting s' sess id p.
Proof.
  intros E s c who ch ins key sess s' O W (k & Hk & Ho & Hst & Hh) Hg Hb H.
  pose proof (sess_get_lt _ _ _ _ Hg) as Hs.
  cbn [step] in H. rewrite Hk, Ho, Hst in H. cbn [andb negb handle] in H.
  pose proof (connect_inv _ _ _ _ _ _ _ _ _ H _ Hk) as G. cbv zeta in G. rewrite Hh, Hg in G.
  destruct G as (s4 & G4 & Gc & _ & _ & Gl).
  destruct (connect_conn s c ins who k Hk Ho) as (k1 & H1 & O1 & S1 & C1 & _ & Hh1 & X1).
  set (s2 := on_conn (on_conn _ c (set_client who)) c _) in *.
  assert (L2 : v_log s2 = v_log s) by (unfold s2; now rewrite !on_log, put_out_log, on_log).
  unfold resume in G4.
  destruct (resume_fold E c (log_keys E (v_log s2) sess) s2 k1 H1 O1) as (k2 & new & H2 & O2 & S2 & _ & _ & X2 & N2 & K2 & _).
  set (s3 := fold_left (resume_key E c) _ s2) in *.
  assert (H4 : aget (v_conns s') c = Some (set_sess sess k2)).
  { rewrite Gc, G4, get_on, N.eqb_refl, H2. reflexivity. }
  split.
  - eexists. split; [exact H4|]. cbn. split; [assumption|]. split; [congruence|reflexivity].
  - exists (KCtl tCONNECT fACK 0 :: new). split.
    + unfold out. rewrite H4, Hk. cbn [set_sess k_out]. rewrite X2, X1, <- app_assoc. reflexivity.
    + intros id p Hid Hp Wt.
      assert (B : N.testbit (log_key id sess) 4 = false) by (rewrite log_key_bit4; assumption).
      assert (In2 : In (log_key id sess) (log_keys E (v_log s2) sess)).
      { unfold log_keys. apply filter_In. split; [|now apply has_prefix_iff]. apply O. rewrite L2.
        unfold waiting in Wt. now apply aget_in in Wt. }
      split.
      * right. rewrite <- Hp. eapply N2; [exact In2| |exact B]. rewrite L2. exact Wt.
      * unfold waiting. rewrite Gl.
        rewrite (proj2 (N.eqb_neq _ _) (sess_key_apart id sess who key Hid)).
        rewrite (proj2 (N.eqb_neq _ _) (log_key_epoch id sess (id_epoch who) ltac:(lia))).
        assert (K : aget (v_log s4) (log_key id sess) = Some (LPkt (KPub p))).
        { rewrite G4, on_log. apply K2; [rewrite L2; exact Wt|exact B]. }
        now destruct (session_key who key =? epoch32 who)%Z.
Qed.
