(** C83, C84: receipts end a message; what brings the server down. *)
From Coq Require Import Lia ZifyBool ZifyNat ZifyN.
From Verif Require Import M_Bytes M_Keys M_MsgIds M_Conn S_Conn P_Conn P_Pending P_Origin.
From Verif Require M_Subs.
Open Scope N_scope.

(** ** C83 *)
Section GONE.
  Variable E : env.
  Variable sess id : N.
  Hypothesis Hsess : sess < 2 ^ 32.
  Hypothesis Hid : 0 < id < 2 ^ 16.
  Let key := log_key id sess.
  Definition gone (s : server) : Prop := aget (v_log s) (log_key id sess) = None.
  Lemma gone_resume : forall c b s, gone s -> gone (resume E s c b).
  Proof.
    intros c b s. unfold resume. generalize (log_keys E (v_log s) b). intro l. revert s.
    induction l as [|q l IH]; intros s H; cbn [fold_left]; [assumption|]. apply IH.
    destruct (N.eq_dec (log_key id sess) q) as [<-|Hn].
    - unfold resume_key, log_get. now rewrite H.
    - unfold gone. now rewrite resume_log_other.
  Qed.
  Lemma gone_reset : forall l b, aget l (log_key id sess) = None -> aget (log_reset E l b) (log_key id sess) = None.
  Proof.
    intros l b. unfold log_reset. generalize (log_keys E l b). intro ks. revert l.
    induction ks as [|q ks IH]; intros l H; cbn [fold_left]; [assumption|]. apply IH. rewrite aget_adel. now destruct (_ =? q).
  Qed.
  Lemma gone_connect : forall s c ci ch ins clean k s', gone s -> on_connect_msg E s c (CAccepted ci ch) ins clean k = Some s' -> gone s'.
  Proof.
    intros s c ci ch ins clean ky s' P H. destruct (aget (v_conns s) c) as [k|] eqn:Hk.
    - pose proof (connect_inv _ _ _ _ _ _ _ _ _ H _ Hk) as G. cbv zeta in G.
      set (s1 := on_conn _ c (set_client ci)) in *.
      assert (L1 : v_log s1 = v_log s) by (unfold s1; now rewrite on_log, put_out_log, on_log).
      destruct (m_hung (k_ids k)); [subst s'; unfold gone; now rewrite on_log, L1|].
      destruct G as (s4 & G4 & _ & _ & _ & Gl). set (s2 := on_conn s1 c _) in G4.
      assert (L2 : v_log s2 = v_log s) by (unfold s2; now rewrite on_log).
      assert (X : gone s4).
      { destruct (sess_get E (v_log s) _) as [[old|]|]; [|contradiction|subst s4; unfold gone; now rewrite L2].
        subst s4. unfold gone. rewrite on_log. destruct clean.
        - cbn [set_log v_log]. apply gone_reset. now rewrite L2.
        - apply gone_resume. unfold gone. now rewrite L2. }
      unfold gone. rewrite Gl.
      rewrite (proj2 (N.eqb_neq _ _) (sess_key_apart id sess ci ky Hid)).
      rewrite (proj2 (N.eqb_neq _ _) (log_key_epoch id sess (id_epoch ci) ltac:(lia))).
      now destruct (session_key ci ky =? epoch32 ci)%Z.
    - unfold on_connect_msg, put_out in H. rewrite !on_on in H. unfold on_conn in H. rewrite Hk, Hk in H. now injection H as <-.
  Qed.
  Lemma gone_step : forall s ev s', wf s -> gone s -> Forall (task_other id) (v_tasks s) ->
    event_other id ev -> step E s ev = Some s' -> ~ In id (assigned s' sess) -> gone s' /\ Forall (task_other id) (v_tasks s').
  Proof.
    intros s ev s' W P T A H Hn.
    assert (By : fr sess id s s' -> gone s') by (intros [_ G]; unfold gone; rewrite (G Hn); exact P).
    destruct ev as [|c q|i|c|c|n].
    - cbn [step] in H. injection H as <-. split; assumption.
    - cbn [step] in H. destruct (aget (v_conns s) c) as [k|] eqn:Hk; [|injection H as <-; auto].
      destruct (k_open k && negb (k_stuck k)); [|injection H as <-; auto].
      assert (Simple : simple_request q -> (forall x, q = QPub x -> p_id x <> 0 /\ p_id x <> id) ->
        gone s' /\ Forall (task_other id) (v_tasks s')).
      { intros S B. destruct (handle_simple E sess id Hsess Hid s c q s' S H W B) as [G (l & El & Fl)].
        split; [now apply By|]. rewrite El. apply Forall_app. now split. }
      destruct q as [who ins clean ky|l i|l i|x|l i| |ty flow i].
      + cbn [handle] in H. assert (Et : v_tasks s' = v_tasks s) by (eapply connect_tasks; eassumption). rewrite Et. split; [|assumption].
        destruct who as [|ci ch|ci].
        * discriminate.
        * eapply gone_connect; eassumption.
        * apply By. cbn in H. destruct (say _ c (mkPM tClientid ci)) as [s1|] eqn:F; [|discriminate].
          assert (W0 : wf (put_out (on_conn s c (set_insecure ins)) c (KCtl tCONNECT fACK 0))).
          { eapply ks_wf; [apply ks_put_out|]. eapply ks_wf; [|exact W]. now apply ks_on. }
          assert (Fr : fr sess id s s1).
          { eapply fr_trans; [|eapply fr_say; eassumption]. eapply fr_trans; [|apply fr_put_out; assumption]. apply fr_on; auto. }
          destruct (is_stuck s1 c); [injection H as <-; exact Fr|]. eapply fr_trans; [exact Fr|eapply fr_close; eassumption].
      + apply Simple; [exact I|discriminate].
      + apply Simple; [exact I|discriminate].
      + apply Simple; [exact I|]. intros y [= <-]. exact A.
      + apply Simple; [exact I|discriminate].
      + apply Simple; [exact I|discriminate].
      + cbn [handle] in H. rewrite (flow_tasks E s c ty flow i s' H). split; [|assumption].
        (* a receipt of the same message leaves nothing either *)
        destruct (N.eq_dec flow fRECEIPT) as [->|Hf].
        * unfold on_flow in H. rewrite Hk in H. change (fRECEIPT =? fRECEIVE) with false in H. change (fRECEIPT =? fRECEIPT) with true in H.
          cbn iota in H. injection H as <-. unfold gone. rewrite put_out_log. destruct (k_client k); [|exact P].
          cbn [persist_out]. change (fCOMPLETE =? fCOMPLETE) with true. cbn iota. cbn [set_log v_log persist_in].
          change (fRECEIPT =? fRECEIPT) with true. cbn iota. cbn [set_log v_log].
          rewrite aget_adel. destruct (_ =? log_key i (k_sess k)) eqn:F; [reflexivity|]. rewrite aget_aput, F. exact P.
        * apply By. eapply fr_flow; try eassumption. congruence.
    - cbn [step] in H. destruct (nth_error (v_tasks s) i) as [t|] eqn:Ht; [|injection H as <-; auto].
      destruct (run_task E s t) as [[s1 r]|] eqn:F; [|discriminate]. injection H as <-.
      assert (At : task_other id t) by (eapply Forall_forall; [exact T|eapply nth_error_In; exact Ht]).
      assert (X : fr sess id s s1 /\ match r with Some t' => task_other id t' | None => True end) by (eapply fr_other_task; eassumption).
      destruct X as [[_ G] B].
      split; [unfold gone; cbn [set_tasks v_log]; rewrite (G Hn); exact P|].
      cbn [set_tasks v_tasks]. now apply Forall_replace.
    - injection H as <-. rewrite (send_batch_tasks sess id) by assumption. split; [|assumption]. apply By. now apply fr_send_batch.
    - cbn [step] in H. rewrite (close_tasks s c s' H). split; [|assumption]. apply By. eapply fr_close; eassumption.
    - injection H as <-. split; [exact P|constructor].
  Qed.
  Lemma gone_run : forall es s s', wf s -> gone s -> Forall (task_other id) (v_tasks s) ->
    run_other E sess id s es -> run E s es = Some s' -> gone s'.
  Proof.
    induction es as [|ev es IH]; intros s s' W P T A H; cbn [run] in H; [injection H as <-; auto|].
    cbn [run_other] in A. destruct A as [A B]. destruct (step E s ev) as [s1|] eqn:F; [|contradiction].
    destruct B as [Hn B]. destruct (gone_step _ _ _ W P T A F Hn) as [P1 T1].
    eapply IH; [eapply wf_step; eassumption|exact P1|exact T1|exact B|exact H].
  Qed.
End GONE.
Lemma run_app : forall E a s s1 b, run E s a = Some s1 -> run E s (a ++ b) = run E s1 b.
Proof.
  induction a as [|ev a IH]; cbn; intros s s1 b H; [now injection H as ->|].
  destruct (step E s ev); [|discriminate]. now apply IH.
Qed.
Lemma receipt_gone : forall E s c sess id ty s1, wf s -> connected_as s c -> serves s c sess ->
  step E s (EPacket c (QFlow ty fRECEIPT id)) = Some s1 -> gone sess id s1 /\ v_tasks s1 = v_tasks s.
Proof.
  intros E s c sess id ty s1 W (k0 & ci & Hk0 & Hci) (k & Hk & Ho & Hst & Hs) H.
  rewrite Hk in Hk0. injection Hk0 as <-.
  cbn [step] in H. rewrite Hk, Ho, Hst in H. cbn [andb negb handle] in H. split; [|eapply flow_tasks; exact H].
  unfold on_flow in H. rewrite Hk, Hci, Hs in H. change (fRECEIPT =? fRECEIVE) with false in H. change (fRECEIPT =? fRECEIPT) with true in H.
  cbn iota in H. injection H as <-. unfold gone. rewrite put_out_log.
  cbn [persist_out]. change (fCOMPLETE =? fCOMPLETE) with true. cbn iota. cbn [set_log v_log]. rewrite N.eqb_refl. cbn [negb]. now rewrite aget_adel, N.eqb_refl.
Qed.
Lemma forgotten : forall E s c sess id ty s1 es s2, parses_small E -> reached E s -> 0 < id < 2 ^ 16 ->
  connected_as s c -> serves s c sess -> Forall (task_other id) (v_tasks s) ->
  step E s (EPacket c (QFlow ty fRECEIPT id)) = Some s1 -> run_other E sess id s1 es -> run E s1 es = Some s2 ->
  (forall p, ~ waiting s2 sess id p) /\
  forall c' who ch ins clean key s3,
    sess_get E (v_log s2) (sess_key (session_key who key)) = Some (Some sess) ->
    step E s2 (EPacket c' (QConnect (CAccepted who ch) ins clean key)) = Some s3 ->
    exists new, out s3 c' = out s2 c' ++ new /\ ~ In (KCtl tPUBLISH fNOTIFY id) new.
Proof.
  intros E s c sess id ty s1 es s2 HE (n & es0 & R) Hid Hca Hsv T H A Hrun.
  pose proof (inv_reached E HE _ _ _ R) as I0.
  assert (W : wf s) by apply I0.
  assert (Hsess : sess < 2 ^ 32) by (destruct Hsv as (k & Hk & _ & _ & <-); apply (W _ _ Hk)).
  destruct (receipt_gone _ _ _ _ _ _ _ W Hca Hsv H) as [G1 T1]. rewrite <- T1 in T.
  assert (W1 : wf s1) by (eapply wf_step; eassumption).
  pose proof (gone_run E sess id Hsess Hid es s1 s2 W1 G1 T A Hrun) as G2.
  split; [intros p Hw; unfold waiting in Hw; unfold gone in G2; congruence|].
  assert (I2 : Inv E None ((es0 ++ [EPacket c (QFlow ty fRECEIPT id)]) ++ es) s2).
  { eapply (inv_reached E HE n). rewrite <- app_assoc. rewrite (run_app E es0 _ s); [|exact R].
    cbn [app run]. rewrite H. exact Hrun. }
  intros c' who ch ins clean key s3 Hg F. cbn [step] in F.
  destruct (aget (v_conns s2) c') as [k|] eqn:Hk.
  2:{ injection F as <-. exists []. rewrite app_nil_r. auto. }
  destruct (k_open k) eqn:Ho; [|injection F as <-; exists []; rewrite app_nil_r; auto].
  destruct (k_stuck k) eqn:Hst; [injection F as <-; exists []; rewrite app_nil_r; auto|]. cbn [andb negb handle] in F.
  pose proof (connect_inv _ _ _ _ _ _ _ _ _ F _ Hk) as G. cbv zeta in G. rewrite Hg in G.
  destruct (m_hung (k_ids k)) eqn:Hh.
  { subst s3. exists [KCtl tCONNECT fACK 0]. unfold out, put_out. rewrite get_on, N.eqb_refl, get_on, N.eqb_refl, get_on, N.eqb_refl, get_on, N.eqb_refl, Hk.
    cbn [option_map set_insecure k_open]. rewrite Ho. split; [reflexivity|]. intros [[=]|[]]. }
  destruct G as (s4 & G4 & Gc & _).
  destruct (connect_conn s2 c' ins who k Hk Ho) as (k1 & H1 & O1 & S1 & C1 & _ & Hh1 & X1).
  set (s0 := on_conn (on_conn _ c' (set_client who)) c' _) in *.
  assert (L0 : v_log s0 = v_log s2) by (unfold s0; now rewrite !on_log, put_out_log, on_log).
  destruct clean.
  - exists [KCtl tCONNECT fACK 0]. unfold out. rewrite Gc, G4, get_on, N.eqb_refl. cbn [set_log v_conns]. rewrite H1, Hk. cbn [option_map set_sess k_out].
    split; [assumption|]. intros [[=]|[]].
  - unfold resume in G4.
    destruct (resume_fold E c' (log_keys E (v_log s0) sess) s0 k1 H1 O1) as (k2 & new & H2 & O2 & S2 & _ & _ & X2 & _ & _ & B2).
    exists (KCtl tCONNECT fACK 0 :: new). split.
    + unfold out. rewrite Gc, G4, get_on, N.eqb_refl, H2, Hk. cbn [option_map set_sess k_out]. rewrite X2, X1, <- app_assoc. reflexivity.
    + intros [[=]|Hin]. destruct (B2 _ Hin) as (q & p & Hq & Hlg & [= Hp]). rewrite L0 in Hlg, Hq.
      unfold log_get in Hlg. destruct (aget (v_log s2) q) as [[pk|m]|] eqn:Hl; [| |discriminate].
      * injection Hlg as ->. destruct (i_log _ _ _ _ I2 _ _ Hl) as (b & j & Hb & -> & _ & -> & _).
        unfold log_keys in Hq. apply filter_In in Hq. destruct Hq as [_ Hq]. apply has_prefix_iff in Hq; [|assumption|assumption]. subst b.
        unfold gone in G2. rewrite Hp in G2. congruence.
      * apply HE in Hlg. lia.
Qed.

(** ** C84 *)
Lemma moves_client : forall E c q s s', moves E c q s s' ->
  forall c' k', aget (v_conns s') c' = Some k' -> exists k, aget (v_conns s) c' = Some k /\ k_client k' = k_client k.
Proof.
  intros E c q s s' M.
  set (R := fun s s' : server => forall c' k', aget (v_conns s') c' = Some k' -> exists k, aget (v_conns s) c' = Some k /\ k_client k' = k_client k).
  change (R s s').
  assert (Same : forall s s', v_conns s' = v_conns s -> R s s') by (intros a b H c' k' Hk; rewrite H in Hk; eauto).
  assert (Put : forall s s' c k k', aget (v_conns s) c = Some k -> k_client k' = k_client k -> v_conns s' = aput (v_conns s) c k' -> R s s').
  { intros a b d k k' Hk Hc He c' x Hx. rewrite He, aget_aput in Hx. destruct (c' =? d) eqn:F; [|eauto].
    assert (c' = d) by lia. subst. injection Hx as <-. eauto. }
  assert (On : forall s c f, (forall k, k_client (f k) = k_client k) -> R s (on_conn s c f)).
  { intros a d f Hf c' k'. rewrite get_on. destruct (c' =? d) eqn:F; [|eauto]. assert (c' = d) by lia. subst.
    destruct (aget (v_conns a) d) as [k0|]; [|discriminate]. intros [= <-]. eauto. }
  assert (Tr : forall a b d, R a b -> R b d -> R a d).
  { intros a b d H1 H2 c' k' Hk. destruct (H2 _ _ Hk) as (k1 & Hk1 & E1). destruct (H1 _ _ Hk1) as (k2 & Hk2 & E2).
    exists k2. split; [assumption|congruence]. }
  assert (Po : forall s c pk, R s (put_out s c pk)) by (intros; apply On; intro k; now destruct (k_open k)).
  induction M.
  - now apply Same.
  - eapply Tr; eassumption.
  - apply send_inv in H. destruct H as (s0 & F0 & F1). cbn in F0.
    assert (R0 : R s s0).
    { unfold next_id in F0. destruct (aget (v_conns s) c) as [k|] eqn:Hk; [|injection F0 as <- <-; now apply Same].
      destruct (mids_step _ _). injection F0 as <- <-. eapply Put; [exact Hk| |reflexivity]. reflexivity. }
    destruct r; [|now subst]. destruct F1 as [F1| ->]; (eapply Tr; [exact R0|]).
    + unfold batch_add in F1. destruct (aget (v_conns s0) c) as [k|] eqn:Hk; [|injection F1 as <-; now apply Same].
      destruct (k_batch k); [|discriminate]. injection F1 as <-. eapply Put; [exact Hk| |reflexivity]. reflexivity.
    + eapply Tr; [|apply Po]. now apply Same.
  - apply Po.
  - now apply On.
  - eapply Put; [eassumption| |reflexivity]. reflexivity.
  - eapply Put; [eassumption| |reflexivity]. reflexivity.
  - now apply Same.
Qed.
Lemma close_some : forall E x es s c, Inv E x es s -> close_conn s c <> None.
Proof.
  intros E x es s c H. unfold close_conn. destruct (aget (v_conns s) c) as [k|] eqn:Hk; [|discriminate].
  destruct (negb (k_open k)); [discriminate|]. destruct (k_subs k) eqn:Hs; [discriminate|]. destruct (k_client k) eqn:Hc; [discriminate|].
  exfalso. apply (k_named _ _ _ _ _ (i_conn _ _ _ _ H _ _ Hk)); congruence.
Qed.
Lemma say_some : forall s c m, say s c m <> None.
Proof.
  intros s c m. unfold say, send_message. cbn [N.eqb]. destruct (next_id s c) as [s1 [i|]]; discriminate.
Qed.
Lemma notify_some : forall E s c e i, notify_error E s c e i <> None.
Proof. intros. apply say_some. Qed.
Lemma subscribe_panic : forall ins contract text,
  match on_subscribe ins contract text with VPanic | VSpecial _ => unreadable text | _ => True end.
Proof.
  intros. unfold on_subscribe, unreadable. destruct (parse_skey text); [|reflexivity]. destruct (st_invalid s); [exact I|].
  destruct ins; [exact I|]. now destruct (on_secure contract s).
Qed.
Lemma publish_panic : forall ins contract text,
  match on_publish ins contract text with VPanic => unreadable text | _ => True end.
Proof.
  intros. unfold on_publish, unreadable. destruct (parse_skey text); [|reflexivity]. destruct (st_invalid s); [exact I|].
  destruct (list_eq_dec N.eq_dec (st_key s) kUnitdb); [exact I|]. destruct ins; [exact I|]. now destruct (on_secure contract s) as [|[]].
Qed.
Section CRASH.
  Variable E : env.
  Hypothesis HE : parses_small E.
  Lemma each_none : forall A (f : server -> A -> option server) c q (l : list A),
    (forall s x s1, In x l -> f s x = Some s1 -> moves E c q s s1) ->
    forall s, each f s c l = None -> exists s' x, In x l /\ moves E c q s s' /\ f s' x = None.
  Proof.
    intros A f c q. induction l as [|x r IH]; cbn; intros Hf s H; [discriminate|].
    destruct (is_stuck s c); [discriminate|]. destruct (f s x) as [s1|] eqn:F.
    - destruct (IH (fun s x s1 Hx => Hf s x s1 (or_intror Hx)) s1 H) as (s' & y & Hy & M & G).
      exists s', y. split; [now right|]. split; [|assumption]. eapply mv_trans; [|exact M]. eapply Hf; [|exact F]. now left.
    - exists s, x. split; [now left|]. split; [apply mv_refl|assumption].
  Qed.
  Lemma batch_ready : forall x es s c k, Inv E x es s -> aget (v_conns s) c = Some k -> k_client k <> None -> k_batch k <> None.
  Proof. intros x es s c k H Hk Hc. now apply (k_ready _ _ _ _ _ (i_conn _ _ _ _ H _ _ Hk)). Qed.
  Lemma send_none : forall x es s c i mode delay m, Inv E x es s -> send_message s c i mode delay m = None ->
    exists k, aget (v_conns s) c = Some k /\ k_client k = None.
  Proof.
    intros x es s c i mode delay m H F. unfold send_message in F.
    destruct (if i =? 0 then next_id s c else (s, Some i)) as [s1 r] eqn:G. destruct r as [j|]; [|discriminate].
    destruct ((mode =? 2) || (0 <? delay)%Z); [|discriminate]. destruct (batch_add s1 c m) eqn:B; [discriminate|].
    unfold batch_add in B. destruct (aget (v_conns s1) c) as [k1|] eqn:Hk1; [|discriminate]. destruct (k_batch k1) eqn:Hb; [discriminate|].
    assert (X : exists k, aget (v_conns s) c = Some k /\ k_batch k = None).
    { destruct (i =? 0).
      - unfold next_id in G. destruct (aget (v_conns s) c) as [k|] eqn:Hk; [|discriminate G].
        destruct (mids_step _ _). injection G as G _; subst s1. rewrite get_set, N.eqb_refl in Hk1. injection Hk1 as <-. eauto.
      - injection G as <- <-. eauto. }
    destruct X as (k & Hk & Hbk). exists k. split; [assumption|]. destruct (k_client k) eqn:Hc; [|reflexivity].
    exfalso. apply (batch_ready x es s c k H Hk); congruence.
  Qed.
  Lemma relay_none : forall x es ms s c topic, Inv E x es s -> (forall m, In m ms -> good_msg E es c (mkPM topic m)) ->
    (exists k, aget (v_conns s) c = Some k /\ k_client k <> None) -> relay_all s c topic ms <> None.
  Proof.
    intros x es ms. induction ms as [|m r IH]; cbn [relay_all]; intros s c topic H G (k & Hk & Hc); [discriminate|].
    destruct (send_message s c 0 2 0 (mkPM topic m)) as [[s1 [i|]]|] eqn:F; [|discriminate|].
    - apply IH.
      + eapply (inv_send E x es s c 0 2 0 (mkPM topic m) s1 (Some i)); [exact H|apply G; now left|intro; reflexivity|intro K; now elim K|exact F].
      + intros y Hy. apply G. now right.
      + unfold send_message in F. cbn [N.eqb orb] in F. destruct (next_id s c) as [s2 [j|]] eqn:Fn; [|discriminate].
        destruct (batch_add s2 c (mkPM topic m)) as [s3|] eqn:Fb; [|discriminate]. injection F as <- _.
        unfold next_id in Fn. rewrite Hk in Fn. destruct (mids_step _ _). injection Fn as <- _.
        unfold batch_add in Fb. rewrite get_set, N.eqb_refl in Fb. cbn [set_ids k_batch] in Fb.
        destruct (k_batch k); [|discriminate]. injection Fb as <-. eexists. rewrite get_set, N.eqb_refl. split; [reflexivity|exact Hc].
    - exfalso. destruct (send_none _ _ _ _ _ _ _ _ H F) as (k1 & Hk1 & Hc1). congruence.
  Qed.
  Lemma check_sub_panic : forall k text, k_client k <> None -> match check_sub k text with VPanic | VSpecial _ => unreadable text | _ => True end.
  Proof. intros k text H. unfold check_sub. destruct (k_client k); [|now elim H]. apply subscribe_panic. Qed.
  Lemma crash : forall n es s ev, run E (server_new n) es = Some s -> step E s ev = None -> crash_cause E s ev.
  Proof.
    intros n es s ev R F. pose proof (inv_reached E HE _ _ _ R) as I0.
    destruct ev as [|c q|i|c|c|m]; cbn [step] in F; try discriminate.
    - destruct (aget (v_conns s) c) as [k|] eqn:Hk; [|discriminate].
      destruct (k_open k) eqn:Ho; [|discriminate]. destruct (k_stuck k) eqn:Hst; [discriminate|]. cbn [andb negb] in F.
      set (es' := es ++ [EPacket c q]).
      assert (I1 : Inv E None es' s) by (eapply Inv_mono; [|exact I0]; intros y Hy; apply in_or_app; now left).
      assert (Hq : In (EPacket c q) es') by (apply in_or_app; right; now left).
      assert (Bu : busy es' s c).
      { intros k0 Hk0. rewrite Hk in Hk0. injection Hk0 as <-. split; [assumption|]. intros _ id Hid.
        apply (k_now _ _ _ _ _ (i_conn _ _ _ _ I1 _ _ Hk)); auto. discriminate. }
      assert (Later : forall s', moves E c q s s' -> Inv E None es' s' /\
        (forall k', aget (v_conns s') c = Some k' -> k_client k' = k_client k)).
      { intros s' M. split; [eapply inv_moves; eassumption|]. intros k' Hk'.
        destruct (moves_client _ _ _ _ _ M _ _ Hk') as (k0 & Hk0 & Hc). congruence. }
      assert (Cs : k_client k = None -> ~ connected_as s c) by (intros Hn (k0 & id & Hk0 & Hid); congruence).
      destruct q as [who ins clean ky|l i|l i|p|l i| |ty flow i]; cbn [handle] in F.
      + destruct who as [|id ch|id]; [exact I| |].
        * cbn [crash_cause]. unfold on_connect_msg, put_out in F. rewrite !on_on in F.
          destruct (aget (v_conns (on_conn s c _)) c) as [k1|]; [|discriminate]. destruct (m_hung (k_ids k1)); [discriminate|].
          rewrite on_log in F. destruct (sess_get E (v_log s) _) as [[old|]|]; [discriminate|reflexivity|discriminate].
        * exfalso. cbn in F. destruct (say _ c (mkPM tClientid id)) as [s1|] eqn:Fs; [|now apply say_some in Fs].
          assert (H1 : Inv E (Some c) es s1).
          { eapply inv_say; [| |exact Fs]; [|eexists; reflexivity]. apply inv_put_out; [|exact I].
            apply inv_on; [now apply inv_hold|]. intros k0 Hk0 K. split; [|apply (i_wf _ _ _ _ I0 _ _ Hk0)].
            destruct K. constructor; auto. intros []. reflexivity. }
          destruct (is_stuck s1 c); [discriminate|]. now apply (close_some _ _ _ _ _ H1) in F.
      + cbn [crash_cause]. destruct (each _ s c l) as [s1|] eqn:Fe; [discriminate|].
        apply (each_none _ _ c (QSub l i)) in Fe; [|intros; eapply sub_moves; eassumption].
        destruct Fe as (s' & [[text mode] delay] & Hx & M & G). destruct (Later _ M) as [I2 Hcl].
        unfold sub_one in G. destruct (aget (v_conns s') c) as [k'|] eqn:Hk'; [|discriminate].
        specialize (Hcl _ eq_refl). destruct (k_client k) as [id|] eqn:Hc; [|left; now apply Cs].
        right. exists text, mode, delay. split; [assumption|].
        pose proof (check_sub_panic k' text) as P. rewrite Hcl in P, G. specialize (P ltac:(discriminate)).
        destruct (check_sub k' text) as [|e|t|t]; [exact P|now apply notify_some in G|exact P|].
        exfalso. match type of G with match ?x with _ => _ end = _ => destruct x end; [|now apply notify_some in G].
        destruct (M_Subs.increment _ _ _ _) as [st first]. destruct first; [|discriminate].
        destruct (e_store E (st_topic t) []); [discriminate|]. now apply notify_some in G.
      + cbn [crash_cause]. destruct (each _ s c l) as [s1|] eqn:Fe; [discriminate|].
        apply (each_none _ _ c (QUnsub l i)) in Fe; [|intros; eapply unsub_moves; eassumption].
        destruct Fe as (s' & text & Hx & M & G). destruct (Later _ M) as [I2 Hcl].
        unfold unsub_one in G. destruct (aget (v_conns s') c) as [k'|] eqn:Hk'; [|discriminate].
        specialize (Hcl _ eq_refl). destruct (k_client k) as [id|] eqn:Hc; [|left; now apply Cs].
        right. exists text. split; [assumption|].
        pose proof (check_sub_panic k' text) as P. rewrite Hcl in P, G. specialize (P ltac:(discriminate)).
        destruct (check_sub k' text) as [|e|t|t]; [exact P|now apply notify_some in G|exact P|].
        exfalso. destruct (M_Subs.decrement _ _) as [st [last sid]]. destruct last; [destruct sid|]; discriminate.
      + cbn [crash_cause]. destruct (pub_msgs E s c p (p_msgs p)) as [r|] eqn:Fp; [discriminate|]. clear F.
        assert (X : forall l s', incl l (p_msgs p) -> moves E c (QPub p) s s' -> pub_msgs E s' c p l = None ->
          ~ connected_as s c \/ exists m, In m (p_msgs p) /\ unreadable (pm_topic m)).
        { induction l as [|m r IH]; cbn [pub_msgs]; intros s' Hi M G; [discriminate|].
          assert (Hm : In m (p_msgs p)) by (apply Hi; now left).
          assert (Hr : incl r (p_msgs p)) by (intros y Hy; apply Hi; now right).
          destruct (Later _ M) as [I2 Hcl]. destruct (aget (v_conns s') c) as [k'|] eqn:Hk'; [|discriminate].
          specialize (Hcl _ eq_refl). destruct (k_client k) as [id|] eqn:Hc; [|left; now apply Cs].
          unfold check_pub in G. rewrite Hcl in G. pose proof (publish_panic (k_insecure k') (id_contract id) (pm_topic m)) as P.
          destruct (on_publish (k_insecure k') (id_contract id) (pm_topic m)) as [|e|t|t] eqn:Fo.
          - right. eauto.
          - exfalso. destruct (notify_error E s' c e (p_id p)) eqn:Fn; [discriminate|now apply notify_some in Fn].
          - exfalso. destruct (say s' c _) eqn:Fn; [discriminate|now apply say_some in Fn].
          - destruct (e_store E (st_topic t) (pm_payload m)).
            + eapply IH; [exact Hr| |exact G]. eapply mv_trans; [exact M|]. eapply mv_task; eauto.
            + exfalso. destruct (notify_error E s' c ErrForbidden (p_id p)) eqn:Fn; [discriminate|now apply notify_some in Fn]. }
        eapply X; [|apply mv_refl|exact Fp]. easy.
      + cbn [crash_cause]. destruct (each _ s c l) as [s1|] eqn:Fe; [discriminate|].
        apply (each_none _ _ c (QRelay l i)) in Fe; [|intros; eapply relay_one_moves; eassumption].
        destruct Fe as (s' & [text ms] & Hx & M & G). destruct (Later _ M) as [I2 Hcl].
        unfold relay_one in G. cbn [fst snd] in G. destruct (aget (v_conns s') c) as [k'|] eqn:Hk'; [|discriminate].
        specialize (Hcl _ eq_refl). destruct (k_client k) as [id|] eqn:Hc; [|left; now apply Cs].
        right. exists text, ms. split; [assumption|].
        pose proof (check_sub_panic k' text) as P. rewrite Hcl in P, G. specialize (P ltac:(discriminate)).
        destruct (check_sub k' text) as [|e|t|t]; [exact P|now apply notify_some in G|exact P|].
        exfalso. revert G. apply (relay_none None es'); [assumption| |].
        * intros m Hm. right. left. exists l, i, text, ms. auto.
        * exists k'. split; [assumption|congruence].
      + discriminate.
      + exfalso. unfold on_flow in F. rewrite Hk in F.
        set (s1 := if match k_client k with Some _ => true | None => false end then _ else s) in *.
        assert (I2 : close_conn s1 c <> None).
        { unfold close_conn. replace (aget (v_conns s1) c) with (Some k).
          - destruct (negb (k_open k)); [discriminate|]. destruct (k_subs k) eqn:Hs; [discriminate|]. destruct (k_client k) eqn:Hc; [discriminate|].
            exfalso. apply (k_named _ _ _ _ _ (i_conn _ _ _ _ I0 _ _ Hk)); congruence.
          - unfold s1. destruct (k_client k); [|now symmetry]. now rewrite persist_in_conns. }
        destruct (flow =? fRECEIVE).
        * destruct (log_get E (v_log s1) _) as [[x|]|]; [discriminate|discriminate|now apply I2].
        * destruct (flow =? fRECEIPT); discriminate.
    - destruct (nth_error (v_tasks s) i) as [t|] eqn:Ht; [|discriminate].
      destruct (run_task E s t) as [[s1 r]|] eqn:Fr; [discriminate|]. clear F. cbn [crash_cause].
      destruct t as [c p t pl|c p m j [|x todo]|c p m j x todo]; cbn [run_task] in Fr.
      + destruct (aget (v_conns s) c) as [k|] eqn:Hk; [|discriminate]. destruct (k_client k) eqn:Hc; [discriminate|].
        left. exists c, p, t, pl, k. auto.
      + discriminate.
      + destruct (aget (v_conns s) (s_conn x)) as [k|]; [destruct (k_open k)|]; try discriminate.
        destruct (j =? 0); [|discriminate]. destruct (next_id s c) as [s2 [y|]]; discriminate.
      + destruct (aget (v_conns s) (s_conn x)) as [k|] eqn:Hk; [|discriminate]. right. exists c, p, m, j, x, todo, k.
        split; [exact Ht|]. split; [exact Hk|].
        assert (X : match send_message s (s_conn x) j (s_mode x) (s_delay x) m with
              | Some (s1, Some i) => Some (s1, Some (TLoop c p m i todo)) | Some (s1, None) => Some (s1, None)
              | None => None end = None -> k_open k = false \/ k_client k = None).
        { destruct (send_message s (s_conn x) j (s_mode x) (s_delay x) m) as [[s2 [y|]]|] eqn:Fs; intro G; try discriminate.
          right. destruct (send_none _ _ _ _ _ _ _ _ I0 Fs) as (k1 & Hk1 & Hc1). congruence. }
        destruct (reliable (p_mode p)).
        * destruct (reliable (s_mode x)); [destruct (k_open k); [discriminate|now left]|].
          destruct (s_mode x =? 0); [now apply X|discriminate].
        * destruct (p_mode p =? 0); [now apply X|discriminate].
    - now apply (close_some _ _ _ _ _ I0) in F.
  Qed.
End CRASH.
