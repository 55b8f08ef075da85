(** C81, C83-C85: where the messages of the log and of the connections come from. *)
From Coq Require Import Lia ZifyBool ZifyNat ZifyN.
From Verif Require Import M_Bytes M_Keys M_MsgIds M_Conn S_Conn P_Conn P_Pending.
From Verif Require M_Subs.
Open Scope N_scope.

(** ** Longer histories *)
Section MONO.
  Variable E : env.
  Variable es es' : list event.
  Hypothesis Hi : incl es es'.
  Lemma accepted_mono : forall c id ins, accepted es c id ins -> accepted es' c id ins.
  Proof. intros c id ins (ch & cl & k & H). exists ch, cl, k. auto. Qed.
  Lemma presented_mono : forall c z, presented es c z -> presented es' c z.
  Proof. intros c z (id & ch & ins & cl & k & H & G). exists id, ch, ins, cl, k. auto. Qed.
  Lemma near_mono : forall a b, near es a b -> near es' a b.
  Proof. intros a b [->|(z & H & G)]; [now left|right]. exists z. split; now apply presented_mono. Qed.
  Lemma subscribed_mono : forall c k t, subscribed es c k t -> subscribed es' c k t.
  Proof.
    intros c k t (id & ins & l & i & text & mode & delay & x & H1 & H2 & H3 & H4).
    exists id, ins, l, i, text, mode, delay, x. split; [now apply accepted_mono|]. auto.
  Qed.
  Lemma published_mono : forall c p m t, published es c p m t -> published es' c p m t.
  Proof. intros c p m t (id & ins & H1 & H2 & H3). exists id, ins. split; [now apply accepted_mono|]. auto. Qed.
  Lemma for_conn_mono : forall c p m t, for_conn E es c p m t -> for_conn E es' c p m t.
  Proof.
    intros c p m t (c0 & id & ins & topic & H1 & H2 & H3 & H4). exists c0, id, ins, topic.
    split; [now apply published_mono|]. split; [now apply accepted_mono|]. split; [now apply subscribed_mono|assumption].
  Qed.
  Lemma good_msg_mono : forall c m, good_msg E es c m -> good_msg E es' c m.
  Proof.
    intros c m [H|[(l & i & text & ms & H)|(p & m0 & t & H & G)]]; [now left|right; left|right; right].
    - exists l, i, text, ms. destruct H as (H1 & H2). auto.
    - exists p, m0, t. split; [now apply for_conn_mono|assumption].
  Qed.
  Lemma good_msgs_mono : forall c l, Forall (good_msg E es c) l -> Forall (good_msg E es' c) l.
  Proof. intros c l H. eapply Forall_impl; [|exact H]. apply good_msg_mono. Qed.
  Lemma concerns_mono : forall c q, concerns E es c q -> concerns E es' c q.
  Proof.
    intros c q [H|(m & t & H)]; [left; now apply good_msgs_mono|right]. exists m, t. now apply for_conn_mono.
  Qed.
  Lemma asked_mono : forall c i, asked es c i -> asked es' c i.
  Proof. intros c i (ty & H). exists ty. auto. Qed.
  Lemma calm_mono : calm es' -> calm es.
  Proof.
    intros [F U]. split.
    - apply Forall_forall. intros x Hx. eapply Forall_forall; [exact F|auto].
    - intros c z z' H G. eapply U; apply presented_mono; eassumption.
  Qed.
End MONO.

(** ** The invariant *)
(** [ex]: a connection whose CONNECT is being handled. *)
Section INV.
  Variable E : env.
  Variable ex : option N.
  Definition entry_ok (es : list event) (b : N) (q : pub) : Prop :=
    exists c', concerns E es c' q /\ (calm es -> near es c' b).
  Definition out_ok (es : list event) (c : N) (q : pub) : Prop :=
    Forall (good_msg E es c) (p_msgs q) \/
    asked es c (p_id q) /\ exists c', concerns E es c' q /\ (calm es -> near es c' c).
  Record conn_ok (es : list event) (c : N) (k : conn) : Prop := {
    k_was : forall id, k_client k = Some id -> exists ins, accepted es c id ins;
    k_now : ex <> Some c -> forall id, k_client k = Some id -> k_open k = true -> k_stuck k = false -> accepted es c id (k_insecure k);
    k_ready : k_client k <> None -> k_batch k <> None;
    k_resumed : m_resume (k_ids k) <> [] -> k_batch k <> None;
    k_hung : m_hung (k_ids k) = true -> k_batch k <> None;
    k_named : k_subs k <> [] -> k_client k <> None;
    k_held : forall l, k_batch k = Some l -> Forall (good_msg E es c) l;
    k_sent : forall q, In (KPub q) (k_out k) -> out_ok es c q;
    k_own : calm es -> near es c (k_sess k) }.
  Definition task_ok (es : list event) (t : task) : Prop :=
    match t with
    | TPub c p t pl => exists m, published es c p m t /\ pl = pm_payload m
    | TLoop c p m i todo => (calm es -> i < 2 ^ 16) /\ exists m0 t, m = mkPM (st_name t) (pm_payload m0) /\
        In (EPacket c (QPub p)) es /\ Forall (fun n => for_conn E es (s_conn n) p m0 t) todo
    | TSend c p m i n todo => (calm es -> i < 2 ^ 16) /\ exists m0 t, m = mkPM (st_name t) (pm_payload m0) /\
        In (EPacket c (QPub p)) es /\ Forall (fun n => for_conn E es (s_conn n) p m0 t) (n :: todo)
    end.
  Definition entry_log (es : list event) (key : N) (pk : packet) : Prop :=
    exists b i, b < 2 ^ 32 /\ key = log_key i b /\ (calm es -> i < 2 ^ 16) /\
      match pk with KPub q => i = p_id q /\ p_msgs q <> [] /\ entry_ok es b q | KCtl _ fl _ => fl = fRECEIPT end.
  Record Inv (es : list event) (s : server) : Prop := {
    i_wf : wf s;
    i_log : forall key pk, aget (v_log s) key = Some (LPkt pk) -> entry_log es key pk;
    i_sess : calm es -> forall key n, aget (v_log s) key = Some (LSess n) ->
      n < 2 ^ 32 /\ (key < 2 ^ 32 \/ exists z, (- 2 ^ 31 <= z < 0)%Z /\ key = sess_key z /\ presented es n z);
    i_conn : forall c k, aget (v_conns s) c = Some k -> conn_ok es c k;
    i_subs : forall n, In n (v_subs s) -> subscribed es (s_conn n) (s_contract n) (s_topic n);
    i_tasks : Forall (task_ok es) (v_tasks s) }.

  Section GROW.
    Variable es es' : list event.
    Hypothesis Hi : incl es es'.
    Lemma entry_ok_mono : forall b q, entry_ok es b q -> entry_ok es' b q.
    Proof.
      intros b q (c' & H & G). exists c'. split; [eapply concerns_mono; eassumption|].
      intro C. eapply near_mono; [exact Hi|]. apply G. eapply calm_mono; eassumption.
    Qed.
    Lemma out_ok_mono : forall c q, out_ok es c q -> out_ok es' c q.
    Proof.
      intros c q [H|(A & c' & H & G)]; [left; eapply good_msgs_mono; eassumption|right].
      split; [eapply asked_mono; eassumption|]. exists c'. split; [eapply concerns_mono; eassumption|].
      intro C. eapply near_mono; [exact Hi|]. apply G. eapply calm_mono; eassumption.
    Qed.
    Lemma conn_ok_mono : forall c k, conn_ok es c k -> conn_ok es' c k.
    Proof.
      intros c k [H1 H2 H3 H4 H5 H6 H7 H8 H9]. constructor; auto.
      - intros id Hid. destruct (H1 _ Hid) as [ins H]. exists ins. eapply accepted_mono; eassumption.
      - intros. eapply accepted_mono; [exact Hi|]. now apply H2.
      - intros. eapply good_msgs_mono; [exact Hi|]. now apply H7.
      - intros. apply out_ok_mono. now apply H8.
      - intro C. eapply near_mono; [exact Hi|]. apply H9. eapply calm_mono; eassumption.
    Qed.
    Lemma fc_mono : forall p m t todo, Forall (fun n => for_conn E es (s_conn n) p m t) todo ->
      Forall (fun n => for_conn E es' (s_conn n) p m t) todo.
    Proof. intros p m t todo H. eapply Forall_impl; [|exact H]. intro n. now apply for_conn_mono. Qed.
    Lemma task_ok_mono : forall t, task_ok es t -> task_ok es' t.
    Proof.
      intros [c p t pl|c p m i todo|c p m i n todo]; cbn [task_ok].
      - intros (m & H & G). exists m. split; [eapply published_mono; eassumption|assumption].
      - intros (B & m0 & t & H1 & H2 & H3). split; [intro C; apply B; eapply calm_mono; eassumption|].
        exists m0, t. split; [assumption|]. split; [auto|now apply fc_mono].
      - intros (B & m0 & t & H1 & H2 & H3). split; [intro C; apply B; eapply calm_mono; eassumption|].
        exists m0, t. split; [assumption|]. split; [auto|now apply fc_mono].
    Qed.
    Lemma Inv_mono : forall s, Inv es s -> Inv es' s.
    Proof.
      intros s [W L S C B T]. constructor; auto.
      - intros key pk H. destruct (L _ _ H) as (b & i & H1 & H2 & H3 & H4). exists b, i.
        split; [assumption|]. split; [assumption|]. split; [intro K; apply H3; eapply calm_mono; eassumption|].
        destruct pk; [|exact H4]. destruct H4 as (? & ? & ?). split; [assumption|]. split; [assumption|now apply entry_ok_mono].
      - intros K key n H. destruct (S (calm_mono _ _ Hi K) _ _ H) as [G1 [G2|(z & G2 & G3 & G4)]]; (split; [assumption|]); [now left|right].
        exists z. split; [assumption|]. split; [assumption|]. eapply presented_mono; eassumption.
      - intros c k H. apply conn_ok_mono. now apply C.
      - intros n H. eapply subscribed_mono; [exact Hi|]. now apply B.
      - eapply Forall_impl; [|exact T]. apply task_ok_mono.
    Qed.
  End GROW.

  (** ** Steps that keep it *)
  Section KEEP.
    Variable es : list event.
    Notation Inv := (Inv es).
    Notation conn_ok := (conn_ok es).
    Lemma inv_on : forall s c f, Inv s ->
      (forall k, aget (v_conns s) c = Some k -> conn_ok c k -> conn_ok c (f k) /\ k_sess (f k) < 2 ^ 32) -> Inv (on_conn s c f).
    Proof.
      intros s c f [W L S C B T] Hf. constructor.
      - intros q k. rewrite get_on. destruct (q =? c) eqn:F; [|apply W]. assert (q = c) by lia. subst.
        destruct (aget (v_conns s) c) as [k0|] eqn:Hk; cbn; [|discriminate]. intros [= <-].
        split; [apply (W _ _ Hk)|]. apply Hf; auto.
      - rewrite on_log. exact L.
      - rewrite on_log. exact S.
      - intros q k. rewrite get_on. destruct (q =? c) eqn:F; [|apply C]. assert (q = c) by lia. subst.
        destruct (aget (v_conns s) c) as [k0|] eqn:Hk; cbn; [|discriminate]. intros [= <-]. apply Hf; auto.
      - rewrite on_vsubs. exact B.
      - rewrite on_tasks. exact T.
    Qed.
    Lemma inv_put_out : forall s c pk, Inv s -> match pk with KPub q => out_ok es c q | _ => True end -> Inv (put_out s c pk).
    Proof.
      intros s c pk H G. apply inv_on; [assumption|]. intros k Hk K.
      destruct (i_wf _ _ H _ _ Hk) as [_ Hs].
      destruct (k_open k) eqn:O; [|now split]. split; [|exact Hs]. destruct K. constructor; auto.
      intros q Hq. cbn in Hq. apply in_app_or in Hq. destruct Hq as [Hq|[->|[]]]; auto.
    Qed.
    Lemma inv_persist : forall s b q, Inv s -> b < 2 ^ 32 -> (calm es -> p_id q < 2 ^ 16) -> p_msgs q <> [] -> entry_ok es b q -> Inv (persist_out s b (KPub q)).
    Proof.
      intros s b q [W L S C B T] Hb Hi Hne He. constructor; cbn [persist_out set_log v_log v_conns v_subs v_tasks]; auto.
      - intros key pk. rewrite aget_aput. destruct (key =? log_key (p_id q) b) eqn:F; [|apply L].
        intros [= <-]. exists b, (p_id q). split; [assumption|]. split; [lia|]. auto.
      - intros K key n. rewrite aget_aput. destruct (key =? log_key (p_id q) b); [discriminate|]. now apply S.
    Qed.
    Lemma inv_set_conn : forall s c k, Inv s -> conn_ok c k -> c < 2 ^ 32 -> k_sess k < 2 ^ 32 -> Inv (set_conn s c k).
    Proof.
      intros s c k [W L S C B T] K Hc Hs. constructor; auto.
      - intros q k0. rewrite get_set. destruct (q =? c) eqn:F; [|apply W]. assert (q = c) by lia. subst. now intros [= <-].
      - intros q k0. rewrite get_set. destruct (q =? c) eqn:F; [|apply C]. assert (q = c) by lia. subst. now intros [= <-].
    Qed.
    Lemma inv_next : forall s c s1 r, Inv s -> next_id s c = (s1, r) -> Inv s1 /\
      (forall i, r = Some i -> i < 2 ^ 16 /\ exists k, aget (v_conns s1) c = Some k).
    Proof.
      intros s c s1 r H F. unfold next_id in F. destruct (aget (v_conns s) c) as [k|] eqn:Hk.
      2:{ injection F as <- <-. split; [assumption|discriminate]. }
      destruct (mids_step (k_ids k) (MNext tPUBLISH)) as [m xx] eqn:M. injection F as <- <-.
      destruct (i_wf _ _ H _ _ Hk) as [Hc Hs]. split.
      - apply inv_set_conn; auto. pose proof (i_conn _ _ H _ _ Hk) as K.
        destruct K. constructor; cbn; auto.
        + intro R. apply k_resumed0. unfold mids_step in M. destruct (m_hung (k_ids k)); [now injection M as <- <-|].
          destruct (zmem _ _); now injection M as <- <-.
        + intro R. unfold mids_step in M. destruct (m_hung (k_ids k)) eqn:Hh; [now apply k_hung0|].
          destruct (zmem _ _) eqn:Hz; injection M as <- <-; [|discriminate].
          apply k_resumed0. intro X. rewrite X in Hz. discriminate.
      - intros i Hi. destruct xx; [|discriminate]. injection Hi as <-. split.
        + unfold wire_id. change (2 ^ 16)%Z with 65536%Z. change (2 ^ 16) with 65536.
          pose proof (Z.mod_pos_bound z 65536 ltac:(lia)). lia.
        + eexists. rewrite get_set, N.eqb_refl. reflexivity.
    Qed.
    Lemma inv_batch : forall s c m s1, Inv s -> good_msg E es c m -> batch_add s c m = Some s1 -> Inv s1.
    Proof.
      intros s c m s1 H G F. unfold batch_add in F. destruct (aget (v_conns s) c) as [k|] eqn:Hk; [|now injection F as <-].
      destruct (k_batch k) as [l|] eqn:Hb; [|discriminate]. injection F as <-.
      destruct (i_wf _ _ H _ _ Hk) as [Hc Hs]. apply inv_set_conn; auto.
      pose proof (i_conn _ _ H _ _ Hk) as K. destruct K. constructor; cbn; auto; try discriminate.
      intros l0 [= <-]. apply Forall_app. auto.
    Qed.
    Lemma good_entry : forall c i mode m, good_msg E es c m -> entry_ok es c (mkPub i mode [m]).
    Proof. intros c i mode m H. exists c. split; [left; cbn; auto|]. intro. now left. Qed.
    Lemma inv_send : forall s c i mode delay m s1 r, Inv s -> good_msg E es c m -> (calm es -> i < 2 ^ 16) ->
      (i <> 0 -> exists k, aget (v_conns s) c = Some k) ->
      send_message s c i mode delay m = Some (s1, r) -> Inv s1 /\ (calm es -> forall j, r = Some j -> j < 2 ^ 16).
    Proof.
      intros s c i mode delay m s1 r H G Hi Hk F. apply send_inv in F. destruct F as (s0 & F0 & F1).
      assert (H0 : Inv s0 /\ (calm es -> forall j, r = Some j -> j < 2 ^ 16) /\ (forall j, r = Some j -> exists k, aget (v_conns s0) c = Some k)).
      { destruct (i =? 0) eqn:Fi.
        - destruct (inv_next _ _ _ _ H F0) as [X Y]. split; [assumption|]. split; [intros _ j Hj|intros j Hj]; now apply (Y j).
        - destruct F0 as [-> ->]. split; [assumption|]. split; [intros C j [= <-]; auto|]. intros j _. apply Hk. lia. }
      destruct H0 as (H0 & Hj & Hc). split; [|exact Hj]. destruct r as [j|]; [|now subst].
      destruct F1 as [F1| ->]; [eapply inv_batch; eassumption|].
      destruct (Hc j eq_refl) as [k Hk0]. apply inv_put_out.
      - apply inv_persist.
        + assumption.
        + apply (i_wf _ _ H0 _ _ Hk0).
        + cbn. intro C. now apply (Hj C j).
        + discriminate.
        + now apply good_entry.
      - left. cbn. auto.
    Qed.
    Lemma inv_stuck : forall s c, Inv s -> Inv (on_conn s c set_stuck).
    Proof.
      intros s c H. apply inv_on; [assumption|]. intros k Hk K. split; [|apply (i_wf _ _ H _ _ Hk)].
      destruct K. constructor; auto. cbn. discriminate.
    Qed.
    Lemma inv_say : forall s c m s1, Inv s -> from_server m -> say s c m = Some s1 -> Inv s1.
    Proof.
      intros s c m s1 H G F. unfold say in F. destruct (send_message s c 0 0 0 m) as [[s2 r]|] eqn:X; [|discriminate].
      assert (H2 : Inv s2).
      { eapply (inv_send s c 0 0 0 m s2 r); [exact H|now left|intro; reflexivity|intro K; now elim K|exact X]. }
      destruct r; injection F as <-; [assumption|now apply inv_stuck].
    Qed.
    Lemma inv_close : forall s c s1, Inv s -> close_conn s c = Some s1 -> Inv s1.
    Proof.
      intros s c s1 H F. unfold close_conn in F. destruct (aget (v_conns s) c) as [k|] eqn:Hk; [|now injection F as <-].
      destruct (negb (k_open k)); [now injection F as <-|].
      destruct (i_wf _ _ H _ _ Hk) as [Hc Hs].
      assert (X : forall s0, Inv s0 -> Inv (set_conn s0 c (set_closed k))).
      { intros s0 H0. apply inv_set_conn; auto. pose proof (i_conn _ _ H _ _ Hk) as K. destruct K. constructor; auto. cbn. discriminate. }
      destruct (k_subs k); [injection F as <-; now apply X|]. destruct (k_client k) as [id|]; [|discriminate].
      injection F as <-. apply X. destruct H. constructor; auto. cbn. intros n Hn. apply filter_In in Hn. apply i_subs0, Hn.
    Qed.

    Lemma relayed_in : forall c q m, In (EPacket c q) es -> relayed [EPacket c q] c m -> relayed es c m.
    Proof. intros c q m H (l & i & text & ms & [G|[]] & R). injection G as ->. exists l, i, text, ms. auto. Qed.
    Lemma inv_set_subs : forall s c k st n, Inv s -> aget (v_conns s) c = Some k -> k_client k <> None ->
      forall subs, (forall xx, In xx subs -> subscribed es (s_conn xx) (s_contract xx) (s_topic xx)) ->
      Inv (mkV (v_log s) (aput (v_conns s) c (set_subs st k)) subs (v_tasks s) (v_next s) n).
    Proof.
      intros s c k st n H Hk Hc subs Hs. destruct (i_wf _ _ H _ _ Hk) as [Hc' Hs'].
      assert (X : Inv (set_conn s c (set_subs st k))).
      { apply inv_set_conn; auto. pose proof (i_conn _ _ H _ _ Hk) as K. destruct K. constructor; auto. }
      destruct X. constructor; auto.
    Qed.
    (** Where a packet is handled: *)
    Definition busy (s : server) (c : N) : Prop :=
      forall k, aget (v_conns s) c = Some k -> k_open k = true /\ (k_client k <> None -> forall id, k_client k = Some id -> accepted es c id (k_insecure k)).
    Lemma busy_moves : forall c q s s', moves E c q s s' -> busy s c -> busy s' c.
    Proof.
      assert (Same : forall s s' c, (forall k', aget (v_conns s') c = Some k' ->
          exists k, aget (v_conns s) c = Some k /\ k_open k' = k_open k /\ k_client k' = k_client k /\ k_insecure k' = k_insecure k) ->
          busy s c -> busy s' c).
      { intros s s' c H B k' Hk'. destruct (H _ Hk') as (k & Hk & E1 & E2 & E3). rewrite E1, E2, E3. exact (B _ Hk). }
      assert (On : forall s c f, (forall k, k_open (f k) = k_open k /\ k_client (f k) = k_client k /\ k_insecure (f k) = k_insecure k) ->
          busy s c -> busy (on_conn s c f) c).
      { intros s c f Hf. apply Same. intros k'. rewrite get_on, N.eqb_refl. destruct (aget (v_conns s) c) as [k|]; [|discriminate].
        intros [= <-]. exists k. split; [reflexivity|apply Hf]. }
      assert (Put : forall s c pk, busy s c -> busy (put_out s c pk) c).
      { intros. apply On; [|assumption]. intro k. destruct (k_open k) eqn:F; cbn; auto. }
      induction 1; intro B; auto.
      - apply send_inv in H. destruct H as (s0 & F0 & F1). cbn in F0.
        assert (B0 : busy s0 c).
        { unfold next_id in F0. destruct (aget (v_conns s) c) as [k|] eqn:Hk; [|injection F0 as <- <-; assumption].
          destruct (mids_step _ _) as [mm xx]. injection F0 as <- <-. revert B. apply Same. intros k'. rewrite get_set, N.eqb_refl. intros [= <-]. eauto. }
        destruct r; [|now subst]. destruct F1 as [F1| ->].
        + unfold batch_add in F1. destruct (aget (v_conns s0) c) as [k|] eqn:Hk; [|injection F1 as <-; assumption].
          destruct (k_batch k); [|discriminate]. injection F1 as <-. revert B0. apply Same. intros k'. rewrite get_set, N.eqb_refl. intros [= <-]. eauto.
        + apply Put. exact B0.
      - revert B. apply Same. cbn [v_conns]. intros k'. rewrite aget_aput, N.eqb_refl. intros [= <-]. eauto.
      - revert B. apply Same. cbn [v_conns]. intros k'. rewrite aget_aput, N.eqb_refl. intros [= <-]. eauto.
    Qed.
    Lemma inv_moves : forall c q s s', moves E c q s s' -> In (EPacket c q) es -> busy s c -> Inv s -> Inv s'.
    Proof.
      induction 1; intros Hq B HI.
      - assumption.
      - apply IHmoves2; auto. eapply busy_moves; eassumption.
      - eapply inv_send; [exact HI| | | |exact H].
        + destruct H0 as [H0|H0]; [now left|right; left]. eapply relayed_in; eassumption.
        + reflexivity.
        + intro K. now elim K.
      - now apply inv_put_out.
      - now apply inv_stuck.
      - apply inv_set_subs; auto. intros xx Hx. apply (i_subs _ _ HI); auto.
      - destruct H0 as (Hx & l & i & text & mode & delay & t & id & -> & Hin & Hcl & Hct & Hon & Htop).
        apply inv_set_subs; auto; [congruence|].
        intros y [<-|Hy]; [|now apply (i_subs _ _ HI)].
        rewrite Hx, Hct, Htop. exists id, (k_insecure k), l, i, text, mode, delay, t.
        destruct (B _ H) as [_ Ba]. split; [apply Ba; [congruence|assumption]|]. auto 10.
      - destruct HI. constructor; auto. cbn [set_tasks v_tasks]. apply Forall_app. split; [assumption|]. constructor; [|constructor].
        cbn. exists m. split; [|reflexivity]. exists id, (k_insecure k).
        destruct (B _ H) as [_ Ba]. split; [apply Ba; [congruence|assumption]|]. subst q. auto.
    Qed.
    Lemma inv_tasks : forall s l, Inv s -> Forall (task_ok es) l -> Inv (set_tasks s l).
    Proof. intros s l [W L S C B T] H. constructor; auto. Qed.
    Lemma inv_del : forall s key, Inv s -> Inv (set_log s (adel (v_log s) key)).
    Proof.
      intros s key [W L S C B T]. constructor; auto; cbn [set_log v_log].
      - intros q pk. rewrite aget_adel. destruct (q =? key); [discriminate|]. apply L.
      - intros K q n. rewrite aget_adel. destruct (q =? key); [discriminate|]. now apply S.
    Qed.
  End KEEP.
End INV.

Lemma adel_adel : forall A (l : list (N * A)) k, adel (adel l k) k = adel l k.
Proof.
  intros A l k. unfold adel. induction l as [|e l IH]; cbn; [reflexivity|].
  destruct (fst e =? k) eqn:F; cbn; [exact IH|]. rewrite F. cbn. now rewrite IH.
Qed.
Lemma on_on : forall s c f g, on_conn (on_conn s c f) c g = on_conn s c (fun k => g (f k)).
Proof.
  intros s c f g. unfold on_conn. destruct (aget (v_conns s) c) as [k|] eqn:Hk; [|now rewrite Hk].
  rewrite get_set, N.eqb_refl. unfold set_conn. cbn [v_log v_conns v_subs v_tasks v_next v_nsub]. f_equal.
  unfold aput at 1 3. f_equal. unfold aput, adel at 1. cbn. rewrite N.eqb_refl. cbn. apply (adel_adel conn).
Qed.
Lemma sess_key_neg : forall z, (- 2 ^ 31 <= z < 0)%Z -> sess_key z = 2 ^ 64 - Z.to_N (- z).
Proof.
  intros z. unfold sess_key, to_unsigned. change (2 ^ Z.of_N 64)%Z with 18446744073709551616%Z.
  change (2 ^ 31)%Z with 2147483648%Z. change (2 ^ 64) with 18446744073709551616. intro H.
  replace (z mod 18446744073709551616)%Z with (z + 18446744073709551616)%Z; [lia|].
  rewrite <- (Z_mod_plus_full z 1 18446744073709551616). rewrite Z.mod_small; lia.
Qed.

Section STEP.
  Variable E : env.
  Hypothesis HE : parses_small E.
  Notation Inv := (Inv E).
  Lemma inv_free : forall es c s, Inv (Some c) es s ->
    (forall k, aget (v_conns s) c = Some k -> k_open k = true -> k_stuck k = false -> forall id, k_client k = Some id -> accepted es c id (k_insecure k)) ->
    Inv None es s.
  Proof.
    intros es c s [W L S C B T] H. constructor; auto. intros q k Hk. destruct (C q k Hk). constructor; auto.
    intros _ id Hid Ho Hs. destruct (N.eq_dec q c) as [->|Hn]; [eauto|]. apply k_now0; auto. congruence.
  Qed.
  Lemma inv_hold : forall es c s, Inv None es s -> Inv (Some c) es s.
  Proof.
    intros es c s [W L S C B T]. constructor; auto. intros q k Hk. destruct (C q k Hk). constructor; auto.
    intros _. apply k_now0. discriminate.
  Qed.
  Section FIX.
    Variable es : list event.
    Lemma inv_resume_key : forall x c s q, Inv x es s -> (forall k, aget (v_conns s) c = Some k -> k_batch k <> None) ->
      Inv x es (resume_key E c s q) /\ (forall k, aget (v_conns (resume_key E c s q)) c = Some k -> k_batch k <> None).
    Proof.
      intros x c s q H Hb. unfold resume_key.
      destruct (log_get E (v_log s) q) as [[p|ty f i]|]; [| |auto].
      - destruct (N.testbit q 4); [split; [now apply inv_del|exact Hb]|]. split.
        + apply inv_put_out; [|exact I]. apply inv_on; [assumption|]. intros k Hk K. split; [|apply (i_wf _ _ _ _ H _ _ Hk)].
          destruct K. constructor; auto; cbn; intros _; now apply Hb.
        + intros k. unfold put_out. rewrite get_on, N.eqb_refl, get_on, N.eqb_refl.
          destruct (aget (v_conns s) c) as [k0|] eqn:Hk; [|discriminate]. cbn. intros [= <-]. destruct (k_open k0); exact (Hb k0 eq_refl).
      - destruct (N.testbit q 4); (split; [now apply inv_del|exact Hb]).
    Qed.
    Lemma inv_resume : forall x c b s, Inv x es s -> (forall k, aget (v_conns s) c = Some k -> k_batch k <> None) -> Inv x es (resume E s c b).
    Proof.
      intros x c b s. unfold resume. generalize (log_keys E (v_log s) b). intro l. revert s.
      induction l as [|q l IH]; intros s H Hb; cbn [fold_left]; [assumption|].
      destruct (inv_resume_key x c s q H Hb). now apply IH.
    Qed.
    Lemma inv_reset : forall x b s, Inv x es s -> Inv x es (set_log s (log_reset E (v_log s) b)).
    Proof.
      intros x b s. unfold log_reset. generalize (log_keys E (v_log s) b). intro l.
      assert (G : forall l (g : list (N * lval)), (forall q v, aget (fold_left adel l g) q = Some v -> aget g q = Some v)).
      { clear. induction l as [|q l IH]; intros g y v H; cbn [fold_left] in H; [assumption|]. apply IH in H. rewrite (aget_adel g) in H.
        destruct (y =? q); [discriminate|assumption]. }
      intros [W L S C B T]. constructor; auto; cbn [set_log v_log].
      - intros q pk H. apply L. eapply G. exact H.
      - intros K q n H. apply S; auto. eapply G. exact H.
    Qed.
    Lemma inv_sess : forall x s key n, Inv x es s -> n < 2 ^ 32 ->
      (calm es -> key < 2 ^ 32 \/ exists z, (- 2 ^ 31 <= z < 0)%Z /\ key = sess_key z /\ presented es n z) ->
      Inv x es (set_log s (aput (v_log s) key (LSess n))).
    Proof.
      intros x s key n [W L S C B T] Hn H. constructor; auto; cbn [set_log v_log].
      - intros q pk. rewrite aget_aput. destruct (q =? key); [discriminate|]. apply L.
      - intros K q m. rewrite aget_aput. destruct (q =? key) eqn:F; [|now apply S]. intros [= <-].
        assert (q = key) by lia. subst. split; [assumption|now apply H].
    Qed.
    Lemma near_presented : forall c n z, calm es -> near es c n -> presented es c z -> presented es n z.
    Proof. intros c n z [_ U] [->|(y & H & G)] P; [assumption|]. now rewrite (U _ _ _ P H). Qed.
    Lemma calm_plain : forall ev, calm es -> In ev es -> plain_event ev.
    Proof. intros ev [F _] H. eapply Forall_forall; eassumption. Qed.
    Lemma inv_connect : forall c s who ins clean key s', Inv None es s -> In (EPacket c (QConnect who ins clean key)) es ->
      (forall k, aget (v_conns s) c = Some k -> k_open k = true) ->
      on_connect_msg E s c who ins clean key = Some s' -> Inv None es s'.
    Proof.
      intros c s who ins clean key s' H Hin Hop F. destruct who as [|id ch|id]; [discriminate| |].
      - destruct (aget (v_conns s) c) as [k|] eqn:Hk.
        2:{ unfold on_connect_msg in F. unfold put_out in F. rewrite !on_on in F. unfold on_conn in F. rewrite Hk, Hk in F. now injection F as <-. }
        pose proof (connect_inv _ _ _ _ _ _ _ _ _ F _ Hk) as G. clear F. cbv zeta in G.
        unfold put_out in G. rewrite !on_on in G.
        destruct (i_wf _ _ _ _ H _ _ Hk) as [Hc Hs].
        assert (Acc : accepted es c id ins) by (exists ch, clean, key; exact Hin).
        assert (Pre : presented es c (session_key id key)) by (exists id, ch, ins, clean, key; auto).
        pose proof (i_conn _ _ _ _ H _ _ Hk) as K.
        destruct (m_hung (k_ids k)) eqn:Hh.
        + subst s'. apply inv_on; [assumption|]. intros k0 Hk0 _. rewrite Hk in Hk0. injection Hk0 as <-.
          split; [|destruct (k_open _); exact Hs].
          assert (Hb : k_batch k <> None) by (now apply (k_hung _ _ _ _ _ K)).
          pose proof (Hop _ eq_refl) as Ho.
          destruct K. cbn. rewrite Ho. constructor; cbn; auto; try discriminate.
          * intros i [= <-]. eauto.
          * intros q Hq. apply in_app_or in Hq. destruct Hq as [Hq|[[=]|[]]]. now apply k_sent0.
        + destruct G as (s4 & G4 & Gc & Gt & Gs & Gl).
          set (f := fun k => set_batch _ _) in G4.
          assert (H2 : Inv None es (on_conn s c f)).
          { apply inv_on; [assumption|]. intros k0 Hk0 _. rewrite Hk in Hk0. injection Hk0 as <-.
            pose proof (Hop _ eq_refl) as Ho. unfold f. cbn. rewrite Ho.
            split; [|exact Hs]. destruct K. constructor; cbn; auto; try discriminate.
            - intros i [= <-]. eauto.
            - intros _ i [= <-] _ _. exact Acc.
            - intros l [= <-]. constructor.
            - intros q Hq. apply in_app_or in Hq. destruct Hq as [Hq|[[=]|[]]]. now apply k_sent0. }
          assert (Hb2 : forall k0, aget (v_conns (on_conn s c f)) c = Some k0 -> k_batch k0 <> None).
          { intros k0. rewrite get_on, N.eqb_refl, Hk. cbn [option_map]. intros [= <-]. discriminate. }
          assert (H4 : Inv None es s4).
          { destruct (sess_get E (v_log s) (sess_key (session_key id key))) as [[old|]|] eqn:Hg; [|contradiction|now subst].
            pose proof (sess_get_lt _ _ _ _ Hg) as Ho. subst s4.
            assert (H3 : Inv None es (if clean then set_log (on_conn s c f) (log_reset E (v_log (on_conn s c f)) old) else resume E (on_conn s c f) c old)).
            { destruct clean; [now apply inv_reset|now apply inv_resume]. }
            apply inv_on; [exact H3|]. intros k0 Hk0 K0. split; [|exact Ho]. destruct K0. constructor; auto. cbn.
            intro C. pose proof (calm_plain _ C Hin) as [Hneg He].
            unfold sess_get in Hg. destruct (aget (v_log s) (sess_key (session_key id key))) as [[pk|n]|] eqn:Hl; [| |discriminate].
            - destruct (i_log _ _ _ _ H _ _ Hl) as (b & i & Hbb & Hkey & Hi & _). specialize (Hi C).
              exfalso. pose proof (session_key_range id key).
              rewrite sess_key_neg in Hkey by lia. rewrite log_key_eq in Hkey. pose proof (u32_lt b).
              change (2 ^ 16) with 65536 in *. change (2 ^ 31)%Z with 2147483648%Z in *. change (2 ^ 32) with 4294967296 in *.
              change (2 ^ 64) with 18446744073709551616 in *. nia.
            - injection Hg as <-. destruct (i_sess _ _ _ _ H C _ _ Hl) as [Hn [Hlow|(z & Hz & Hzk & Hp)]].
              + exfalso. pose proof (session_key_range id key). rewrite sess_key_neg in Hlow by lia.
                change (2 ^ 31)%Z with 2147483648%Z in *. change (2 ^ 32) with 4294967296 in *.
                change (2 ^ 64) with 18446744073709551616 in *. lia.
              + pose proof (session_key_range id key). rewrite !sess_key_neg in Hzk by lia.
                assert (z = session_key id key).
                { change (2 ^ 31)%Z with 2147483648%Z in *. change (2 ^ 64) with 18446744073709551616 in *. lia. }
                subst z. rewrite u32_small by assumption. right. eauto. }
          assert (Own : calm es -> presented es (k_sess k) (session_key id key)).
          { intro C. eapply near_presented; [exact C| |exact Pre]. now apply (k_own _ _ _ _ _ K). }
          set (s5 := set_log s4 (aput (v_log s4) (sess_key (session_key id key)) (LSess (k_sess k)))).
          assert (H5 : Inv None es s5).
          { apply inv_sess; [assumption|assumption|]. intro C. right. exists (session_key id key).
            pose proof (calm_plain _ C Hin) as [Hneg _]. pose proof (session_key_range id key). split; [lia|]. split; [reflexivity|now apply Own]. }
          set (s6 := if (session_key id key =? epoch32 id)%Z then s5 else set_log s5 (aput (v_log s5) (u32 (id_epoch id)) (LSess (k_sess k)))).
          assert (H6 : Inv None es s6).
          { unfold s6. destruct (session_key id key =? epoch32 id)%Z; [assumption|]. apply inv_sess; [assumption|assumption|].
            intro C. left. apply u32_lt. }
          assert (X : forall q, aget (v_log s') q = aget (v_log s6) q).
          { intro q. rewrite Gl. unfold s6, s5. destruct (session_key id key =? epoch32 id)%Z; cbn [set_log v_log]; rewrite !aget_aput;
              destruct (q =? sess_key (session_key id key)); try reflexivity; now destruct (q =? u32 (id_epoch id)). }
          assert (Y : v_conns s' = v_conns s6 /\ v_tasks s' = v_tasks s6 /\ v_subs s' = v_subs s6).
          { rewrite Gc, Gt, Gs. unfold s6, s5. now destruct (session_key id key =? epoch32 id)%Z. }
          destruct Y as (Y1 & Y2 & Y3). destruct H6 as [W L S C B T]. constructor.
          * eapply wf_conns; [exact Y1|exact W].
          * intros q pk. rewrite X. apply L.
          * intros Cm q n. rewrite X. now apply S.
          * rewrite Y1. exact C.
          * rewrite Y3. exact B.
          * rewrite Y2. exact T.
      - cbn in F. destruct (say _ c (mkPM tClientid id)) as [s1|] eqn:Fs; [|discriminate].
        assert (H1 : Inv (Some c) es s1).
        { eapply inv_say; [| |exact Fs]; [|eexists; reflexivity]. apply inv_put_out; [|exact I].
          apply inv_on; [now apply inv_hold|]. intros k Hk K. split; [|apply (i_wf _ _ _ _ H _ _ Hk)].
          destruct K. constructor; auto. intros []. reflexivity. }
        destruct (is_stuck s1 c) eqn:St.
        + injection F as <-. apply (inv_free es c); [assumption|]. intros k Hk _ Hst. unfold is_stuck in St. rewrite Hk in St. congruence.
        + apply (inv_free es c); [eapply inv_close; eassumption|]. intros k Hk Ho.
          exfalso. unfold close_conn in F. destruct (aget (v_conns s1) c) as [k1|] eqn:Hk1; [|injection F as <-; congruence].
          destruct (k_open k1) eqn:Ho1; cbn in F; [|injection F as <-; congruence].
          destruct (k_subs k1); [|destruct (k_client k1); [|discriminate]]; injection F as <-; rewrite get_set, N.eqb_refl in Hk;
            injection Hk as <-; discriminate.
    Qed.
    Lemma inv_flow : forall c s ty flow i s', Inv None es s -> In (EPacket c (QFlow ty flow i)) es ->
      on_flow E s c ty flow i = Some s' -> Inv None es s'.
    Proof.
      intros c s ty flow i s' H Hin F. unfold on_flow in F.
      destruct (aget (v_conns s) c) as [k|] eqn:Hk; [|now injection F as <-].
      destruct (i_wf _ _ _ _ H _ _ Hk) as [Hc Hs].
      set (s1 := if match k_client k with Some _ => true | None => false end then _ else s) in *.
      assert (H1 : Inv None es s1).
      { unfold s1. destruct (k_client k); [|assumption]. cbn [persist_in]. destruct (flow =? fRECEIPT) eqn:Frc; [|assumption].
        destruct H as [W L S C B T]. constructor; auto; cbn [set_log v_log].
        - intros q pk. rewrite aget_aput. destruct (q =? log_key i (k_sess k)) eqn:Fq; [|apply L].
          intros [= <-]. exists (k_sess k), i. split; [assumption|]. split; [lia|]. split; [|now apply N.eqb_eq].
          intro Cm. exact (calm_plain _ Cm Hin).
        - intros Cm q n. rewrite aget_aput. destruct (q =? log_key i (k_sess k)); [discriminate|]. now apply S. }
      destruct (flow =? fRECEIVE) eqn:Fr.
      - destruct (log_get E (v_log s1) _) as [[q|]|] eqn:Fg.
        + injection F as <-. apply inv_put_out; [assumption|].
          unfold log_get in Fg. destruct (aget (v_log s1) (log_key i (k_sess k))) as [[pk|n]|] eqn:Hl; [| |discriminate].
          * injection Fg as ->. destruct (i_log _ _ _ _ H1 _ _ Hl) as (b & j & Hb & Hkey & _ & -> & _ & c' & Hco & Hn).
            apply log_key_inj in Hkey; [|assumption|assumption]. destruct Hkey as [-> <-]. right. split.
            -- exists ty. assert (flow = fRECEIVE) by (now apply N.eqb_eq). now subst flow.
            -- exists c'. split; [assumption|]. intro C. specialize (Hn C).
               pose proof (k_own _ _ _ _ _ (i_conn _ _ _ _ H _ _ Hk) C) as Ho.
               destruct Ho as [->|(z & P1 & P2)]; [assumption|]. right. exists z. split; [|assumption].
               destruct Hn as [->|(y & P3 & P4)]; [assumption|]. destruct C as [_ U]. now rewrite (U _ _ _ P2 P4).
          * apply HE in Fg. left. destruct Fg as [_ ->]. constructor.
        + now injection F as <-.
        + eapply inv_close; eassumption.
      - destruct (flow =? fRECEIPT); [|now injection F as <-]. injection F as <-. apply inv_put_out; [|exact I].
        destruct (k_client k); [|assumption]. now apply inv_del.
    Qed.
    Lemma inv_send_batch : forall s c, Inv None es s -> Inv None es (send_batch s c).
    Proof.
      intros s c H. unfold send_batch. destruct (aget (v_conns s) c) as [k|] eqn:Hk; [|assumption].
      destruct (k_batch k) as [[|m l]|] eqn:Hb; try assumption. destruct (k_open k); [|assumption].
      destruct (i_wf _ _ _ _ H _ _ Hk) as [Hc Hs]. pose proof (i_conn _ _ _ _ H _ _ Hk) as K.
      assert (Hm : Forall (good_msg E es c) (m :: l)) by (now apply (k_held _ _ _ _ _ K)).
      destruct (next_id _ c) as [s1 r] eqn:F.
      assert (H0 : Inv None es (set_conn s c (set_batch (Some []) k))).
      { apply inv_set_conn; auto. destruct K. constructor; cbn; auto; try (intros _; discriminate). intros l0 [= <-]. constructor. }
      destruct (inv_next _ _ _ _ _ _ _ H0 F) as [H1 H2]. destruct r as [i|]; [|assumption].
      destruct (H2 i eq_refl) as [Hi _]. apply inv_put_out.
      - apply inv_persist; auto; [discriminate|]. exists c. split; [now left|]. intro. now left.
      - now left.
    Qed.
    Lemma inv_run_task : forall s t s1 r, Inv None es s -> task_ok E es t -> run_task E s t = Some (s1, r) ->
      Inv None es s1 /\ match r with Some t' => task_ok E es t' | None => True end.
    Proof.
      intros s t s1 r H Ht F. destruct t as [c p t pl|c p m i [|n todo]|c p m i n todo]; cbn [run_task] in F.
      - destruct (aget (v_conns s) c) as [k|] eqn:Hk; [|injection F as <- <-; auto].
        destruct (k_client k) as [id|] eqn:Hid; [|discriminate]. injection F as <- <-. split; [assumption|].
        destruct Ht as (m & Hp & ->). cbn [task_ok].
        assert (Hin : In (EPacket c (QPub p)) es) by (now destruct Hp as (? & ? & _ & ? & _)).
        split; [intro C; exact (calm_plain _ C Hin)|]. exists m, t. split; [reflexivity|]. split; [assumption|].
        apply Forall_forall. intros n Hn. apply filter_In in Hn. destruct Hn as [Hn Hm]. apply andb_prop in Hm. destruct Hm as [Hm1 Hm2].
        destruct (k_was _ _ _ _ _ (i_conn _ _ _ _ H _ _ Hk) _ Hid) as [ins Hacc].
        exists c, id, ins, (s_topic n). split; [assumption|]. split; [assumption|]. split; [|assumption].
        assert (id_contract id = s_contract n) by lia. rewrite H0. now apply (i_subs _ _ _ _ H).
      - injection F as <- <-. auto.
      - cbn [task_ok] in Ht. destruct Ht as (Hi & m0 & t & Hm & Hin & Hf).
        assert (Skip : task_ok E es (TLoop c p m i todo)).
        { cbn. split; [assumption|]. exists m0, t. inversion Hf. auto. }
        destruct (aget (v_conns s) (s_conn n)) as [k|]; [destruct (k_open k)|]; try (injection F as <- <-; auto).
        destruct (i =? 0).
        + destruct (next_id s c) as [s2 x] eqn:Fn. destruct (inv_next _ _ _ _ _ _ _ H Fn) as [H2 Hb].
          destruct x as [j|]; injection F as <- <-; (split; [assumption|]); [|exact I]. cbn. split; [intro; now apply (Hb j)|].
          exists m0, t. auto.
        + injection F as <- <-. split; [assumption|]. cbn. split; [assumption|]. exists m0, t. auto.
      - cbn [task_ok] in Ht. destruct Ht as (Hi & m0 & t & Hm & Hin & Hf). inversion_clear Hf.
        assert (Skip : forall j, (calm es -> j < 2 ^ 16) -> task_ok E es (TLoop c p m j todo)).
        { intros j Hj. cbn. split; [assumption|]. exists m0, t. auto. }
        destruct (aget (v_conns s) (s_conn n)) as [k|] eqn:Hk; [|injection F as <- <-; auto].
        destruct (i_wf _ _ _ _ H _ _ Hk) as [Hc Hs].
        assert (X : forall s1 r, match send_message s (s_conn n) i (s_mode n) (s_delay n) m with
              | Some (s1, Some i) => Some (s1, Some (TLoop c p m i todo)) | Some (s1, None) => Some (s1, None)
              | None => None end = Some (s1, r) -> Inv None es s1 /\ match r with Some t' => task_ok E es t' | None => True end).
        { intros s2 r2. destruct (send_message s (s_conn n) i (s_mode n) (s_delay n) m) as [[s3 y]|] eqn:Fs; [|discriminate]. intro G.
          destruct (inv_send E None es s (s_conn n) i (s_mode n) (s_delay n) m s3 y H) as [H3 Hj]; auto.
          - right. right. exists p, m0, t. auto.
          - eauto.
          - destruct y as [j|]; injection G as <- <-; (split; [assumption|]); [|exact I]. apply Skip. intro C. now apply (Hj C). }
        destruct (reliable (p_mode p)).
        + destruct (reliable (s_mode n)).
          * destruct (k_open k); [|discriminate]. injection F as <- <-. split; [|auto].
            apply inv_put_out; [|exact I]. apply inv_persist; auto.
            -- intro C. exact (calm_plain _ C Hin).
            -- match goal with Hfc : for_conn _ _ _ p _ _ |- _ => destruct Hfc as (? & ? & ? & ? & (? & ? & _ & _ & Hmm & _) & _) end.
               intro Em. rewrite Em in Hmm. destruct Hmm.
            -- exists (s_conn n). split; [right; eauto|]. intro C. now apply (k_own _ _ _ _ _ (i_conn _ _ _ _ H _ _ Hk)).
          * destruct (s_mode n =? 0); [now apply X|]. injection F as <- <-. auto.
        + destruct (p_mode p =? 0); [now apply X|]. injection F as <- <-. auto.
    Qed.
    Lemma inv_step : forall s ev s', Inv None es s -> In ev es -> step E s ev = Some s' -> Inv None es s'.
    Proof.
      intros s ev s' H Hin F. destruct ev as [|c q|i|c|c|n]; cbn [step] in F.
      - injection F as <-. destruct H as [W L S C B T].
        assert (W' : wf (set_conn s (u32 (v_next s + 1)) (conn_new (u32 (v_next s + 1))))).
        { intros q k. rewrite get_set. destruct (q =? u32 (v_next s + 1)) eqn:F; [|apply W].
          intros [= <-]. assert (q = u32 (v_next s + 1)) by lia. subst. cbn [conn_new k_sess]. split; apply u32_lt. }
        constructor; auto. cbn [v_conns]. intros q k. rewrite aget_aput. destruct (q =? u32 (v_next s + 1)) eqn:F; [|apply C].
        intros [= <-]. assert (q = u32 (v_next s + 1)) by lia. subst. constructor; cbn [conn_new k_client k_batch k_ids k_subs k_out k_sess m_resume m_hung mids_new]; try discriminate; try easy.
        intro. now left.
      - destruct (aget (v_conns s) c) as [k|] eqn:Hk; [|now injection F as <-].
        destruct (k_open k) eqn:Ho; [|now injection F as <-]. destruct (k_stuck k) eqn:Hst; [now injection F as <-|]. cbn [andb negb] in F.
        assert (Bu : busy es s c).
        { intros k0 Hk0. rewrite Hk in Hk0. injection Hk0 as <-. split; [assumption|]. intros _ id Hid.
          apply (k_now _ _ _ _ _ (i_conn _ _ _ _ H _ _ Hk)); auto. discriminate. }
        assert (Simple : simple_request q -> Inv None es s').
        { intro Q. eapply (inv_moves E None es c q s s'); [now apply handle_moves|exact Hin|exact Bu|exact H]. }
        destruct q as [who ins clean ky|l i|l i|x|l i| |ty flow i]; try (now apply Simple).
        + eapply inv_connect; [exact H|exact Hin| |exact F]. intros k0 Hk0. congruence.
        + eapply inv_flow; [exact H|exact Hin|exact F].
      - destruct (nth_error (v_tasks s) i) as [t|] eqn:Ht; [|now injection F as <-].
        destruct (run_task E s t) as [[s1 r]|] eqn:Fr; [|discriminate]. injection F as <-.
        assert (Tt : task_ok E es t) by (eapply Forall_forall; [apply (i_tasks _ _ _ _ H)|eapply nth_error_In; exact Ht]).
        destruct (inv_run_task _ _ _ _ H Tt Fr) as [H1 Tr]. apply inv_tasks; [assumption|].
        apply Forall_replace; [apply (i_tasks _ _ _ _ H)|assumption].
      - injection F as <-. now apply inv_send_batch.
      - eapply inv_close; eassumption.
      - injection F as <-. destruct H as [W L S C B T]. constructor; auto.
        + intros c k [=].
        + cbn. discriminate.
        + constructor.
    Qed.
  End FIX.
  Lemma inv_new : forall n, Inv None [] (server_new n).
  Proof.
    intro n. constructor; try (cbn; discriminate); try (intros; contradiction).
    - constructor.
  Qed.
  Lemma inv_run : forall es es0 s s', Inv None es0 s -> run E s es = Some s' -> Inv None (es0 ++ es) s'.
  Proof.
    induction es as [|ev es IH]; intros es0 s s' H F; cbn [run] in F.
    - injection F as <-. now rewrite app_nil_r.
    - destruct (step E s ev) as [s1|] eqn:Fs; [|discriminate].
      replace (es0 ++ ev :: es) with ((es0 ++ [ev]) ++ es) by (now rewrite <- app_assoc).
      eapply IH; [|exact F]. eapply (inv_step (es0 ++ [ev]) s ev); [| |exact Fs].
      + eapply Inv_mono; [|exact H]. intros y Hy. apply in_or_app. now left.
      + apply in_or_app. right. now left.
  Qed.
  Lemma inv_reached : forall n es s, run E (server_new n) es = Some s -> Inv None es s.
  Proof. intros n es s H. apply (inv_run es [] (server_new n) s); [apply inv_new|exact H]. Qed.

  (** ** C81, C85 *)
  Lemma origin : forall n es s c q, run E (server_new n) es = Some s -> In (KPub q) (out s c) -> good_pub E es c q.
  Proof.
    intros n es s c q H Hq. pose proof (inv_reached _ _ _ H) as I0. unfold out in Hq.
    destruct (aget (v_conns s) c) as [k|] eqn:Hk; [|contradiction].
    destruct (k_sent _ _ _ _ _ (i_conn _ _ _ _ I0 _ _ Hk) _ Hq) as [G|(A & c' & G & _)]; [now left|right]. eauto.
  Qed.
  Lemma own_session : forall n es s c q, calm es -> run E (server_new n) es = Some s -> In (KPub q) (out s c) -> own_pub E es c q.
  Proof.
    intros n es s c q C H Hq. pose proof (inv_reached _ _ _ H) as I0. unfold out in Hq.
    destruct (aget (v_conns s) c) as [k|] eqn:Hk; [|contradiction].
    destruct (k_sent _ _ _ _ _ (i_conn _ _ _ _ I0 _ _ Hk) _ Hq) as [G|(A & c' & G & N)]; [now left|right]. eauto.
  Qed.
End STEP.
