(** Steps of a server that change neither the identifiers of connections nor
    the numbers to come. *)
From Coq Require Import Lia ZifyBool ZifyNat ZifyN.
From Verif Require Import M_Bytes M_Keys M_MsgIds M_Conn S_Conn P_Conn P_Pending.
From Verif Require M_Subs.
Open Scope N_scope.

Record kc (s s' : server) : Prop := {
  kc_c : forall c k', aget (v_conns s') c = Some k' -> exists k, aget (v_conns s) c = Some k /\ k_client k' = k_client k;
  kc_n : v_next s' = v_next s }.
Lemma kc_refl : forall s, kc s s.
Proof. intros s. split; [intros c k H; eauto|reflexivity]. Qed.
Lemma kc_trans : forall a b c, kc a b -> kc b c -> kc a c.
Proof.
  intros a b c [H Hn] [G Gn]. split; [|congruence]. intros q k Hk. destruct (G _ _ Hk) as (k1 & H1 & E1). destruct (H _ _ H1) as (k2 & H2 & E2).
  exists k2. split; [assumption|congruence].
Qed.
Lemma kc_conns : forall s s', v_conns s' = v_conns s -> v_next s' = v_next s -> kc s s'.
Proof. intros s s' H Hn. split; [|assumption]. intros c k Hk. rewrite H in Hk. eauto. Qed.
Lemma on_next : forall s c f, v_next (on_conn s c f) = v_next s.
Proof. intros. unfold on_conn. now destruct (aget (v_conns s) c). Qed.
Lemma persist_next : forall s b pk, v_next (persist_out s b pk) = v_next s.
Proof. intros s b [p|ty f i]; cbn; [reflexivity|]. now destruct (f =? fCOMPLETE). Qed.
Lemma persist_in_next : forall s b pk, v_next (persist_in s b pk) = v_next s.
Proof. intros s b [p|ty f i]; cbn; [reflexivity|]. now destruct (f =? fRECEIPT). Qed.
Lemma kc_on : forall s c f, (forall k, k_client (f k) = k_client k) -> kc s (on_conn s c f).
Proof.
  intros s c f Hf. split; [|apply on_next]. intros q k. rewrite get_on. destruct (q =? c) eqn:F; [|eauto]. assert (q = c) by lia. subst.
  destruct (aget (v_conns s) c) as [k0|]; cbn; [|discriminate]. intro H. injection H as <-. exists k0. auto.
Qed.
Lemma kc_aput : forall s s' c k k', aget (v_conns s) c = Some k -> k_client k' = k_client k ->
  v_conns s' = aput (v_conns s) c k' -> v_next s' = v_next s -> kc s s'.
Proof.
  intros s s' c k k' Hk Hs He Hn. split; [|assumption]. intros q kq Hq. rewrite He, aget_aput in Hq. destruct (q =? c) eqn:F; [|eauto].
  assert (q = c) by lia. subst q. injection Hq as <-. eauto.
Qed.
Lemma kc_put_out : forall s c pk, kc s (put_out s c pk).
Proof. intros. apply kc_on. intro k. now destruct (k_open k). Qed.

Lemma kc_next : forall s c s1 r, next_id s c = (s1, r) -> kc s s1.
Proof.
  intros s c s1 r H. unfold next_id in H. destruct (aget (v_conns s) c) as [k|] eqn:Hk.
  - destruct (mids_step (k_ids k) (MNext tPUBLISH)) as [m x]. injection H as <- <-.
    eapply kc_aput; [exact Hk| |reflexivity|reflexivity]. reflexivity.
  - injection H as <- <-. apply kc_refl.
Qed.

Lemma kc_batch : forall s c m s1, batch_add s c m = Some s1 -> kc s s1.
Proof.
  intros s c m s1 H. unfold batch_add in H. destruct (aget (v_conns s) c) as [k|] eqn:Hk.
  - destruct (k_batch k); [|discriminate]. injection H as <-. eapply kc_aput; [exact Hk| |reflexivity|reflexivity]. reflexivity.
  - injection H as <-. apply kc_refl.
Qed.

Lemma kc_send : forall s c id mode delay m s1 r, send_message s c id mode delay m = Some (s1, r) -> kc s s1.
Proof.
  intros s c id mode delay m s1 r H. apply send_inv in H. destruct H as (s0 & H0 & H1).
  assert (K : kc s s0).
  { destruct (id =? 0); [eapply kc_next; exact H0|]. destruct H0 as [-> _]. apply kc_refl. }
  destruct r as [i|]; [|subst; exact K]. destruct H1 as [H1| ->].
  - eapply kc_trans; [exact K|]. eapply kc_batch; exact H1.
  - eapply kc_trans; [exact K|]. eapply kc_trans; [|apply kc_put_out]. apply kc_conns; [apply persist_conns|apply persist_next].
Qed.

Lemma kc_moves : forall E c q s s', moves E c q s s' -> kc s s'.
Proof.
  induction 1.
  - apply kc_refl.
  - eapply kc_trans; eassumption.
  - eapply kc_send; eassumption.
  - apply kc_put_out.
  - now apply kc_on.
  - eapply kc_aput; [eassumption| |reflexivity|reflexivity]. reflexivity.
  - eapply kc_aput; [eassumption| |reflexivity|reflexivity]. reflexivity.
  - now apply kc_conns.
Qed.

Lemma kc_close : forall s c s1, close_conn s c = Some s1 -> kc s s1.
Proof.
  intros s c s1 H. unfold close_conn in H. destruct (aget (v_conns s) c) as [k|] eqn:Hk; [|injection H as <-; apply kc_refl].
  destruct (negb (k_open k)); [injection H as <-; apply kc_refl|].
  destruct (k_subs k); [|destruct (k_client k); [|discriminate]]; injection H as <-;
    (eapply kc_aput; [exact Hk| |reflexivity|reflexivity]; reflexivity).
Qed.

Lemma kc_say : forall s c m s1, say s c m = Some s1 -> kc s s1.
Proof.
  intros s c m s1 H. unfold say in H. destruct (send_message s c 0 0 0 m) as [[s2 [i|]]|] eqn:F; [| |discriminate]; injection H as <-.
  - eapply kc_send; exact F.
  - eapply kc_trans; [eapply kc_send; exact F|]. now apply kc_on.
Qed.

Lemma kc_resume_key : forall E c s key, kc s (resume_key E c s key).
Proof.
  intros. unfold resume_key. destruct (log_get E (v_log s) key) as [[p|ty f i]|]; [| |apply kc_refl];
    destruct (N.testbit key 4); try (now apply kc_conns).
  eapply kc_trans; [|apply kc_put_out]. now apply kc_on.
Qed.

Lemma kc_resume : forall E s c b, kc s (resume E s c b).
Proof.
  intros. unfold resume. generalize (log_keys E (v_log s) b). intro l. revert s.
  induction l as [|x l IH]; intro s; cbn; [apply kc_refl|]. eapply kc_trans; [apply kc_resume_key|apply IH].
Qed.

Lemma kc_flow : forall E s c ty flow id s', on_flow E s c ty flow id = Some s' -> kc s s'.
Proof.
  intros E s c ty flow id s' H. unfold on_flow in H.
  destruct (aget (v_conns s) c) as [k|] eqn:Hk; [|injection H as <-; apply kc_refl].
  set (s1 := if match k_client k with Some _ => true | None => false end then _ else s) in *.
  assert (K : kc s s1) by (unfold s1; destruct (k_client k); [apply kc_conns; [apply persist_in_conns|apply persist_in_next]|apply kc_refl]).
  destruct (flow =? fRECEIVE).
  - destruct (log_get E (v_log s1) _) as [[p|]|].
    + injection H as <-. eapply kc_trans; [exact K|apply kc_put_out].
    + injection H as <-. exact K.
    + eapply kc_trans; [exact K|eapply kc_close; exact H].
  - destruct (flow =? fRECEIPT); [|injection H as <-; exact K]. injection H as <-.
    eapply kc_trans; [|apply kc_put_out]. eapply kc_trans; [exact K|]. apply kc_conns; destruct (k_client k); reflexivity.
Qed.

Lemma kc_run_task : forall E s t s1 r, run_task E s t = Some (s1, r) -> kc s s1.
Proof.
  intros E s t s1 r H. destruct t as [c p t pl|c p m id [|n todo]|c p m id n todo]; cbn in H.
  - destruct (aget (v_conns s) c) as [k|]; [destruct (k_client k); [|discriminate]|]; injection H as <- <-; apply kc_refl.
  - injection H as <- <-. apply kc_refl.
  - destruct (aget (v_conns s) (s_conn n)) as [k|]; [destruct (k_open k)|]; try (injection H as <- <-; apply kc_refl).
    destruct (id =? 0).
    + destruct (next_id s c) as [s2 [i|]] eqn:F; injection H as <- <-; eapply kc_next; exact F.
    + injection H as <- <-. apply kc_refl.
  - destruct (aget (v_conns s) (s_conn n)) as [k|] eqn:Hk; [|injection H as <- <-; apply kc_refl].
    assert (X : forall s1 r, match send_message s (s_conn n) id (s_mode n) (s_delay n) m with
              | Some (s1, Some i) => Some (s1, Some (TLoop c p m i todo)) | Some (s1, None) => Some (s1, None)
              | None => None end = Some (s1, r) -> kc s s1).
    { intros s2 r2. destruct (send_message _ _ _ _ _ _) as [[s3 [i|]]|] eqn:F; intro G; [| |discriminate];
        injection G as <- <-; eapply kc_send; exact F. }
    destruct (reliable (p_mode p)).
    + destruct (reliable (s_mode n)).
      * destruct (k_open k); [|discriminate]. injection H as <- <-.
        eapply kc_trans; [|apply kc_put_out]. now apply kc_conns.
      * destruct (s_mode n =? 0); [eapply X; exact H|]. injection H as <- <-. apply kc_refl.
    + destruct (p_mode p =? 0); [eapply X; exact H|]. injection H as <- <-. apply kc_refl.
Qed.

Lemma kc_send_batch : forall s c, kc s (send_batch s c).
Proof.
  intros. unfold send_batch. destruct (aget (v_conns s) c) as [k|] eqn:Hk; [|apply kc_refl].
  destruct (k_batch k) as [[|m l]|]; try apply kc_refl. destruct (k_open k); [|apply kc_refl].
  destruct (next_id _ c) as [s1 r] eqn:F.
  assert (K : kc s s1).
  { eapply kc_trans; [|eapply kc_next; exact F]. eapply kc_aput; [exact Hk| |reflexivity|reflexivity]. reflexivity. }
  destruct r; [|exact K]. eapply kc_trans; [exact K|]. eapply kc_trans; [|apply kc_put_out]. apply kc_conns; [apply persist_conns|apply persist_next].
Qed.

Lemma kc_connect : forall E s c who ins clean key s', on_connect_msg E s c who ins clean key = Some s' ->
  v_next s' = v_next s /\ forall q k', aget (v_conns s') q = Some k' -> exists k, aget (v_conns s) q = Some k /\
    (k_client k' = k_client k \/ q = c /\ exists id ch, who = CAccepted id ch /\ k_client k' = Some id).
Proof.
  intros E s c who ins clean key s' H.
  assert (W0 : kc s (put_out (on_conn s c (set_insecure ins)) c (KCtl tCONNECT fACK 0))).
  { eapply kc_trans; [|apply kc_put_out]. now apply kc_on. }
  assert (Old : kc s s' -> v_next s' = v_next s /\ forall q k', aget (v_conns s') q = Some k' -> exists k, aget (v_conns s) q = Some k /\
    (k_client k' = k_client k \/ q = c /\ exists id ch, who = CAccepted id ch /\ k_client k' = Some id)).
  { intros [A B]. split; [assumption|]. intros q k' Hk. destruct (A _ _ Hk) as (k & X & Y). eauto. }
  destruct who as [|id ch|id].
  - discriminate.
  - set (sA := put_out (on_conn s c (set_insecure ins)) c (KCtl tCONNECT fACK 0)) in *.
    set (s1 := on_conn sA c (set_client id)).
    assert (N1 : v_next s1 = v_next s) by (unfold s1; rewrite on_next; apply W0).
    assert (C1 : forall q k', aget (v_conns s1) q = Some k' -> exists k, aget (v_conns s) q = Some k /\
       (k_client k' = k_client k \/ q = c /\ exists i h, CAccepted id ch = CAccepted i h /\ k_client k' = Some i)).
    { intros q k'. unfold s1. rewrite get_on. destruct (q =? c) eqn:F.
      - assert (q = c) by lia. subst q. destruct (aget (v_conns sA) c) as [k0|] eqn:H0; cbn; [|discriminate]. intro X. injection X as <-.
        destruct (kc_c _ _ W0 _ _ H0) as (k & Hk & _). exists k. split; [assumption|]. right. split; [reflexivity|]. exists id, ch. auto.
      - intro X. destruct (kc_c _ _ W0 _ _ X) as (k & Hk & Y). eauto. }
    assert (Then : kc s1 s' -> v_next s' = v_next s /\ forall q k', aget (v_conns s') q = Some k' -> exists k, aget (v_conns s) q = Some k /\
       (k_client k' = k_client k \/ q = c /\ exists i h, CAccepted id ch = CAccepted i h /\ k_client k' = Some i)).
    { intros [A B]. split; [congruence|]. intros q k' Hk. destruct (A _ _ Hk) as (k1 & X & Y). destruct (C1 _ _ X) as (k & X' & Y').
      exists k. split; [assumption|]. rewrite Y. exact Y'. }
    apply Then. unfold on_connect_msg in H. fold sA in H. fold s1 in H.
    destruct (aget (v_conns s1) c) as [k1|]; [|injection H as <-; apply kc_refl].
    destruct (m_hung (k_ids k1)); [injection H as <-; now apply kc_on|].
    set (s2 := on_conn s1 c _) in *. assert (K2 : kc s1 s2) by now apply kc_on.
    match type of H with match ?x with _ => _ end = _ => destruct x as [s4|] eqn:F; [|discriminate] end.
    assert (K4 : kc s1 s4).
    { destruct (sess_get E (v_log s2) (sess_key (session_key id key))) as [[old|]|]; [|discriminate|].
      - injection F as <-. eapply kc_trans; [|now apply kc_on]. destruct clean.
        + eapply kc_trans; [exact K2|]. now apply kc_conns.
        + eapply kc_trans; [exact K2|]. apply kc_resume.
      - now injection F as <-. }
    injection H as <-. eapply kc_trans; [exact K4|]. destruct (_ =? _)%Z; now apply kc_conns.
  - apply Old. cbn in H. destruct (say _ c (mkPM tClientid id)) as [s1|] eqn:F; [|discriminate].
    assert (W1 : kc s s1) by (eapply kc_trans; [exact W0|eapply kc_say; exact F]).
    destruct (is_stuck s1 c); [now injection H as <-|]. eapply kc_trans; [exact W1|eapply kc_close; exact H].
Qed.
(** What is stored for a connection comes under the contract of its identifier. *)
Lemma moves_subs : forall E c q s s', moves E c q s s' -> forall x, In x (v_subs s') -> In x (v_subs s) \/
  s_conn x = c /\ exists k id, aget (v_conns s) c = Some k /\ k_client k = Some id /\ s_contract x = id_contract id.
Proof.
  induction 1; intros y Hy; auto.
  - destruct (IHmoves2 _ Hy) as [Hy'|(Hc & k & id & Hk & Hcl & Hcon)]; [now apply IHmoves1|].
    right. split; [assumption|]. destruct (kc_c _ _ (kc_moves _ _ _ _ _ H) _ _ Hk) as (k0 & Hk0 & E0).
    exists k0, id. split; [assumption|]. split; [congruence|assumption].
  - left. apply send_inv in H. destruct H as (s0 & G0 & G1). cbn in G0.
    assert (X : v_subs s0 = v_subs s).
    { unfold next_id in G0. destruct (aget (v_conns s) c) as [k|]; [destruct (mids_step _ _)|]; now injection G0 as <- _. }
    rewrite <- X. destruct r; [|now subst]. destruct G1 as [G1| ->].
    + unfold batch_add in G1. destruct (aget (v_conns s0) c) as [k|]; [destruct (k_batch k); [|discriminate]|];
        now injection G1 as <-.
    + unfold put_out in Hy. now rewrite on_vsubs, persist_vsubs in Hy.
  - left. unfold put_out in Hy. now rewrite on_vsubs in Hy.
  - left. now rewrite on_vsubs in Hy.
  - destruct Hy as [<-|Hy]; [|now left]. right. destruct H0 as (Hc & l & i & text & mode & delay & t & id & _ & _ & Hcl & Hcon & _).
    split; [assumption|]. exists k, id. auto.
Qed.
