(** C86 for all interleavings. *)
From Coq Require Import Lia ZifyBool ZifyNat ZifyN.
From Verif Require Import M_Bytes M_Keys M_MsgIds M_Conn S_Conn P_Conn P_Pending P_Forget S_Deliver.
From Verif Require M_Subs.
Open Scope N_scope.

Section KEEP.
  Variable E : env.
  (** [b]: the connection also keeps what it was sent or holds. *)
  Definition more (k k' : conn) : Prop :=
    (exists o, k_out k' = k_out k ++ o) /\ forall l m, k_batch k = Some l -> In m l -> held k' m.
  Definition kp (b : bool) (d : N) (s s' : server) : Prop :=
    forall k, aget (v_conns s) d = Some k -> exists k', aget (v_conns s') d = Some k' /\ (b = true -> more k k').
  Variables (b : bool) (d : N).
  Lemma more_refl : forall k, more k k.
  Proof. intro k. split; [exists []; now rewrite app_nil_r|]. intros l m H I. left. eauto. Qed.
  Lemma more_held : forall k k' m, more k k' -> held k m -> held k' m.
  Proof.
    intros k k' m [(o & X) B] [(l & Hl & I)|(q & Hq & I)]; [eauto|]. right. exists q. split; [|assumption].
    rewrite X. apply in_or_app. now left.
  Qed.
  Lemma more_trans : forall a c e, more a c -> more c e -> more a e.
  Proof.
    intros a c e M N. split.
    - destruct M as [(o & X) _], N as [(o' & Y) _]. exists (o ++ o'). now rewrite Y, X, app_assoc.
    - intros l m H I. eapply more_held; [exact N|]. now apply (proj2 M l).
  Qed.
  Lemma kp_refl : forall s, kp b d s s.
  Proof. intros s k H. exists k. split; [assumption|]. intros _. apply more_refl. Qed.
  Lemma kp_trans : forall s1 s2 s3, kp b d s1 s2 -> kp b d s2 s3 -> kp b d s1 s3.
  Proof.
    intros s1 s2 s3 A B k Hk. destruct (A _ Hk) as (k1 & H1 & M1). destruct (B _ H1) as (k2 & H2 & M2).
    exists k2. split; [assumption|]. intro Hb. eapply more_trans; eauto.
  Qed.
  Lemma kp_conns : forall s s', v_conns s' = v_conns s -> kp b d s s'.
  Proof. intros s s' H k Hk. exists k. rewrite H. split; [assumption|]. intros _. apply more_refl. Qed.
  Lemma kp_on : forall s c f, (b = true -> c = d -> forall k, more k (f k)) -> kp b d s (on_conn s c f).
  Proof.
    intros s c f Hf k Hk. rewrite get_on. destruct (d =? c) eqn:F.
    - assert (d = c) by lia. subst c. rewrite Hk. cbn. eexists. split; [reflexivity|]. intro Hb. now apply Hf.
    - exists k. split; [assumption|]. intros _. apply more_refl.
  Qed.
  Lemma kp_aput : forall s s' c k k', aget (v_conns s) c = Some k -> (b = true -> c = d -> more k k') ->
    v_conns s' = aput (v_conns s) c k' -> kp b d s s'.
  Proof.
    intros s s' c k k' Hk Hm He k0 H0. rewrite He, aget_aput. destruct (d =? c) eqn:F.
    - assert (d = c) by lia. subst c. rewrite Hk in H0. injection H0 as <-. eexists. split; [reflexivity|]. intro Hb. now apply Hm.
    - exists k0. split; [assumption|]. intros _. apply more_refl.
  Qed.
  Lemma more_same : forall k k', k_out k' = k_out k -> k_batch k' = k_batch k -> more k k'.
  Proof. intros k k' O B. split; [exists []; now rewrite app_nil_r|]. intros l m H I. left. exists l. rewrite B. auto. Qed.
  Lemma more_out : forall k pk, more k (add_out pk k).
  Proof. intros k pk. split; [eexists; reflexivity|]. intros l m H I. left. eauto. Qed.
  Lemma kp_put_out : forall s c pk, kp b d s (put_out s c pk).
  Proof. intros. apply kp_on. intros _ _ k. destruct (k_open k); [apply more_out|apply more_refl]. Qed.
  Lemma kp_next : forall s c s1 r, next_id s c = (s1, r) -> kp b d s s1.
  Proof.
    intros s c s1 r H. unfold next_id in H. destruct (aget (v_conns s) c) as [k|] eqn:Hk.
    - destruct (mids_step (k_ids k) (MNext tPUBLISH)) as [m x]. injection H as <- <-.
      eapply kp_aput; [exact Hk| |reflexivity]. intros _ _. now apply more_same.
    - injection H as <- <-. apply kp_refl.
  Qed.
  Lemma kp_batch : forall s c m s1, batch_add s c m = Some s1 -> kp b d s s1.
  Proof.
    intros s c m s1 H. unfold batch_add in H. destruct (aget (v_conns s) c) as [k|] eqn:Hk.
    - destruct (k_batch k) as [l|] eqn:Hl; [|discriminate]. injection H as <-. eapply kp_aput; [exact Hk| |reflexivity].
      intros _ _. split; [exists []; now rewrite app_nil_r|]. intros l0 m0 H0 I0. left. exists (l ++ [m]). split; [reflexivity|].
      apply in_or_app. left. congruence.
    - injection H as <-. apply kp_refl.
  Qed.
  Lemma kp_send : forall s c id mode delay m s1 r, send_message s c id mode delay m = Some (s1, r) -> kp b d s s1.
  Proof.
    intros s c id mode delay m s1 r H. apply send_inv in H. destruct H as (s0 & H0 & H1).
    assert (K : kp b d s s0).
    { destruct (id =? 0); [eapply kp_next; exact H0|]. destruct H0 as [-> _]. apply kp_refl. }
    destruct r as [i|]; [|subst; exact K]. destruct H1 as [H1| ->].
    - eapply kp_trans; [exact K|]. eapply kp_batch; exact H1.
    - eapply kp_trans; [exact K|]. eapply kp_trans; [|apply kp_put_out]. apply kp_conns, persist_conns.
  Qed.
  Lemma kp_moves : forall c q s s', moves E c q s s' -> kp b d s s'.
  Proof.
    induction 1.
    - apply kp_refl.
    - eapply kp_trans; eassumption.
    - eapply kp_send; eassumption.
    - apply kp_put_out.
    - apply kp_on. intros _ _ k. now apply more_same.
    - eapply kp_aput; [eassumption| |reflexivity]. intros _ _. now apply more_same.
    - eapply kp_aput; [eassumption| |reflexivity]. intros _ _. now apply more_same.
    - now apply kp_conns.
  Qed.
  Lemma kp_close : forall s c s1, close_conn s c = Some s1 -> kp b d s s1.
  Proof.
    intros s c s1 H. unfold close_conn in H. destruct (aget (v_conns s) c) as [k|] eqn:Hk; [|injection H as <-; apply kp_refl].
    destruct (negb (k_open k)); [injection H as <-; apply kp_refl|].
    destruct (k_subs k); [|destruct (k_client k); [|discriminate]]; injection H as <-;
      (eapply kp_aput; [exact Hk| |reflexivity]; intros _ _; now apply more_same).
  Qed.
  Lemma kp_say : forall s c m s1, say s c m = Some s1 -> kp b d s s1.
  Proof.
    intros s c m s1 H. unfold say in H. destruct (send_message s c 0 0 0 m) as [[s2 [i|]]|] eqn:F; [| |discriminate]; injection H as <-.
    - eapply kp_send; exact F.
    - eapply kp_trans; [eapply kp_send; exact F|]. apply kp_on. intros _ _ k. now apply more_same.
  Qed.
  Lemma kp_resume_key : forall c s key, kp b d s (resume_key E c s key).
  Proof.
    intros. unfold resume_key. destruct (log_get E (v_log s) key) as [[p|ty f i]|]; [| |apply kp_refl];
      destruct (N.testbit key 4); try (now apply kp_conns).
    eapply kp_trans; [|apply kp_put_out]. apply kp_on. intros _ _ k. now apply more_same.
  Qed.
  Lemma kp_resume : forall s c q, kp b d s (resume E s c q).
  Proof.
    intros. unfold resume. generalize (log_keys E (v_log s) q). intro l. revert s.
    induction l as [|x l IH]; intro s; cbn; [apply kp_refl|]. eapply kp_trans; [apply kp_resume_key|apply IH].
  Qed.
  Lemma kp_connect : forall s c who ins clean key s', (b = true -> c <> d) ->
    on_connect_msg E s c who ins clean key = Some s' -> kp b d s s'.
  Proof.
    intros s c who ins clean key s' Hb H. destruct who as [|id ch|id]; [discriminate| |].
    - unfold on_connect_msg in H. set (s1 := on_conn (put_out (on_conn s c (set_insecure ins)) c (KCtl tCONNECT fACK 0)) c (set_client id)) in *.
      assert (K1 : kp b d s s1).
      { eapply kp_trans; [|apply kp_on; intros _ _ k; now apply more_same]. eapply kp_trans; [|apply kp_put_out].
        apply kp_on; intros _ _ k; now apply more_same. }
      destruct (aget (v_conns s1) c) as [k|] eqn:Hk; [|injection H as <-; exact K1].
      destruct (m_hung (k_ids k)).
      { injection H as <-. eapply kp_trans; [exact K1|]. apply kp_on. intros _ _ k0. now apply more_same. }
      set (s2 := on_conn s1 c _) in H.
      assert (K2 : kp b d s s2).
      { eapply kp_trans; [exact K1|]. apply kp_on. intros B Hc. now destruct (Hb B). }
      assert (X : forall s4 s5, kp b d s s4 -> s' = (if (session_key id key =? epoch32 id)%Z then set_log s4 s5 else set_log s4 (aput s5 (u32 (id_epoch id)) (LSess (k_sess k)))) -> kp b d s s').
      { intros s4 s5 K4 ->. eapply kp_trans; [exact K4|]. apply kp_conns. now destruct (_ =? _)%Z. }
      destruct (sess_get E (v_log s2) (sess_key (session_key id key))) as [[old|]|]; [|discriminate|].
      + injection H as <-. match goal with |- context [aput (v_log ?z)] => apply (X z (aput (v_log z) (sess_key (session_key id key)) (LSess (k_sess k)))) end.
        * eapply kp_trans; [|apply kp_on; intros _ _ k0; now apply more_same]. destruct clean.
          -- eapply kp_trans; [exact K2|]. now apply kp_conns.
          -- eapply kp_trans; [exact K2|]. apply kp_resume.
        * now destruct (_ =? _)%Z.
      + injection H as <-. apply (X s2 (aput (v_log s2) (sess_key (session_key id key)) (LSess (k_sess k)))); [exact K2|].
        now destruct (_ =? _)%Z.
    - cbn in H. destruct (say _ c (mkPM tClientid id)) as [s1|] eqn:F; [|discriminate].
      assert (K : kp b d s s1).
      { eapply kp_trans; [|eapply kp_say; exact F]. eapply kp_trans; [|apply kp_put_out].
        apply kp_on; intros _ _ k; now apply more_same. }
      destruct (is_stuck s1 c); [injection H as <-; exact K|]. eapply kp_trans; [exact K|eapply kp_close; exact H].
  Qed.
  Lemma kp_flow : forall s c ty flow id s', on_flow E s c ty flow id = Some s' -> kp b d s s'.
  Proof.
    intros s c ty flow id s' H. unfold on_flow in H.
    destruct (aget (v_conns s) c) as [k|] eqn:Hk; [|injection H as <-; apply kp_refl].
    set (s1 := if match k_client k with Some _ => true | None => false end then _ else s) in *.
    assert (K : kp b d s s1) by (unfold s1; destruct (k_client k); apply kp_conns; [apply persist_in_conns|reflexivity]).
    destruct (flow =? fRECEIVE).
    - destruct (log_get E (v_log s1) _) as [[p|]|].
      + injection H as <-. eapply kp_trans; [exact K|apply kp_put_out].
      + injection H as <-. exact K.
      + eapply kp_trans; [exact K|eapply kp_close; exact H].
    - destruct (flow =? fRECEIPT); [|injection H as <-; exact K]. injection H as <-.
      eapply kp_trans; [|apply kp_put_out]. eapply kp_trans; [exact K|]. apply kp_conns.
      destruct (k_client k); reflexivity.
  Qed.
  Lemma kp_run_task : forall s t s1 r, run_task E s t = Some (s1, r) -> kp b d s s1.
  Proof.
    intros s t s1 r H. destruct t as [c p t pl|c p m id [|n todo]|c p m id n todo]; cbn in H.
    - destruct (aget (v_conns s) c) as [k|]; [destruct (k_client k); [|discriminate]|]; injection H as <- <-; apply kp_refl.
    - injection H as <- <-. apply kp_refl.
    - destruct (aget (v_conns s) (s_conn n)) as [k|]; [destruct (k_open k)|]; try (injection H as <- <-; apply kp_refl).
      destruct (id =? 0).
      + destruct (next_id s c) as [s2 [i|]] eqn:F; injection H as <- <-; eapply kp_next; exact F.
      + injection H as <- <-. apply kp_refl.
    - destruct (aget (v_conns s) (s_conn n)) as [k|] eqn:Hk; [|injection H as <- <-; apply kp_refl].
      assert (X : forall s1 r, match send_message s (s_conn n) id (s_mode n) (s_delay n) m with
                | Some (s1, Some i) => Some (s1, Some (TLoop c p m i todo)) | Some (s1, None) => Some (s1, None)
                | None => None end = Some (s1, r) -> kp b d s s1).
      { intros s2 r2. destruct (send_message _ _ _ _ _ _) as [[s3 [i|]]|] eqn:F; intro G; [| |discriminate];
          injection G as <- <-; eapply kp_send; exact F. }
      destruct (reliable (p_mode p)).
      + destruct (reliable (s_mode n)).
        * destruct (k_open k); [|discriminate]. injection H as <- <-.
          eapply kp_trans; [|apply kp_put_out]. now apply kp_conns.
        * destruct (s_mode n =? 0); [eapply X; exact H|]. injection H as <- <-. apply kp_refl.
      + destruct (p_mode p =? 0); [eapply X; exact H|]. injection H as <- <-. apply kp_refl.
  Qed.
  Lemma kp_send_batch : forall s c, (b = true -> c = d -> hears (send_batch s c) d) -> kp b d s (send_batch s c).
  Proof.
    intros s c Hh. unfold send_batch in *. destruct (aget (v_conns s) c) as [k|] eqn:Hk; [|apply kp_refl].
    destruct (k_batch k) as [[|m l]|] eqn:Hl; try apply kp_refl. destruct (k_open k) eqn:Ho; [|apply kp_refl].
    unfold next_id in *. cbn [set_conn v_conns] in *. rewrite aget_aput, N.eqb_refl in *. cbn [set_batch k_ids] in *.
    destruct (mids_step (k_ids k) (MNext tPUBLISH)) as [ids x] eqn:Em.
    set (s1 := set_conn _ c (set_ids ids _)) in *.
    assert (Hk1 : forall q, aget (v_conns s1) q = if q =? c then Some (set_ids ids (set_batch (Some []) k)) else aget (v_conns s) q).
    { intro q. unfold s1, set_conn. cbn [v_conns]. rewrite !aget_aput. now destruct (q =? c). }
    destruct x as [z|].
    - intros k0 H0. unfold put_out. rewrite get_on. destruct (d =? c) eqn:F.
      + assert (d = c) by lia. subst d. rewrite Hk in H0. injection H0 as <-.
        rewrite persist_conns, Hk1, N.eqb_refl. cbn [option_map set_ids set_batch k_open]. rewrite Ho. eexists. split; [reflexivity|].
        intros _. split; [eexists; reflexivity|]. intros l0 m0 H1 I1. rewrite Hl in H1. injection H1 as <-. right. eexists. split.
        * cbn. apply in_or_app. right. left. reflexivity.
        * exact I1.
      + exists k0. split; [|intros _; apply more_refl]. rewrite persist_conns, Hk1, F. assumption.
    - intros k0 H0. rewrite Hk1. destruct (d =? c) eqn:F.
      + assert (d = c) by lia. subst d. rewrite Hk in H0. injection H0 as <-. eexists. split; [reflexivity|]. intro B.
        exfalso. destruct (Hh B eq_refl) as (k2 & H2 & _ & _ & Hung). rewrite Hk1, N.eqb_refl in H2. injection H2 as <-.
        cbn in Hung. unfold mids_step in Em. destruct (m_hung (k_ids k)) eqn:Hu; [injection Em as <-; congruence|].
        destruct (zmem _ _); [injection Em as <-; discriminate|discriminate].
      + exists k0. split; [assumption|]. intros _. apply more_refl.
  Qed.
End KEEP.

Definition running (ev : event) : Prop := match ev with ERestart _ => False | _ => True end.
Lemma kp_step : forall E b d s ev s', step E s ev = Some s' -> running ev -> (b = true -> no_connect d ev /\ hears s' d) -> kp b d s s'.
Proof.
  intros E b d s ev s' H R Hb. destruct ev as [|c q|i|c|c|n]; cbn in H; [| | | | |contradiction].
  - injection H as <-. intros k Hk. cbn [v_conns]. rewrite aget_aput. destruct (d =? _) eqn:F.
    + eexists. split; [reflexivity|]. intro B. exfalso. destruct (Hb B) as (_ & k' & Hk' & _ & Hc & _).
      cbn [v_conns] in Hk'. rewrite aget_aput, F in Hk'. injection Hk' as <-. now apply Hc.
    + exists k. split; [assumption|]. intros _. apply more_refl.
  - destruct (aget (v_conns s) c) as [k|]; [|injection H as <-; apply kp_refl].
    destruct (k_open k && negb (k_stuck k)); [|injection H as <-; apply kp_refl].
    destruct q as [who ins cl key|l id|l id|p|l id| |ty flow id];
      try (eapply kp_moves, handle_moves; [|exact H]; exact I).
    + eapply kp_connect; [|exact H]. intros B. apply (Hb B).
    + eapply kp_flow; exact H.
  - destruct (nth_error (v_tasks s) i) as [t|]; [|injection H as <-; apply kp_refl].
    destruct (run_task E s t) as [[s1 r]|] eqn:F; [|discriminate]. injection H as <-.
    eapply kp_trans; [eapply kp_run_task; exact F|]. now apply kp_conns.
  - injection H as <-. apply kp_send_batch. intros B <-. apply (Hb B).
  - eapply kp_close; exact H.
Qed.
Lemma in_skip : forall (A : Type) n (l o : list A) y, In y (skipn n l) -> In y (skipn n (l ++ o)).
Proof. intros A n l o y H. rewrite skipn_app. apply in_or_app. now left. Qed.
Lemma in_last : forall (A : Type) n (l : list A) y, (n <= length l)%nat -> In y (skipn n (l ++ [y])).
Proof. intros A n l y H. rewrite skipn_app. apply in_or_app. right. replace (n - length l)%nat with O by lia. now left. Qed.
Lemma kp_got : forall n d s s' p m x, kp true d s s' -> s_conn x = d -> got_behind n s p m x -> got_behind n s' p m x.
Proof.
  intros n d s s' p m x K <- (k & Hk & G). destruct (K _ Hk) as (k' & Hk' & M). specialize (M eq_refl). exists k'. split; [assumption|].
  destruct (reliable (p_mode p) && reliable (s_mode x)); [|destruct ((s_mode x =? 2) || (0 <? s_delay x)%Z)].
  - destruct M as [(o & ->) _]. now apply in_skip.
  - eapply more_held; eassumption.
  - destruct M as [(o & ->) _]. now apply in_skip.
Qed.
Definition past (n : nat) (s : server) (c : N) : Prop := exists k, aget (v_conns s) c = Some k /\ (n <= length (k_out k))%nat.
Lemma kp_past : forall n d s s', kp true d s s' -> past n s d -> past n s' d.
Proof.
  intros n d s s' K (k & Hk & L). destruct (K _ Hk) as (k' & Hk' & M). destruct (M eq_refl) as [(o & Ho) _].
  exists k'. split; [assumption|]. rewrite Ho, app_length. lia.
Qed.
Lemma in_replace : forall (A : Type) (l : list A) i w u, nth_error l i = Some w -> In u l -> u = w \/ In u (firstn i l ++ skipn (S i) l).
Proof.
  induction l as [|a l IH]; intros i w u H I; [destruct I|]. destruct i as [|i]; cbn in H.
  - injection H as ->. destruct I as [->|I]; [now left|]. now right.
  - destruct I as [->|I]; [right; now left|]. destruct (IH _ _ _ H I) as [->|J]; [now left|]. right. right. exact J.
Qed.
Section ANY.
  Variable E : env.
  Variables (c contract : N) (p : pub) (t : stopic) (pl : bytes) (x : subn).
  Let m := mkPM (st_name t) pl.
  Variable base : nat.
  Hypothesis Hid : p_id p <> 0.
  Hypothesis Hp : p_mode p <= 2.
  Hypothesis Hn : s_mode x <= 2.
  Hypothesis Hcon : s_contract x = contract.
  Hypothesis Hmat : e_match E (s_topic x) (st_topic t) = true.
  Definition cond (s : server) : Prop := of_contract s c contract /\ In x (v_subs s) /\ hears s (s_conn x).
  Definition comes (u : task) (s : server) : Prop :=
    match u with
    | TPub _ _ _ _ => u = TPub c p t pl
    | TLoop _ _ _ _ todo => u = TLoop c p m (p_id p) todo /\ In x todo
    | TSend _ _ _ _ n todo => u = TSend c p m (p_id p) n todo /\ (n = x \/ In x todo) /\ aget (v_conns s) (s_conn n) <> None
    end.
  Definition underway (s : server) : Prop := got_behind base s p m x \/ exists u, In u (v_tasks s) /\ comes u s.

  Lemma comes_keep : forall u s s', comes u s -> (forall d, kp false d s s') -> comes u s'.
  Proof.
    intros u s s' H K. destruct u; try exact H. destruct H as (A & B & C). split; [exact A|]. split; [exact B|].
    destruct (aget (v_conns s) (s_conn s0)) as [k|] eqn:Hk; [|contradiction]. destruct (K _ _ Hk) as (k' & -> & _). discriminate.
  Qed.
  Lemma tasks_step : forall s ev s', step E s ev = Some s' -> running ev -> forall u, In u (v_tasks s) ->
    In u (v_tasks s') \/ exists i s1 r, ev = ERun i /\ run_task E s u = Some (s1, r) /\ v_conns s' = v_conns s1 /\
      match r with Some u' => In u' (v_tasks s') | None => True end.
  Proof.
    intros s ev s' H R u Hu. destruct ev as [|d q|i|d|d|n]; cbn in H; [| | | | |contradiction].
    - injection H as <-. now left.
    - left. destruct (aget (v_conns s) d) as [k|]; [|now injection H as <-].
      destruct (k_open k && negb (k_stuck k)); [|now injection H as <-].
      destruct q as [who ins cl key|l id|l id|q|l id| |ty flow id];
        try (match type of H with handle ?E ?s ?d ?q = _ => pose proof (handle_moves E s d q _ I H) as M end;
             apply (moves_tasks E 0 1 ltac:(lia) ltac:(lia)) in M; destruct M as (l' & -> & _); apply in_or_app; now left).
      + apply (connect_tasks E 0 1 ltac:(lia) ltac:(lia)) in H. now rewrite H.
      + apply flow_tasks in H. now rewrite H.
    - destruct (nth_error (v_tasks s) i) as [w|] eqn:Hw; [|injection H as <-; now left].
      destruct (run_task E s w) as [[s1 r]|] eqn:F; [|discriminate]. injection H as <-.
      assert (D : u = w \/ In u (firstn i (v_tasks s) ++ skipn (S i) (v_tasks s))).
      { eapply in_replace; eassumption. }
      cbn [set_tasks v_tasks v_conns]. destruct D as [->|D].
      + right. exists i, s1, r. split; [reflexivity|]. split; [exact F|]. split; [reflexivity|]. destruct r; [|exact I].
        apply in_or_app. right. now left.
      + left. apply in_app_or in D. apply in_or_app. destruct D as [D|D]; [now left|]. right. apply in_or_app. now right.
    - injection H as <-. rewrite (send_batch_tasks 0 1 ltac:(lia) ltac:(lia)). now left.
    - apply close_tasks in H. rewrite H. now left.
  Qed.
  Lemma got_conns : forall s s' q k n, v_conns s' = v_conns s -> got_behind base s q k n -> got_behind base s' q k n.
  Proof. intros s s' q k n H (k0 & Hk & G). exists k0. rewrite H. auto. Qed.
  (** The goroutine itself *)
  Lemma task_on : forall s u s1 r, cond s -> past base s (s_conn x) -> comes u s -> run_task E s u = Some (s1, r) ->
    got_behind base s1 p m x \/ match r with Some u' => comes u' s1 | None => False end.
  Proof.
    intros s u s1 r ((kc & id & Hkc & Hcl & Hco) & Hx & (kx & Hkx & Hox & _)) (kb & Hkb & Hlen) Hu H. rewrite Hkx in Hkb. injection Hkb as <-.
    destruct u as [c0 p0 t0 pl0|c0 p0 m0 i0 todo|c0 p0 m0 i0 n todo].
    - cbn in Hu. injection Hu as -> -> -> ->. right. cbn [run_task] in H. rewrite Hkc, Hcl in H. injection H as <- <-. cbn [comes]. split; [reflexivity|].
      apply filter_In. split; [assumption|]. now rewrite Hmat, Hcon, Hco, N.eqb_refl.
    - destruct Hu as (Hu & Hin). injection Hu as -> -> -> ->. right. destruct todo as [|n todo]; [destruct Hin|]. cbn [run_task] in H.
      destruct (aget (v_conns s) (s_conn n)) as [k|] eqn:Hk.
      + destruct (k_open k) eqn:Ho.
        * rewrite (proj2 (N.eqb_neq _ _) Hid) in H. injection H as <- <-. split; [reflexivity|]. split; [exact Hin|]. congruence.
        * injection H as <- <-. split; [reflexivity|]. destruct Hin as [->|Hin]; [|assumption]. congruence.
      + injection H as <- <-. split; [reflexivity|]. destruct Hin as [->|Hin]; [|assumption]. congruence.
    - destruct Hu as (Hu & Hin & Hex). injection Hu as -> -> -> ->. cbn [run_task] in H.
      destruct (aget (v_conns s) (s_conn n)) as [k|] eqn:Hk; [|contradiction]. clear Hex.
      assert (D : n = x \/ n <> x /\ In x todo).
      { destruct Hin as [|Hin]; [now left|]. destruct (In_dec (fun a b : subn => ltac:(repeat decide equality) : {a = b} + {a <> b}) n [x]) as [[<-|[]]|Q]; [now left|].
        right. split; [intros ->; apply Q; now left|assumption]. }
      assert (X : match send_message s (s_conn n) (p_id p) (s_mode n) (s_delay n) m with
          | Some (s1, Some i) => Some (s1, Some (TLoop c p m i todo)) | Some (s1, None) => Some (s1, None)
          | None => None end = Some (s1, r) -> (n = x -> reliable (p_mode p) && reliable (s_mode n) = false) ->
          got_behind base s1 p m x \/ match r with Some u' => comes u' s1 | None => False end).
      { intros G Nr. unfold send_message in G. rewrite (proj2 (N.eqb_neq _ _) Hid) in G.
        destruct D as [->|[_ Hin']].
        - left. unfold got_behind. rewrite (Nr eq_refl). rewrite Hkx in Hk. injection Hk as <-.
          destruct ((s_mode x =? 2) || (0 <? s_delay x)%Z).
          + unfold batch_add in G. rewrite Hkx in G. destruct (k_batch kx) as [l|]; [|discriminate]. injection G as <- <-.
            rewrite get_set, N.eqb_refl. eexists. split; [reflexivity|]. left. eexists. split; [reflexivity|]. apply in_or_app. right. now left.
          + injection G as <- <-. unfold put_out. rewrite get_on, N.eqb_refl. cbn [persist_out set_log v_conns]. rewrite Hkx. cbn [option_map]. rewrite Hox.
            eexists. split; [reflexivity|]. cbn [add_out k_out]. now apply in_last.
        - right. destruct ((s_mode n =? 2) || (0 <? s_delay n)%Z).
          + destruct (batch_add s (s_conn n) m); [|discriminate]. injection G as <- <-. split; [reflexivity|assumption].
          + injection G as <- <-. split; [reflexivity|assumption]. }
      assert (Z : Some (s, Some (TLoop c p m (p_id p) todo)) = Some (s1, r) -> n <> x ->
          got_behind base s1 p m x \/ match r with Some u' => comes u' s1 | None => False end).
      { intros G Nx. injection G as <- <-. right. split; [reflexivity|]. destruct D as [|[_ D]]; [contradiction|assumption]. }
      destruct (reliable (p_mode p)) eqn:Rp.
      + destruct (reliable (s_mode n)) eqn:Rn.
        * destruct (k_open k) eqn:Ho; [|discriminate]. injection H as <- <-. destruct D as [->|[_ Hin']].
          -- left. unfold got_behind. rewrite Rp, Rn. cbn [andb]. unfold put_out. rewrite get_on, N.eqb_refl. cbn [persist_out set_log v_conns]. rewrite Hkx. cbn [option_map].
             rewrite Hox. eexists. split; [reflexivity|]. cbn [add_out k_out]. now apply in_last.
          -- right. split; [reflexivity|assumption].
        * destruct (s_mode n =? 0) eqn:S0; [apply X; [exact H|reflexivity]|]. apply Z; [exact H|]. intros ->. unfold reliable in Rn. lia.
      + destruct (p_mode p =? 0) eqn:P0; [apply X; [exact H|reflexivity]|]. exfalso. unfold reliable in Rp. lia.
  Qed.
  Lemma underway_step : forall s ev s', cond s -> cond s' -> no_connect (s_conn x) ev -> past base s (s_conn x) -> underway s ->
    step E s ev = Some s' -> past base s' (s_conn x) /\ underway s'.
  Proof.
    intros s ev s' C (C1 & C2 & C3) Hc B U H.
    assert (R : running ev).
    { destruct ev; try exact I. cbn in H. injection H as <-. destruct C3 as (k & Hk & _). discriminate. }
    pose proof (kp_step _ true (s_conn x) _ _ _ H R (fun _ => conj Hc C3)) as K.
    assert (K0 : forall d, kp false d s s') by (intro d; eapply kp_step; [exact H|exact R|discriminate]).
    split; [eapply kp_past; eassumption|].
    destruct U as [G|(u & Hu & Cu)]; [left; eapply kp_got; [exact K|reflexivity|exact G]|].
    destruct (tasks_step _ _ _ H R u Hu) as [Hu'|(i & s1 & r & -> & F & Ec & Hr)].
    - right. exists u. split; [assumption|]. eapply comes_keep; [exact Cu|exact K0].
    - destruct (task_on _ _ _ _ C B Cu F) as [G|G]; [left; eapply got_conns; [exact Ec|exact G]|].
      destruct r as [u'|]; [|contradiction]. right. exists u'. split; [assumption|].
      destruct u'; try exact G. cbn [comes] in *. now rewrite Ec.
  Qed.
  Lemma underway_run : forall es s s', all_along E s es cond -> Forall (no_connect (s_conn x)) es -> past base s (s_conn x) ->
    underway s -> run E s es = Some s' -> underway s'.
  Proof.
    induction es as [|ev es IH]; intros s s' A N B U H; cbn in H; [now injection H as <-|].
    destruct (step E s ev) as [s1|] eqn:S1; [|discriminate]. inversion N as [|? ? N1 N2]; subst.
    assert (X : past base s1 (s_conn x) /\ underway s1).
    { eapply underway_step; [| |exact N1|exact B|exact U|exact S1].
      + apply (A [] (ev :: es)); reflexivity.
      + apply (A [ev] es); [reflexivity|]. cbn. now rewrite S1. }
    destruct X as [B1 U1]. apply (IH s1); try assumption.
    intros e1 e2 s2 -> H2. apply (A (ev :: e1) e2); [reflexivity|]. cbn. now rewrite S1.
  Qed.
End ANY.

Lemma pub_tasks : forall E c k id p, k_client k = Some id -> forall l s s1 b, aget (v_conns s) c = Some k ->
  Forall (fun m => exists t, on_publish (k_insecure k) (id_contract id) (pm_topic m) = VAllowed t /\ e_store E (st_topic t) (pm_payload m) = true) l ->
  pub_msgs E s c p l = Some (s1, b) -> (exists n, v_tasks s1 = v_tasks s ++ n) /\
  forall m t, In m l -> on_publish (k_insecure k) (id_contract id) (pm_topic m) = VAllowed t -> In (TPub c p t (pm_payload m)) (v_tasks s1).
Proof.
  intros E c k id p Hc. induction l as [|m0 l IH]; intros s s1 b Hk F H; cbn in H.
  - injection H as <- <-. split; [exists []; now rewrite app_nil_r|]. intros m t [].
  - inversion F as [|? ? (t0 & Ht0 & Hst) F']; subst. rewrite Hk in H. unfold check_pub in H. rewrite Hc, Ht0, Hst in H.
    specialize (IH (set_tasks s (v_tasks s ++ [TPub c p t0 (pm_payload m0)])) s1 b Hk F' H). destruct IH as ((n & Hn) & IH).
    cbn [set_tasks v_tasks] in Hn. split; [exists ([TPub c p t0 (pm_payload m0)] ++ n); now rewrite Hn, <- app_assoc|].
    intros m t [<-|Hm] Ht; [|now apply IH]. rewrite Hn. rewrite Ht0 in Ht. injection Ht as <-. apply in_or_app. left. apply in_or_app. right. now left.
Qed.
Lemma reached_behind : forall n E s c k id p m0 t es s' x,
  aget (v_conns s) c = Some k -> k_open k = true -> k_stuck k = false -> k_client k = Some id ->
  p_id p <> 0 -> p_mode p <= 2 -> s_mode x <= 2 -> past n s (s_conn x) ->
  Forall (fun m => exists t, on_publish (k_insecure k) (id_contract id) (pm_topic m) = VAllowed t /\ e_store E (st_topic t) (pm_payload m) = true) (p_msgs p) ->
  In m0 (p_msgs p) -> on_publish (k_insecure k) (id_contract id) (pm_topic m0) = VAllowed t ->
  run E s (EPacket c (QPub p) :: es) = Some s' -> (forall u, In u (v_tasks s') -> ~ publishes c p u) ->
  s_contract x = id_contract id -> e_match E (s_topic x) (st_topic t) = true ->
  all_along E s (EPacket c (QPub p) :: es) (fun s1 => of_contract s1 c (id_contract id) /\ In x (v_subs s1) /\ hears s1 (s_conn x)) ->
  Forall (no_connect (s_conn x)) es -> got_behind n s' p (mkPM (st_name t) (pm_payload m0)) x.
Proof.
  intros n E s c k id p m0 t es s' x Hk Ho Hst Hc Hid Hp Hm B Hall Hin Ht H Hend Hcon Hmat A N.
  cbn [run] in H. destruct (step E s (EPacket c (QPub p))) as [s1|] eqn:S1; [|discriminate].
  assert (B1 : past n s1 (s_conn x)).
  { eapply kp_past; [|exact B]. eapply (kp_step E true); [exact S1|exact I|]. intros _. split; [exact I|].
    apply (A [EPacket c (QPub p)] es s1); [reflexivity|]. cbn [run]. now rewrite S1. }
  assert (U : underway c p t (pm_payload m0) x n s1).
  { right. cbn [step] in S1. rewrite Hk, Ho, Hst in S1. cbn [andb negb handle] in S1.
    destruct (pub_msgs E s c p (p_msgs p)) as [[s2 b]|] eqn:F; [|discriminate]. cbn [option_map fst snd] in S1.
    destruct (pub_tasks _ _ _ _ _ Hc _ _ _ _ Hk Hall F) as (_ & T). exists (TPub c p t (pm_payload m0)). split; [|reflexivity].
    injection S1 as <-. destruct b; [|now apply T]. unfold ack. destruct (is_stuck s2 c); [now apply T|]. rewrite put_out_tasks. now apply T. }
  assert (U' : underway c p t (pm_payload m0) x n s').
  { eapply underway_run; [exact Hid|exact Hp|exact Hm|exact Hcon|exact Hmat| |exact N|exact B1|exact U|exact H].
    intros e1 e2 s2 -> H2. apply (A (EPacket c (QPub p) :: e1) e2); [reflexivity|]. cbn [run]. now rewrite S1. }
  destruct U' as [G|(u & Hu & Cu)]; [exact G|]. exfalso. apply (Hend u Hu).
  destruct u as [c0 p0 t0 pl0|c0 p0 mm i0 todo|c0 p0 mm i0 y todo]; cbn in Cu.
  - injection Cu as -> -> _ _. now split.
  - destruct Cu as (Cu & _). injection Cu as -> -> _ _. now split.
  - destruct Cu as (Cu & _). injection Cu as -> -> _ _. now split.
Qed.
Lemma reached_any : forall E s c k id p m0 t es s' x,
  aget (v_conns s) c = Some k -> k_open k = true -> k_stuck k = false -> k_client k = Some id ->
  p_id p <> 0 -> p_mode p <= 2 -> s_mode x <= 2 ->
  Forall (fun m => exists t, on_publish (k_insecure k) (id_contract id) (pm_topic m) = VAllowed t /\ e_store E (st_topic t) (pm_payload m) = true) (p_msgs p) ->
  In m0 (p_msgs p) -> on_publish (k_insecure k) (id_contract id) (pm_topic m0) = VAllowed t ->
  run E s (EPacket c (QPub p) :: es) = Some s' -> (forall u, In u (v_tasks s') -> ~ publishes c p u) ->
  s_contract x = id_contract id -> e_match E (s_topic x) (st_topic t) = true ->
  all_along E s (EPacket c (QPub p) :: es) (fun s1 => of_contract s1 c (id_contract id) /\ In x (v_subs s1) /\ hears s1 (s_conn x)) ->
  Forall (no_connect (s_conn x)) es -> got s' p (mkPM (st_name t) (pm_payload m0)) x.
Proof.
  intros E s c k id p m0 t es s' x Hk Ho Hst Hc Hid Hp Hm Hall Hin Ht H Hend Hcon Hmat A N.
  refine (reached_behind 0 E s c k id p m0 t es s' x Hk Ho Hst Hc Hid Hp Hm _ Hall Hin Ht H Hend Hcon Hmat A N).
  destruct (A [] _ s eq_refl eq_refl) as (_ & _ & kx & Hkx & _). exists kx. split; [assumption|]. lia.
Qed.

(** ** C87: one after the other *)
Lemma along_tail : forall E s es1 es2 s1 P, all_along E s (es1 ++ es2) P -> run E s es1 = Some s1 -> all_along E s1 es2 P.
Proof.
  intros E s es1 es2 s1 P A H e1 e2 s2 -> H2. apply (A (es1 ++ e1) e2); [now rewrite app_assoc|]. rewrite (run_app E es1 s s1 e1 H). exact H2.
Qed.
Lemma along_head : forall E s es1 es2 P, all_along E s (es1 ++ es2) P -> all_along E s es1 P.
Proof. intros E s es1 es2 P A e1 e2 s2 -> H2. apply (A e1 (e2 ++ es2)); [now rewrite app_assoc|exact H2]. Qed.
Lemma kp_run : forall E d es s s', all_along E s es (fun s1 => hears s1 d) -> Forall (no_connect d) es ->
  run E s es = Some s' -> kp true d s s'.
Proof.
  induction es as [|ev es IH]; intros s s' A N H; cbn in H; [injection H as <-; apply kp_refl|].
  destruct (step E s ev) as [s1|] eqn:S1; [|discriminate]. inversion N as [|? ? N1 N2]; subst.
  assert (H1 : hears s1 d) by (apply (A [ev] es); [reflexivity|]; cbn; now rewrite S1).
  eapply kp_trans; [eapply kp_step; [exact S1| |intros _; split; assumption]|].
  - destruct ev; try exact I. cbn in S1. injection S1 as <-. destruct H1 as (k & Hk & _). discriminate.
  - apply (IH s1); [|exact N2|exact H]. intros e1 e2 s2 -> H2. apply (A (ev :: e1) e2); [reflexivity|]. cbn. now rewrite S1.
Qed.
Lemma in_order : forall E s c k id k1 id1 p q m n t u es1 es2 s1 s' x,
  aget (v_conns s) c = Some k -> k_open k = true -> k_stuck k = false -> k_client k = Some id ->
  run E s (EPacket c (QPub p) :: es1) = Some s1 -> run E s1 (EPacket c (QPub q) :: es2) = Some s' ->
  aget (v_conns s1) c = Some k1 -> k_open k1 = true -> k_stuck k1 = false -> k_client k1 = Some id1 -> id_contract id1 = id_contract id ->
  (forall u, In u (v_tasks s1) -> ~ publishes c p u) -> (forall u, In u (v_tasks s') -> ~ publishes c q u) ->
  p_id p <> 0 -> p_id q <> 0 -> p_mode p = 0 -> p_mode q = 0 -> s_mode x = 0 -> (s_delay x <= 0)%Z ->
  Forall (fun m => exists t, on_publish (k_insecure k) (id_contract id) (pm_topic m) = VAllowed t /\ e_store E (st_topic t) (pm_payload m) = true) (p_msgs p) ->
  Forall (fun m => exists t, on_publish (k_insecure k1) (id_contract id1) (pm_topic m) = VAllowed t /\ e_store E (st_topic t) (pm_payload m) = true) (p_msgs q) ->
  In m (p_msgs p) -> on_publish (k_insecure k) (id_contract id) (pm_topic m) = VAllowed t -> e_match E (s_topic x) (st_topic t) = true ->
  In n (p_msgs q) -> on_publish (k_insecure k1) (id_contract id1) (pm_topic n) = VAllowed u -> e_match E (s_topic x) (st_topic u) = true ->
  s_contract x = id_contract id ->
  all_along E s (EPacket c (QPub p) :: es1 ++ EPacket c (QPub q) :: es2)
    (fun s1 => of_contract s1 c (id_contract id) /\ In x (v_subs s1) /\ hears s1 (s_conn x)) ->
  Forall (no_connect (s_conn x)) (es1 ++ EPacket c (QPub q) :: es2) ->
  exists l1 l2 l3, out s' (s_conn x) = l1 ++ KPub (mkPub (p_id p) 0 [mkPM (st_name t) (pm_payload m)]) :: l2 ++
    KPub (mkPub (p_id q) 0 [mkPM (st_name u) (pm_payload n)]) :: l3.
Proof.
  intros E s c k id k1 id1 p q m n t u es1 es2 s1 s' x Hk Ho Hs Hc H1 H2 Hk1 Ho1 Hs1 Hc1 Hco E1 E2 Ip Iq Mp Mq Mx Dx Fp Fq Im Tm Em In' Tn En Cx A N.
  change (EPacket c (QPub p) :: es1 ++ EPacket c (QPub q) :: es2) with ((EPacket c (QPub p) :: es1) ++ EPacket c (QPub q) :: es2) in A.
  apply Forall_app in N. destruct N as [N1 N2].
  assert (G1 : got s1 p (mkPM (st_name t) (pm_payload m)) x).
  { refine (reached_any E s c k id p m t es1 s1 x Hk Ho Hs Hc Ip _ _ Fp Im Tm H1 E1 Cx Em _ N1); [lia|lia|]. eapply along_head; exact A. }
  pose proof (along_tail _ _ _ _ _ _ A H1) as A2.
  destruct G1 as (kx & Hkx & G1). rewrite Mp, Mx in G1. cbn [reliable N.eqb orb andb] in G1. replace (0 <? s_delay x)%Z with false in G1 by lia.
  assert (K : kp true (s_conn x) s1 s').
  { eapply kp_run; [|exact N2|exact H2]. intros e1 e2 s2 Q R. now destruct (A2 e1 e2 s2 Q R) as (_ & _ & R2). }
  assert (G2 : got_behind (length (k_out kx)) s' q (mkPM (st_name u) (pm_payload n)) x).
  { inversion N2 as [|? ? _ N3]; subst. refine (reached_behind _ E s1 c k1 id1 q n u es2 s' x Hk1 Ho1 Hs1 Hc1 Iq _ _ _ Fq In' Tn H2 E2 _ En _ N3); [lia|lia| |congruence|].
    - exists kx. split; [exact Hkx|lia].
    - now rewrite Hco. }
  destruct G2 as (k' & Hk' & G2). rewrite Mq, Mx in G2. cbn [reliable N.eqb orb andb] in G2. replace (0 <? s_delay x)%Z with false in G2 by lia.
  destruct (K _ Hkx) as (k2 & Hk2 & M). rewrite Hk' in Hk2. injection Hk2 as <-. destruct (M eq_refl) as [(o & Hout) _].
  rewrite Hout, skipn_app, skipn_all, Nat.sub_diag in G2. cbn in G2.
  apply in_split in G1. destruct G1 as (l1 & l2 & L1). apply in_split in G2. destruct G2 as (l3 & l4 & L2).
  exists l1, (l2 ++ l3), l4. unfold out. rewrite Hk', Hout, L1, L2. rewrite <- !app_assoc. cbn. reflexivity.
Qed.

(** Checking a condition along a run *)
Fixpoint along (E : env) (s : server) (es : list event) (f : server -> bool) : bool :=
  f s && match es with [] => true | ev :: r => match step E s ev with Some s1 => along E s1 r f | None => true end end.
Lemma along_all : forall E (P : server -> Prop) f, (forall s, f s = true -> P s) ->
  forall es s, along E s es f = true -> all_along E s es P.
Proof.
  intros E P f Hf. induction es as [|ev es IH]; intros s H e1 e2 s1 He Hr; cbn in H; apply andb_prop in H; destruct H as [H0 H].
  - destruct e1; [|discriminate]. cbn in Hr. injection Hr as <-. auto.
  - destruct e1 as [|a e1]; cbn in Hr; [injection Hr as <-; auto|]. cbn in He. injection He as <- He.
    destruct (step E s ev) as [s2|]; [|discriminate]. eapply IH; eassumption.
Qed.
Definition subn_dec : forall a b : subn, {a = b} + {a <> b}.
Proof. repeat decide equality. Defined.
Definition condb (c contract : N) (x : subn) (s : server) : bool :=
  match aget (v_conns s) c with Some k => match k_client k with Some id => id_contract id =? contract | None => false end | None => false end &&
  existsb (fun y => if subn_dec x y then true else false) (v_subs s) &&
  match aget (v_conns s) (s_conn x) with
  | Some k => k_open k && (match k_client k with Some _ => true | None => false end && negb (m_hung (k_ids k))) | None => false end.
Lemma condb_ok : forall c contract x s, condb c contract x s = true ->
  of_contract s c contract /\ In x (v_subs s) /\ hears s (s_conn x).
Proof.
  intros c contract x s H. unfold condb in H. apply andb_prop in H. destruct H as [H C]. apply andb_prop in H. destruct H as [A B].
  split; [|split].
  - destruct (aget (v_conns s) c) as [k|] eqn:Hk; [|discriminate]. destruct (k_client k) as [id|] eqn:Hc; [|discriminate].
    exists k, id. split; [assumption|]. split; [assumption|]. now apply N.eqb_eq.
  - apply existsb_exists in B. destruct B as (y & Hy & D). destruct (subn_dec x y) as [->|]; [assumption|discriminate].
  - destruct (aget (v_conns s) (s_conn x)) as [k|] eqn:Hk; [|discriminate]. apply andb_prop in C. destruct C as [C1 C].
    apply andb_prop in C. destruct C as [C2 C3]. exists k. split; [assumption|]. split; [assumption|].
    split; [now destruct (k_client k)|]. now apply Bool.negb_true_iff.
Qed.
