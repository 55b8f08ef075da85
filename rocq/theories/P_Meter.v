(** Proofs about the counters of the server. *)
From Coq Require Import Lia ZifyBool ZifyNat ZifyN.
From Verif Require Import M_Bytes P_Bytes M_Keys M_MsgIds M_Conn M_Meter S_Conn S_SubLife S_Meter P_Conn P_SubLife.
From Verif Require M_Subs.
Open Scope N_scope.

Lemma keeps_open s s' c : keeps s s' -> is_open s' c = is_open s c.
Proof.
  intros (_ & _ & _ & D). specialize (D c). unfold is_open. destruct (aget (v_conns s') c), (aget (v_conns s) c); cbn in D; try discriminate; [|reflexivity].
  unfold face in D. congruence.
Qed.
Lemma face_open s s' c : option_map face (aget (v_conns s') c) = option_map face (aget (v_conns s) c) -> is_open s' c = is_open s c.
Proof.
  intros D. unfold is_open. destruct (aget (v_conns s') c), (aget (v_conns s) c); cbn in D; try discriminate; [|reflexivity].
  unfold face in D. congruence.
Qed.
Lemma close_open s c s1 : close_conn s c = Some s1 -> is_open s1 c = false.
Proof.
  unfold close_conn, is_open. destruct (aget (v_conns s) c) as [k|] eqn:Hk; [|intros [= <-]; now rewrite Hk].
  destruct (k_open k) eqn:Ho; cbn [negb]; [|intros [= <-]; now rewrite Hk].
  destruct (k_subs k); [intros [= <-]; now rewrite get_set, N.eqb_refl|].
  destruct (k_client k); [|discriminate]. intros [= <-]. now rewrite get_set, N.eqb_refl.
Qed.

Lemma sub_one_open E s c id x s1 : sub_one E s c id x = Some s1 -> is_open s1 c = is_open s c.
Proof.
  destruct x as [[text mode] delay]. unfold sub_one. intros H.
  destruct (aget (v_conns s) c) as [k|] eqn:Hk; [|injection H as <-; reflexivity].
  destruct (check_sub k text) as [|e|t|t] eqn:Hc; try discriminate; [apply keeps_open, (keeps_say _ _ _ _ H)|].
  destruct (k_client k) as [cl|] eqn:Hcl; [|discriminate].
  match type of H with match ?x with _ => _ end = _ => destruct x as [ky|] eqn:Hky; [|apply keeps_open, (keeps_say _ _ _ _ H)] end.
  destruct (M_Subs.increment _ _ _ _) as [st first].
  assert (G : forall l n, is_open (mkV (v_log s) (aput (v_conns s) c (set_subs st k)) l (v_tasks s) (v_next s) n) c = is_open s c).
  { intros l n. unfold is_open. cbn [v_conns]. now rewrite aget_aput, N.eqb_refl, Hk. }
  destruct first; [destruct (e_store E (st_topic t) [])|].
  - injection H as <-. apply G.
  - rewrite (keeps_open _ _ _ (keeps_say _ _ _ _ H)). apply G.
  - injection H as <-. apply G.
Qed.
Lemma unsub_one_open E s c id x s1 : unsub_one E s c id x = Some s1 -> is_open s1 c = is_open s c.
Proof.
  unfold unsub_one. intros H.
  destruct (aget (v_conns s) c) as [k|] eqn:Hk; [|injection H as <-; reflexivity].
  destruct (check_sub k x) as [|e|t|t] eqn:Hc; try discriminate; [apply keeps_open, (keeps_say _ _ _ _ H)|].
  destruct (k_client k) as [cl|] eqn:Hcl; [|discriminate].
  destruct (M_Subs.decrement _ _) as [st [last sid]].
  assert (G : forall l n, is_open (mkV (v_log s) (aput (v_conns s) c (set_subs st k)) l (v_tasks s) (v_next s) n) c = is_open s c).
  { intros l n. unfold is_open. cbn [v_conns]. now rewrite aget_aput, N.eqb_refl, Hk. }
  destruct last; [destruct sid|]; injection H as <-; apply G.
Qed.
Lemma each_open {A} (f : server -> A -> option server) c : (forall s x s1, f s x = Some s1 -> is_open s1 c = is_open s c) ->
  forall l s s1, each f s c l = Some s1 -> is_open s1 c = is_open s c.
Proof.
  intros Hf. induction l as [|x r IH]; intros s s1 H; cbn [each] in H; [injection H as <-; reflexivity|].
  destruct (is_stuck s c); [injection H as <-; reflexivity|]. destruct (f s x) as [s2|] eqn:F; [|discriminate].
  rewrite (IH _ _ H). exact (Hf _ _ _ F).
Qed.
Lemma handle_open E s c q s1 : handle E s c q = Some s1 -> is_open s c = true -> is_open s1 c = negb (closes E s c q).
Proof.
  intros H Ho. destruct q as [who ins clean key|l id|l id|p|l id| |ty flow id]; cbn [handle] in H.
  - destruct who as [|idn b|idn]; [discriminate| |].
    + cbn [closes negb]. destruct (keeps_connect _ _ _ _ _ _ _ _ _ H) as (_ & _ & _ & _ & D').
      unfold is_open in *. destruct (aget (v_conns s) c) as [k|]; [|discriminate]. destruct (aget (v_conns s1) c) as [k1|]; [|discriminate].
      cbn in D'. unfold face in D'. congruence.
    + unfold on_connect_msg in H. cbn [closes]. cbv zeta in H. destruct (say _ c _) as [s2|] eqn:F; [|discriminate].
      destruct (is_stuck s2 c) eqn:Hst; cbn [negb].
      * injection H as <-. rewrite <- Ho. apply keeps_open. eapply keeps_trans; [|exact (keeps_say _ _ _ _ F)]. eapply keeps_trans; [|apply keeps_out]. now apply keeps_on.
      * exact (close_open _ _ _ H).
  - destruct (each _ s c l) as [s2|] eqn:F; [|discriminate]. injection H as <-. cbn [closes negb].
    rewrite (keeps_open _ _ _ (keeps_ack _ _ _)), <- Ho. revert F. apply each_open. intros a x b. apply sub_one_open.
  - destruct (each _ s c l) as [s2|] eqn:F; [|discriminate]. injection H as <-. cbn [closes negb].
    rewrite (keeps_open _ _ _ (keeps_ack _ _ _)), <- Ho. revert F. apply each_open. intros a x b. apply unsub_one_open.
  - destruct (pub_msgs E s c p (p_msgs p)) as [[s2 b]|] eqn:F; [|discriminate]. injection H as <-. cbn [fst snd closes negb].
    rewrite <- Ho. pose proof (keeps_pub _ _ _ _ _ _ _ F) as K. destruct b; apply keeps_open; [eapply keeps_trans; [exact K|apply keeps_ack]|exact K].
  - destruct (each _ s c l) as [s2|] eqn:F; [|discriminate]. injection H as <-. cbn [closes negb]. rewrite <- Ho. apply keeps_open.
    eapply keeps_trans; [|apply keeps_ack]. revert F. apply keeps_each. intros a x b. apply keeps_relay_one.
  - injection H as <-. cbn [closes negb]. rewrite <- Ho. apply keeps_open, keeps_ack.
  - unfold on_flow in H. cbn [closes]. destruct (aget (v_conns s) c) as [k|] eqn:Hk; [|unfold is_open in Ho; now rewrite Hk in Ho]. cbv zeta in H |- *.
    set (s2 := match k_client k with Some _ => persist_in s (k_sess k) (KCtl ty flow id) | None => s end).
    replace (if match k_client k with Some _ => true | None => false end then persist_in s (k_sess k) (KCtl ty flow id) else s) with s2 in H
      by (unfold s2; now destruct (k_client k)).
    assert (K : keeps s s2) by (unfold s2; destruct (k_client k); [apply (keeps_persist_in s (k_sess k) (KCtl ty flow id))|apply keeps_refl]). clearbody s2.
    destruct (flow =? fRECEIVE) eqn:Hf; cbn [andb negb].
    + destruct (log_get E (v_log s2) _) as [[p|ty' f' i']|]; cbn [negb].
      * injection H as <-. rewrite <- Ho. apply keeps_open. eapply keeps_trans; [exact K|apply keeps_out].
      * injection H as <-. rewrite <- Ho. now apply keeps_open.
      * exact (close_open _ _ _ H).
    + rewrite <- Ho. destruct (flow =? fRECEIPT); injection H as <-; apply keeps_open; [|exact K]. eapply keeps_trans; [exact K|].
      eapply keeps_trans; [|apply keeps_out]. destruct (k_client k); [apply (keeps_persist s2 (k_sess k) (KCtl tPUBLISH fCOMPLETE id))|apply keeps_refl].
Qed.

(** ** Open connections *)
Lemma counts_same s s' n : (forall c, is_open s' c = is_open s c) -> counts_open s n -> counts_open s' n.
Proof. intros H (l & A & B & C). exists l. split; [exact A|]. split; [|exact C]. intros c. now rewrite H. Qed.
Lemma counts_less s s' c n : (forall q, q <> c -> is_open s' q = is_open s q) -> is_open s c = true -> is_open s' c = false ->
  counts_open s n -> counts_open s' (n - 1).
Proof.
  intros H H1 H2 (l & A & B & C). exists (remove N.eq_dec c l).
  assert (Hc : In c l) by now apply B.
  split; [|split].
  - clear - A. induction A as [|x l Hx A IH]; cbn [remove]; [constructor|]. destruct (N.eq_dec c x); [exact IH|]. constructor; [|exact IH].
    intros Hi. apply in_remove in Hi. now apply Hx.
  - intros q. split.
    + intros Hi. apply in_remove in Hi. destruct Hi as [Hi Hq]. rewrite H by exact Hq. now apply B.
    + intros Hq. assert (q <> c) by congruence. apply in_in_remove; [assumption|]. apply B. now rewrite <- H.
  - subst n. clear - A Hc. induction A as [|x l Hx A IH]; [contradiction|]. cbn [remove]. destruct (N.eq_dec c x) as [->|Hn].
    + rewrite notin_remove by exact Hx. cbn [length]. lia.
    + destruct Hc as [->|Hc]; [contradiction|]. cbn [length]. specialize (IH Hc). lia.
Qed.
Lemma counts_more s s' c n : (forall q, q <> c -> is_open s' q = is_open s q) -> is_open s c = false -> is_open s' c = true ->
  counts_open s n -> counts_open s' (n + 1).
Proof.
  intros H H1 H2 (l & A & B & C). exists (c :: l). assert (Hc : ~ In c l) by (intros Hc; apply B in Hc; congruence).
  split; [now constructor|]. split; [|cbn [length]; lia].
  intros q. cbn [In]. destruct (N.eq_dec q c) as [->|Hq].
  - split; [auto|now left].
  - rewrite H by exact Hq. rewrite <- B. split; [intros [E|Hi]; [congruence|exact Hi]|now right].
Qed.

(** The numbers of the connections are those given out since the server started. *)
Definition numbered (a : N) (s : server) : Prop := exists b j, j <= a /\ u32 (v_next s + 1) = u32 (b + (j + 1)) /\
  forall c k, aget (v_conns s) c = Some k -> exists i, 1 <= i <= j /\ c = u32 (b + i).
Lemma u32_apart b i j : 1 <= i -> i < j -> j <= 2 ^ 32 -> u32 (b + i) <> u32 (b + j).
Proof.
  intros H1 H2 H3. unfold u32. change (2 ^ 32) with 4294967296 in *. intros E.
  assert (exists q, j - i = 4294967296 * q) as [q Hq].
  { exists ((b + j) / 4294967296 - (b + i) / 4294967296). pose proof (N.div_mod (b + i) 4294967296). pose proof (N.div_mod (b + j) 4294967296).
    pose proof (N.div_le_mono (b + i) (b + j) 4294967296). lia. }
  lia.
Qed.
Lemma step_numbered E s ev s1 a : numbered a s -> swf s -> v_nsub s + asked_subs ev < 2 ^ 64 -> step E s ev = Some s1 -> numbered (a + accepts ev) s1.
Proof.
  intros (b & j & H1 & H2 & H3) W Hn H.
  assert (L : forall c, local c s s1 -> (exists k, aget (v_conns s) c = Some k) \/ (aget (v_conns s1) c = None) -> numbered (a + 0) s1).
  { intros c (L1 & _ & _ & L4) Hc. exists b, j. split; [lia|]. rewrite L4. split; [exact H2|]. intros q k Hk. destruct (N.eq_dec q c) as [->|Hq].
    - destruct Hc as [[k0 Hc]|Hc]; [exact (H3 _ _ Hc)|congruence].
    - specialize (L1 q Hq). rewrite Hk in L1. destruct (aget (v_conns s) q) as [k0|] eqn:E0; [|discriminate]. exact (H3 _ _ E0). }
  assert (Kp : keeps s s1 -> numbered (a + 0) s1).
  { intros K. apply (L 0); [now apply local_keeps|]. destruct K as (_ & _ & _ & D). specialize (D 0).
    destruct (aget (v_conns s) 0) as [k|]; [left; eauto|right]. now destruct (aget (v_conns s1) 0). }
  destruct ev as [|c q|i|c|c|n]; cbn [accepts].
  - cbn [step] in H. injection H as <-. exists b, (j + 1). split; [lia|]. cbn [v_next v_conns]. split.
    + rewrite H2. unfold u32. rewrite N.add_mod_idemp_l by (now vm_compute). f_equal. lia.
    + intros c k. rewrite aget_aput. destruct (N.eqb_spec c (u32 (v_next s + 1))) as [->|Hc].
      * intros _. exists (j + 1). split; [lia|exact H2].
      * intros Hk. destruct (H3 _ _ Hk) as (i & Hi & Ei). exists i. split; [lia|exact Ei].
  - cbn [step] in H. destruct (aget (v_conns s) c) as [k|] eqn:Hk; [|injection H as <-; apply Kp, keeps_refl].
    destruct (k_open k && negb (k_stuck k)); [|injection H as <-; apply Kp, keeps_refl].
    destruct (handle_wf _ _ _ _ _ W Hn H) as (_ & B & _). apply (L c B). left. eauto.
  - apply Kp. exact (keeps_run _ _ _ _ H).
  - cbn [step] in H. injection H as <-. apply Kp, keeps_send_batch.
  - cbn [step] in H. destruct (close_wf _ _ _ W H) as (_ & B & _). apply (L c B). destruct (aget (v_conns s) c) as [k|] eqn:Hk; [left; eauto|right].
    unfold close_conn in H. rewrite Hk in H. congruence.
  - cbn [step] in H. injection H as <-. exists n, 0. split; [lia|]. cbn [v_next v_conns]. split; [f_equal; lia|]. discriminate.
Qed.

Lemma close_count_open s c s1 m : swf s -> close_conn s c = Some s1 -> counts_open s (mt_conns m) -> counts_open s1 (mt_conns (close_count s c m)).
Proof.
  intros W H Hc. destruct (close_wf _ _ _ W H) as (_ & (L & _) & _). pose proof (close_open _ _ _ H) as Hf. unfold close_count.
  assert (Ls : is_open s c = false -> counts_open s1 (mt_conns m)).
  { intros Hs. apply (counts_same s); [|exact Hc]. intros q. destruct (N.eq_dec q c) as [->|Hq]; [congruence|]. apply face_open, L, Hq. }
  destruct (aget (v_conns s) c) as [k|] eqn:Hk; [|apply Ls; unfold is_open; now rewrite Hk].
  destruct (k_open k) eqn:Ho; [|apply Ls; unfold is_open; now rewrite Hk].
  cbn [count_by mt_conns]. replace (mt_conns m + -1)%Z with (mt_conns m - 1)%Z by lia. apply (counts_less s s1 c); [|unfold is_open; now rewrite Hk|exact Hf|exact Hc].
  intros q Hq. apply face_open, L, Hq.
Qed.
Lemma close_count_some s c m : is_open s c = true -> mt_conns (close_count s c m) = (mt_conns m - 1)%Z.
Proof. unfold is_open, close_count. destruct (aget (v_conns s) c) as [k|]; [|discriminate]. intros ->. cbn [count_by mt_conns]. lia. Qed.
Lemma step_open E s ev s1 a m : numbered a s -> a + accepts ev <= 2 ^ 32 -> swf s -> v_nsub s + asked_subs ev < 2 ^ 64 -> step E s ev = Some s1 ->
  counts_open s (mt_conns m) -> counts_open s1 (mt_conns (event_count E s ev m)).
Proof.
  intros Hnum Ha W Hn H Hc.
  assert (Kp : keeps s s1 -> counts_open s1 (mt_conns m)) by (intros K; apply (counts_same s); [intros c; now apply keeps_open|exact Hc]).
  destruct ev as [|c q|i|c|c|n]; cbn [event_count].
  - cbn [step] in H. injection H as <-. cbn [count_by mt_conns accepts] in *.
    destruct Hnum as (b & j & H1 & H2 & H3).
    apply (counts_more s _ (u32 (v_next s + 1))); [| | |exact Hc].
    + intros q Hq. unfold is_open. cbn [v_conns]. rewrite aget_aput. now destruct (N.eqb_spec q (u32 (v_next s + 1))).
    + unfold is_open. destruct (aget (v_conns s) (u32 (v_next s + 1))) as [k|] eqn:Hk; [|reflexivity]. exfalso.
      destruct (H3 _ _ Hk) as (i & Hi & Ei). rewrite H2 in Ei. symmetry in Ei. revert Ei. apply u32_apart; lia.
    + unfold is_open. cbn [v_conns]. now rewrite aget_aput, N.eqb_refl.
  - cbn [step] in H. destruct (aget (v_conns s) c) as [k|] eqn:Hk; [|injection H as <-; apply Kp, keeps_refl].
    destruct (k_open k) eqn:Ho; cbn [andb] in *; [|injection H as <-; apply Kp, keeps_refl].
    destruct (negb (k_stuck k)); [|injection H as <-; apply Kp, keeps_refl].
    assert (Hoc : is_open s c = true) by (unfold is_open; now rewrite Hk).
    pose proof (handle_open _ _ _ _ _ H Hoc) as Hf. destruct (handle_wf _ _ _ _ _ W Hn H) as (_ & (L & _) & _).
    assert (Em : mt_conns (packet_count E s c q m) = (if closes E s c q then mt_conns m - 1 else mt_conns m)%Z).
    { assert (G : packet_count E s c q m = (if closes E s c q then close_count s c m else m) -> mt_conns (packet_count E s c q m) = (if closes E s c q then mt_conns m - 1 else mt_conns m)%Z).
      { intros ->. destruct (closes E s c q); [now apply close_count_some|reflexivity]. }
      destruct q; try (apply G; reflexivity); cbn [packet_count count_by mt_conns closes]; lia. }
    rewrite Em. destruct (closes E s c q); cbn [negb] in Hf.
    + apply (counts_less s s1 c); auto. intros x Hx. apply face_open, L, Hx.
    + apply (counts_same s); [|exact Hc]. intros x. destruct (N.eq_dec x c) as [->|Hx]; [congruence|]. apply face_open, L, Hx.
  - apply Kp. exact (keeps_run _ _ _ _ H).
  - cbn [step] in H. injection H as <-. apply Kp, keeps_send_batch.
  - cbn [step] in H. exact (close_count_open _ _ _ _ W H Hc).
  - cbn [step] in H. injection H as <-. exists []. split; [constructor|]. split; [|reflexivity]. intros c. cbn. split; [contradiction|discriminate].
Qed.
Lemma mrun_run E : forall es s m s1 m1, mrun E (s, m) es = Some (s1, m1) -> run E s es = Some s1.
Proof.
  induction es as [|ev es IH]; intros s m s1 m1 H; cbn [mrun run] in *; [congruence|]. unfold mstep in H. cbn [fst snd] in H.
  destruct (step E s ev) as [s2|]; [|discriminate]. exact (IH _ _ _ _ H).
Qed.
Lemma conns_counted E : forall es s m s1 m1 a, mrun E (s, m) es = Some (s1, m1) -> numbered a s -> a + accepts_all es <= 2 ^ 32 -> swf s ->
  v_nsub s + asked_all es < 2 ^ 64 -> counts_open s (mt_conns m) -> counts_open s1 (mt_conns m1).
Proof.
  induction es as [|ev es IH]; intros s m s1 m1 a H Hnum Ha W Hn Hc; cbn [mrun] in H; [congruence|]. unfold mstep in H. cbn [fst snd] in H.
  destruct (step E s ev) as [s2|] eqn:F; [|discriminate].
  change (asked_all (ev :: es)) with (asked_subs ev + asked_all es) in Hn. change (accepts_all (ev :: es)) with (accepts ev + accepts_all es) in Ha.
  destruct (step_wf E s ev s2 W ltac:(lia) F) as (A & B & _).
  refine (IH _ _ _ _ (a + accepts ev) H _ _ A _ _); [|lia|lia|].
  - apply (step_numbered E s); auto. lia.
  - apply (step_open E s ev s2 a); auto; lia.
Qed.
Lemma conns_ok E n es s m : mrun E (server_new n, meter_new) es = Some (s, m) -> accepts_all es <= 2 ^ 32 -> asked_all es < 2 ^ 64 ->
  counts_open s (mt_conns m).
Proof.
  intros H Ha Hn. refine (conns_counted E es _ _ _ _ 0 H _ ltac:(lia) (wf_new n) ltac:(cbn [server_new v_nsub]; lia) _).
  - exists n, 0. split; [lia|]. cbn [server_new v_next v_conns]. split; [f_equal; lia|]. discriminate.
  - exists []. split; [constructor|]. split; [|reflexivity]. intros c. cbn. split; [contradiction|discriminate].
Qed.
