(** Proofs about connections of a cluster that end. *)
From Coq Require Import Lia ZifyBool ZifyNat ZifyN.
From Verif Require Import M_Bytes P_Bytes M_Keys M_MsgIds M_Conn S_Conn S_SubLife P_Conn P_SubLife M_Route S_Route P_Client P_Route S_Gone.
From Verif Require M_Subs.
Open Scope N_scope.

(** ** What leaves connection [c] alone *)
Definition fr (c : N) (s s' : server) : Prop :=
  option_map face (aget (v_conns s') c) = option_map face (aget (v_conns s) c) /\
  forall x, In x (v_subs s') -> s_conn x = c -> In x (v_subs s).
Lemma fr_refl c s : fr c s s.
Proof. split; auto. Qed.
Lemma fr_trans c a b d : fr c a b -> fr c b d -> fr c a d.
Proof. intros [A1 A2] [B1 B2]. split; [congruence|auto]. Qed.
Lemma fr_keeps c s s' : keeps s s' -> fr c s s'.
Proof. intros (A & _ & _ & D). split; [apply D|]. rewrite A. auto. Qed.
Lemma fr_put c c' s k l n t nx : c' <> c -> (forall x, In x l -> s_conn x = c -> In x (v_subs s)) ->
  fr c s (mkV (v_log s) (aput (v_conns s) c' k) l t nx n).
Proof. intros H I. split; [|exact I]. cbn [v_conns]. rewrite aget_aput. destruct (N.eqb_spec c c'); [congruence|reflexivity]. Qed.
Lemma fr_set c c' s k : c' <> c -> fr c s (set_conn s c' k).
Proof. intros H. apply fr_put; auto. Qed.
Lemma fr_on c c' s f : c' <> c -> fr c s (on_conn s c' f).
Proof. intros H. unfold on_conn. destruct (aget (v_conns s) c'); [now apply fr_set|apply fr_refl]. Qed.
Lemma fr_moves E c c' q s s' : c' <> c -> moves E c' q s s' -> fr c s s'.
Proof.
  intros Hc M. induction M as [s|s1 s2 s3 _ IH1 _ IH2|s mode delay m s1 r H _|s ty flow id|s|s k st subs n Hk _ I|s k st n x Hk Hx|s k id p m t _ _ _ _ _].
  - apply fr_refl.
  - eapply fr_trans; eassumption.
  - eapply fr_keeps, keeps_send; exact H.
  - apply fr_keeps, keeps_out.
  - now apply fr_on.
  - apply fr_put; [assumption|]. auto.
  - apply fr_put; [assumption|]. intros z [<-|Hz] Ez; [|exact Hz]. exfalso. apply Hc. rewrite <- Ez. symmetry. apply Hx.
  - apply fr_keeps, keeps_tasks.
Qed.
Lemma fr_close c c' s s1 : c' <> c -> close_conn s c' = Some s1 -> fr c s s1.
Proof.
  intros Hc H. unfold close_conn in H. destruct (aget (v_conns s) c') as [k|]; [|injection H as <-; apply fr_refl].
  destruct (negb (k_open k)); [injection H as <-; apply fr_refl|].
  destruct (k_subs k); [injection H as <-; now apply fr_set|]. destruct (k_client k); [|discriminate]. injection H as <-.
  match goal with |- fr c s (set_conn (mkV _ _ ?l _ _ _) _ _) => apply (fr_put c c' s (set_closed k) l (v_nsub s) (v_tasks s) (v_next s) Hc) end.
  intros x Hx _. apply filter_In in Hx. apply Hx.
Qed.
Lemma fr_handle E c c' q s s1 : c' <> c -> handle E s c' q = Some s1 -> fr c s s1.
Proof.
  intros Hc H. destruct q as [who ins cl key|l id|l id|p|l id| |ty flow id];
    try (eapply fr_moves, handle_moves; [exact Hc| |exact H]; exact I).
  - cbn [handle] in H. destruct who as [|idn ca|idn]; [discriminate| |].
    + destruct (keeps_connect _ _ _ _ _ _ _ _ _ H) as (A & _ & _ & D & _). split; [apply D; congruence|]. rewrite A. auto.
    + unfold on_connect_msg in H. destruct (say _ c' _) as [s2|] eqn:F; [|discriminate].
      assert (K : fr c s s2).
      { apply fr_keeps. eapply keeps_trans; [|exact (keeps_say _ _ _ _ F)]. eapply keeps_trans; [|apply keeps_out]. now apply keeps_on. }
      destruct (is_stuck s2 c'); [injection H as <-; exact K|]. eapply fr_trans; [exact K|]. eapply fr_close; eassumption.
  - cbn [handle] in H. unfold on_flow in H. destruct (aget (v_conns s) c') as [k|] eqn:Hk; [|injection H as <-; apply fr_refl]. cbv zeta in H.
    set (s2 := if match k_client k with Some _ => true | None => false end then persist_in s (k_sess k) (KCtl ty flow id) else s) in *.
    assert (K : keeps s s2) by (unfold s2; destruct (k_client k); [apply (keeps_persist_in s (k_sess k) (KCtl ty flow id))|apply keeps_refl]). clearbody s2.
    destruct (flow =? fRECEIVE).
    + destruct (log_get E (v_log s2) _) as [[p|ty' f' i']|].
      * injection H as <-. apply fr_keeps. eapply keeps_trans; [exact K|apply keeps_out].
      * injection H as <-. now apply fr_keeps.
      * eapply fr_trans; [apply fr_keeps; exact K|]. eapply fr_close; eassumption.
    + destruct (flow =? fRECEIPT); injection H as <-; [|now apply fr_keeps]. apply fr_keeps. eapply keeps_trans; [exact K|].
      eapply keeps_trans; [|apply keeps_out]. destruct (k_client k); [apply (keeps_persist s2 (k_sess k) (KCtl tPUBLISH fCOMPLETE id))|apply keeps_refl].
Qed.
Lemma fr_own c kc b s s' : fr c s s' -> own c kc b s -> own c kc b s'.
Proof. intros [A B]. now apply own_same. Qed.

(** ** The same for nodes *)
Record nfr (c : N) (x x' : cnode) : Prop := {
  n_srv : fr c (cn_srv x) (cn_srv x');
  n_rem : aget (cn_remote x') c = aget (cn_remote x) c;
  n_told : forall d, In (c, d) (cn_told x') <-> In (c, d) (cn_told x) }.
Definition gfr (c : N) (G G' : net) : Prop := forall n, nfr c (G n) (G' n).
Lemma nfr_refl c x : nfr c x x.
Proof. split; [apply fr_refl|reflexivity|reflexivity]. Qed.
Lemma nfr_trans c a b d : nfr c a b -> nfr c b d -> nfr c a d.
Proof.
  intros [A1 A2 A3] [B1 B2 B3]. split; [eapply fr_trans; eassumption|congruence|]. intros z. rewrite B3. apply A3.
Qed.
Lemma gfr_refl c G : gfr c G G.
Proof. intros n. apply nfr_refl. Qed.
Lemma gfr_trans c a b d : gfr c a b -> gfr c b d -> gfr c a d.
Proof. intros A B n. eapply nfr_trans; [apply A|apply B]. Qed.
Lemma gfr_put c G n x : nfr c (G n) x -> gfr c G (put_node G n x).
Proof. intros H m. destruct (Nat.eq_dec m n) as [->|D]; [now rewrite put_same|]. rewrite put_other by assumption. apply nfr_refl. Qed.
Lemma nfr_srv c x s : fr c (cn_srv x) s -> nfr c x (set_srv s x).
Proof. intros H. split; [exact H|reflexivity|reflexivity]. Qed.
Lemma gfr_lift c G n r G' : (forall s, r = Some s -> fr c (cn_srv (G n)) s) -> lift G n r = Some G' -> gfr c G G'.
Proof.
  intros H L. destruct r as [s|]; [|discriminate]. cbn [lift] in L.
  assert (X : G' = put_node G n (set_srv s (G n))) by (injection L as <-; reflexivity). rewrite X.
  apply gfr_put, nfr_srv. now apply H.
Qed.
Lemma in_adel {V} (l : list (N * V)) c c' d : c <> c' -> In (c, d) (adel l c') <-> In (c, d) l.
Proof.
  intros H. unfold adel. rewrite filter_In. cbn [fst]. split; [tauto|]. intros Hd. split; [exact Hd|]. destruct (N.eqb_spec c c'); [contradiction|reflexivity].
Qed.
Lemma live_some s c k : live s c = Some k -> aget (v_conns s) c = Some k /\ k_open k = true.
Proof. unfold live. destruct (aget (v_conns s) c) as [k0|]; [|discriminate]. destruct (k_open k0) eqn:F; [|discriminate]. intros [= ->]. auto. Qed.

Section OTHERS.
  Variable RC : rings.
  Variable E : env.
  Variable c : N.
  Lemma master_moves (s : server) c' q s3 :
    (match q with
     | QSub l i => each (fun s y => sub_one E s c' i y) s c' l
     | QUnsub l i => each (fun s y => unsub_one E s c' i y) s c' l
     | QPub p => option_map fst (pub_msgs E s c' p (p_msgs p))
     | _ => Some s
     end) = Some s3 -> moves E c' q s s3.
  Proof.
    intros F. destruct q as [who ins cl key|l i|l i|p|l i| |ty flow i]; cbn in F; try (injection F as <-; apply mv_refl).
    - eapply (each_moves _ _ _ _ _ l l); [|easy|exact F]. intros s0 z s1 Hz. now apply sub_moves.
    - eapply (each_moves _ _ _ _ _ l l); [|easy|exact F]. intros s0 z s1 Hz. now apply unsub_moves.
    - destruct (pub_msgs E _ c' p (p_msgs p)) as [[s4 b]|] eqn:G; [|discriminate]. cbn in F. injection F as <-. now apply pub_moves in G.
  Qed.
  Lemma master_fr x o c' sess id q y : c' <> c -> master E x o c' sess id q = Some y -> nfr c x y.
  Proof.
    intros Hc H. unfold master in H.
    set (sr := match live (cn_srv x) c' with Some _ => (cn_srv x, cn_remote x) | None => (set_conn (cn_srv x) c' (rpc_conn sess id), aput (cn_remote x) c' o) end) in H.
    assert (A : fr c (cn_srv x) (fst sr) /\ aget (snd sr) c = aget (cn_remote x) c).
    { unfold sr. destruct (live (cn_srv x) c'); cbn [fst snd]; [split; [apply fr_refl|reflexivity]|]. split; [now apply fr_set|].
      rewrite aget_aput. destruct (N.eqb_spec c c'); [congruence|reflexivity]. }
    destruct sr as [sa ra]. cbn [fst snd] in A. destruct A as [A1 A2].
    match type of H with match ?t with _ => _ end = _ => destruct t as [s3|] eqn:F; [|discriminate] end.
    apply master_moves in F. injection H as <-. split; cbn [started cn_srv cn_remote cn_told]; [|exact A2|reflexivity].
    eapply fr_trans; [exact A1|]. eapply fr_trans; [apply (fr_on c c' sa (set_client id) Hc)|]. exact (fr_moves _ _ _ _ _ _ Hc F).
  Qed.
  Lemma route_fr G n c' k id q G' b : c' <> c -> route RC E G n c' k id q = Some (G', b) -> gfr c G G'.
  Proof.
    intros Hc H. unfold route in H. set (m := rc_ring RC n (id_contract id)) in *.
    set (x1 := mkCN (cn_srv (G n)) (cn_fwd (G n)) (cn_remote (G n)) _) in H.
    assert (A : gfr c G (put_node G n x1)).
    { apply gfr_put. split; [apply fr_refl|reflexivity|]. intros d. cbn [x1 cn_told In]. split; [|auto]. intros [[=]|]; congruence. }
    destruct (rc_agree RC n m).
    - destruct (master E (put_node G n x1 m) n c' (k_sess k) id q) as [y|] eqn:F; [|discriminate].
      assert (X : G' = put_node (put_node G n x1) m y) by (injection H as <- _; reflexivity). rewrite X.
      eapply gfr_trans; [exact A|]. apply gfr_put. exact (master_fr _ _ _ _ _ _ _ Hc F).
    - assert (X : G' = put_node G n x1) by (injection H as <- _; reflexivity). now rewrite X.
  Qed.
  Lemma sub_net_fr n c' l i G x G' : In x l -> c' <> c -> sub_net RC E n c' l i G x = Some G' -> gfr c G G'.
  Proof.
    intros Hin Hc H. unfold sub_net in H.
    assert (Here : lift G n (sub_one E (cn_srv (G n)) c' i x) = Some G' -> gfr c G G').
    { apply gfr_lift. intros s Hs. apply (sub_moves E l) in Hs; [|assumption]. exact (fr_moves _ _ _ _ _ _ Hc Hs). }
    destruct (aget (v_conns (cn_srv (G n))) c') as [k|] eqn:Hk; [|assert (X : G' = G) by (injection H as <-; reflexivity); subst; apply gfr_refl].
    destruct (check_sub k (fst (fst x))); try (apply Here; exact H). destruct (k_client k) as [cl|] eqn:Hcl; [|apply Here; exact H].
    match type of H with match ?t with _ => _ end = _ => destruct t as [ky|]; [|apply Here; exact H] end.
    destruct (M_Subs.exist (k_subs k) ky && is_remote RC n cl); [|apply Here; exact H].
    destruct (route RC E G n c' k cl (QSub l i)) as [[G1 b]|] eqn:R; [|discriminate]. apply route_fr in R; [|assumption].
    destruct b; [assert (X : G' = G1) by (injection H as <-; reflexivity); now subst|].
    eapply gfr_trans; [exact R|]. eapply gfr_lift; [|exact H]. intros s Hs. apply fr_keeps. exact (keeps_say _ _ _ _ Hs).
  Qed.
  Lemma unsub_net_fr n c' l i G x G' : c' <> c -> unsub_net RC E n c' l i G x = Some G' -> gfr c G G'.
  Proof.
    intros Hc H. unfold unsub_net in H.
    destruct (aget (v_conns (cn_srv (G n))) c') as [k|] eqn:Hk; [|assert (X : G' = G) by (injection H as <-; reflexivity); subst; apply gfr_refl].
    destruct (lift G n (unsub_one E (cn_srv (G n)) c' i x)) as [G1|] eqn:F; [|discriminate].
    assert (A : gfr c G G1).
    { eapply gfr_lift; [|exact F]. intros s Hs. apply (unsub_moves E QPing) in Hs. exact (fr_moves _ _ _ _ _ _ Hc Hs). }
    assert (Here : Some G1 = Some G' -> gfr c G G') by (intro Y; assert (X : G' = G1) by (injection Y as <-; reflexivity); now subst).
    destruct (check_sub k x); try (apply Here; exact H). destruct (k_client k) as [cl|] eqn:Hcl; [|apply Here; exact H].
    destruct (is_remote RC n cl); [|apply Here; exact H].
    destruct (route RC E G1 n c' k cl (QUnsub l i)) as [[G2 b]|] eqn:R; [|discriminate]. apply route_fr in R; [|assumption].
    destruct b; [assert (X : G' = G2) by (injection H as <-; reflexivity); subst; eapply gfr_trans; eassumption|].
    eapply gfr_trans; [exact A|]. eapply gfr_trans; [exact R|]. eapply gfr_lift; [|exact H]. intros s Hs. apply fr_keeps. exact (keeps_say _ _ _ _ Hs).
  Qed.
  Lemma each_net_fr T (f : net -> T -> option net) n c' (l l' : list T) :
    (forall G x G', In x l -> f G x = Some G' -> gfr c G G') -> incl l' l ->
    forall G G', each_net f G n c' l' = Some G' -> gfr c G G'.
  Proof.
    intros Hf. induction l' as [|x l' IH]; intros Hi G G' H; cbn in H.
    - assert (X : G' = G) by (injection H as <-; reflexivity). subst. apply gfr_refl.
    - destruct (is_stuck (cn_srv (G n)) c'); [assert (X : G' = G) by (injection H as <-; reflexivity); subst; apply gfr_refl|].
      destruct (f G x) as [G1|] eqn:F; [|discriminate].
      eapply gfr_trans; [exact (Hf _ _ _ (Hi x (or_introl eq_refl)) F)|]. exact (IH (fun y Hy => Hi y (or_intror Hy)) _ _ H).
  Qed.
  Lemma ack_net_fr G n c' pk : gfr c G (ack_net G n c' pk).
  Proof. unfold ack_net. apply gfr_put, nfr_srv, fr_keeps, keeps_ack. Qed.
  Lemma handle_net_fr G n c' q G' : c' <> c -> handle_net RC E G n c' q = Some G' -> gfr c G G'.
  Proof.
    intros Hc H.
    assert (D : match lift G n (handle E (cn_srv (G n)) c' q) with
         | Some G1 => Some (put_node G1 n (started false (G1 n)))
         | None => None
         end = Some G' -> gfr c G G').
    { intros Y. destruct (lift G n _) as [G1|] eqn:F; [|discriminate].
      assert (X : G' = put_node G1 n (started false (G1 n))) by (injection Y as <-; reflexivity). rewrite X.
      eapply gfr_trans; [eapply gfr_lift; [|exact F]; intros s Hs; exact (fr_handle _ _ _ _ _ _ Hc Hs)|].
      apply gfr_put. split; [apply fr_refl|reflexivity|reflexivity]. }
    destruct q as [who ins cl key|l i|l i|p|l i| |ty flow i]; cbn [handle_net] in H; try (apply D; exact H); clear D.
    - destruct (each_net _ G n c' l) as [G1|] eqn:F; [|discriminate]. cbn [option_map] in H.
      assert (X : G' = ack_net G1 n c' (KCtl tSUBSCRIBE fACK i)) by (injection H as <-; reflexivity). rewrite X.
      eapply gfr_trans; [|apply ack_net_fr]. eapply (each_net_fr _ _ n c' l l); [|easy|exact F]. intros G0 x G2 Hx. now apply sub_net_fr.
    - destruct (each_net _ G n c' l) as [G1|] eqn:F; [|discriminate]. cbn [option_map] in H.
      assert (X : G' = ack_net G1 n c' (KCtl tUNSUBSCRIBE fACK i)) by (injection H as <-; reflexivity). rewrite X.
      eapply gfr_trans; [|apply ack_net_fr]. eapply (each_net_fr _ _ n c' l l); [|easy|exact F]. intros G0 x G2 Hx. now apply unsub_net_fr.
  Qed.
  Lemma gone_fr x c' : c' <> c -> nfr c x (gone x c').
  Proof.
    intros Hc. unfold gone. destruct (aget (cn_remote x) c'); [|apply nfr_refl]. destruct (live (cn_srv x) c') as [k|]; [|apply nfr_refl].
    apply nfr_srv. apply fr_put; [assumption|]. intros y Hy _. apply filter_In in Hy. apply Hy.
  Qed.
End OTHERS.

(** ** The connection itself *)
Definition nosub (c : N) (s : server) : Prop := forall x, In x (v_subs s) -> s_conn x <> c.
Lemma fr_nosub c s s' : fr c s s' -> nosub c s -> nosub c s'.
Proof. intros [_ F] H x Hx Ex. exact (H _ (F _ Hx Ex) Ex). Qed.
Lemma fr_live c s s' : fr c s s' -> live s c = None -> live s' c = None.
Proof.
  intros [F _]. unfold live. destruct (aget (v_conns s) c) as [k|], (aget (v_conns s') c) as [k'|]; try discriminate; auto.
  cbn [option_map] in F. assert (Hf : face k' = face k) by congruence. apply face_subs in Hf. destruct Hf as (_ & -> & _). now destruct (k_open k).
Qed.
Lemma fr_absent c s s' : fr c s s' -> aget (v_conns s) c = None -> aget (v_conns s') c = None.
Proof. intros [F _] H. rewrite H in F. destruct (aget (v_conns s') c); [discriminate|reflexivity]. Qed.
(** it has an identifier *)
Definition named (c : N) (s : server) : Prop := forall k, aget (v_conns s) c = Some k -> k_client k <> None.
Lemma fr_named c s s' : fr c s s' -> named c s -> named c s'.
Proof.
  intros [F _] H k Hk. rewrite Hk in F. destruct (aget (v_conns s) c) as [k0|] eqn:Hk0; [|discriminate]. cbn [option_map] in F.
  assert (Hf : face k = face k0) by congruence. apply face_subs in Hf. destruct Hf as (_ & _ & ->). now apply H.
Qed.
Lemma own_live c kc s : own c kc true s -> exists k, live s c = Some k.
Proof. intros (k & Hk & Ho & _). exists k. unfold live. now rewrite Hk, Ho. Qed.
Lemma own_closed c kc s : own c kc false s -> nosub c s.
Proof. intros (k & _ & _ & _ & _ & H) x Hx Ex. destruct (H _ Hx Ex) as [D _]. discriminate. Qed.

Section CONN.
  Variable RC : rings.
  Variable E : env.
  Variable ES : list cevent.
  Variable A : nat -> N -> Prop.
  Hypothesis A1 : forall n m c, A n c -> A m c -> n = m.
  Variable o : nat.
  Variable c kc : N.
  Hypothesis Ao : A o c.
  Let m : nat := rc_ring RC o kc.

  (** at a node that is not [o] *)
  Inductive away (G : net) (n : nat) : Prop :=
  | aw_none : nosub c (cn_srv (G n)) -> live (cn_srv (G n)) c = None -> away G n
  | aw_own : n = m -> own c kc true (cn_srv (G n)) -> named c (cn_srv (G n)) -> aget (cn_remote (G n)) c <> None -> In (c, m) (cn_told (G o)) -> away G n.
  Record here_ok (b : bool) (G : net) : Prop := {
    h_own : own c kc b (cn_srv (G o));
    h_told : forall d, In (c, d) (cn_told (G o)) -> d = m;
    h_away : forall n, n <> o -> away G n }.

  Lemma here_gfr b G G' : gfr c G G' -> here_ok b G -> here_ok b G'.
  Proof.
    intros F [H1 H2 H3]. split.
    - eapply fr_own; [apply (F o)|exact H1].
    - intros d Hd. apply H2. now apply (n_told _ _ _ (F o)).
    - intros n Hn. destruct (H3 n Hn) as [P Q|P Q M R S].
      + apply aw_none; [eapply fr_nosub; [apply (F n)|exact P]|eapply fr_live; [apply (F n)|exact Q]].
      + apply aw_own; [exact P|eapply fr_own; [apply (F n)|exact Q]|eapply fr_named; [apply (F n)|exact M]| |now apply (n_told _ _ _ (F o))].
        rewrite (n_rem _ _ _ (F n)). exact R.
  Qed.
  (** only node [o] changed *)
  Lemma here_put b b' G x : here_ok b G -> own c kc b' (cn_srv x) -> cn_told x = cn_told (G o) -> here_ok b' (put_node G o x).
  Proof.
    intros [H1 H2 H3] Hx Ht. split.
    - now rewrite put_same.
    - rewrite put_same, Ht. exact H2.
    - intros n Hn. destruct (H3 n Hn) as [P Q|P Q M R S].
      + apply aw_none; rewrite put_other by assumption; assumption.
      + apply aw_own; rewrite ?put_same, ?(put_other G o x n) by assumption; try assumption. now rewrite Ht.
  Qed.
  Lemma here_lift b b' G r G' : (forall s, r = Some s -> own c kc b' s) -> lift G o r = Some G' -> here_ok b G -> here_ok b' G'.
  Proof.
    intros Hr L H. destruct r as [s|]; [|discriminate]. cbn [lift] in L.
    assert (X : G' = put_node G o (set_srv s (G o))) by (injection L as <-; reflexivity). rewrite X.
    eapply here_put; [exact H|now apply Hr|reflexivity].
  Qed.
  Lemma own_client b s id : own c kc b s -> id_contract id = kc -> own c kc b (on_conn s c (set_client id)).
  Proof.
    intros (k & Hk & Ho & Hcl & Hct & Hown) Hid. exists (set_client id k). unfold on_conn. rewrite Hk.
    split; [rewrite get_set, N.eqb_refl; reflexivity|]. cbn [set_client k_open k_client k_subs set_conn v_subs].
    split; [exact Ho|]. split; [intros i [= <-]; exact Hid|]. split; [exact Hct|exact Hown].
  Qed.
  Lemma master_own x sess id q y : master E x o c sess id q = Some y -> id_contract id = kc ->
    (nosub c (cn_srv x) /\ live (cn_srv x) c = None) \/ own c kc true (cn_srv x) /\ aget (cn_remote x) c <> None ->
    own c kc true (cn_srv y) /\ named c (cn_srv y) /\ aget (cn_remote y) c <> None.
  Proof.
    intros H Hid Hx. unfold master in H.
    set (sr := match live (cn_srv x) c with Some _ => (cn_srv x, cn_remote x) | None => (set_conn (cn_srv x) c (rpc_conn sess id), aput (cn_remote x) c o) end) in H.
    assert (B : own c kc true (fst sr) /\ aget (snd sr) c <> None).
    { unfold sr. destruct Hx as [[H1 H2]|[H1 H2]].
      - rewrite H2. cbn [fst snd]. split; [|rewrite aget_aput, N.eqb_refl; discriminate].
        exists (rpc_conn sess id). split; [rewrite get_set, N.eqb_refl; reflexivity|]. cbn [rpc_conn k_open k_client k_subs set_conn v_subs].
        split; [reflexivity|]. split; [intros i [= <-]; exact Hid|]. split; [discriminate|]. intros z Hz Ez. exfalso. exact (H1 _ Hz Ez).
      - destruct (own_live _ _ _ H1) as (k & ->). cbn [fst snd]. auto. }
    destruct sr as [sa ra]. cbn [fst snd] in B. destruct B as [B1 B2].
    apply (own_client _ _ _ B1) in Hid.
    assert (Hn : named c (on_conn sa c (set_client id))).
    { intros k. rewrite get_on, N.eqb_refl. destruct (aget (v_conns sa) c); [|discriminate]. intros [= <-]. discriminate. }
    set (s2 := on_conn sa c (set_client id)) in *. clearbody s2.
    match type of H with match ?t with _ => _ end = _ => destruct t as [s3|] eqn:F; [|discriminate] end.
    injection H as <-. cbn [started cn_srv cn_remote]. split; [|split; [|exact B2]].
    2:{ apply master_moves, kc_moves in F. destruct F as [F _]. intros k Hk. destruct (F _ _ Hk) as (k0 & Hk0 & ->). now apply Hn. }
    destruct q as [who ins cl key|l i|l i|p|l i| |ty flow i]; cbn in F; try (injection F as <-; exact Hid).
    - refine (each_own _ c kc true _ _ _ _ Hid F). intros a z b. apply sub_one_own.
    - refine (each_own _ c kc true _ _ _ _ Hid F). intros a z b. apply unsub_one_own.
    - destruct (pub_msgs E s2 c p (p_msgs p)) as [[s4 b]|] eqn:G; [|discriminate]. cbn in F. injection F as <-.
      exact (own_keeps _ _ _ _ _ (keeps_pub _ _ _ _ _ _ _ G) Hid).
  Qed.
  Lemma route_here b G k id q G' t : here_ok b G -> id_contract id = kc -> is_remote RC o id = true ->
    route RC E G o c k id q = Some (G', t) -> here_ok b G'.
  Proof.
    intros [H1 H2 H3] Hid Hr H. unfold route in H. unfold is_remote in Hr. rewrite Hid in *. fold m in H, Hr.
    assert (D : m <> o) by lia. set (x1 := mkCN (cn_srv (G o)) (cn_fwd (G o)) (cn_remote (G o)) _) in H.
    assert (B : here_ok b (put_node G o x1)).
    { split; rewrite ?put_same; [exact H1|cbn [x1 cn_told]; intros d [[= <-]|Hd]; [reflexivity|now apply H2]|].
      intros n Hn. destruct (H3 n Hn) as [P Q|P Q M R S].
      - apply aw_none; rewrite put_other by assumption; assumption.
      - apply aw_own; rewrite ?put_same, ?(put_other G o x1 n) by assumption; try assumption. now right. }
    destruct (rc_agree RC o m).
    - destruct (master E (put_node G o x1 m) o c (k_sess k) id q) as [y|] eqn:F; [|discriminate].
      assert (X : G' = put_node (put_node G o x1) m y) by (injection H as <- _; reflexivity). rewrite X.
      rewrite put_other in F by assumption.
      destruct (master_own _ _ _ _ _ F Hid) as (Y1 & Y3 & Y2).
      { destruct (H3 m D) as [P Q|P Q M R S]; auto. }
      destruct B as [B1 B2 B3]. split.
      + rewrite put_other by lia. exact B1.
      + rewrite put_other by lia. exact B2.
      + intros n Hn. destruct (Nat.eq_dec n m) as [->|Dn].
        * apply aw_own; rewrite ?put_same; auto. rewrite put_other, put_same by lia. now left.
        * destruct (B3 n Hn) as [P Q|P Q M R S]; [|contradiction]. apply aw_none; rewrite put_other by assumption; assumption.
    - assert (X : G' = put_node G o x1) by (injection H as <- _; reflexivity). now rewrite X.
  Qed.
  Lemma own_contract b s k id : own c kc b s -> aget (v_conns s) c = Some k -> k_client k = Some id -> id_contract id = kc.
  Proof. intros (k0 & Hk0 & _ & Hcl & _) Hk Hid. rewrite Hk in Hk0. injection Hk0 as <-. now apply Hcl. Qed.
  Lemma sub_net_here l i G x G' : here_ok true G -> sub_net RC E o c l i G x = Some G' -> here_ok true G'.
  Proof.
    intros H0 H. unfold sub_net in H.
    assert (Here : lift G o (sub_one E (cn_srv (G o)) c i x) = Some G' -> here_ok true G').
    { intros L. eapply here_lift; [|exact L|exact H0]. intros s Hs. eapply sub_one_own; [apply (h_own _ _ H0)|exact Hs]. }
    destruct (aget (v_conns (cn_srv (G o))) c) as [k|] eqn:Hk; [|assert (X : G' = G) by (injection H as <-; reflexivity); now subst].
    destruct (check_sub k (fst (fst x))); try (apply Here; exact H). destruct (k_client k) as [cl|] eqn:Hcl; [|apply Here; exact H].
    match type of H with match ?t with _ => _ end = _ => destruct t as [ky|]; [|apply Here; exact H] end.
    destruct (M_Subs.exist (k_subs k) ky && is_remote RC o cl) eqn:B; [|apply Here; exact H]. apply andb_prop in B. destruct B as [_ B].
    destruct (route RC E G o c k cl (QSub l i)) as [[G1 b]|] eqn:R; [|discriminate].
    apply (route_here true) in R; [|exact H0|eapply own_contract; [apply (h_own _ _ H0)|exact Hk|exact Hcl]|exact B].
    destruct b; [assert (X : G' = G1) by (injection H as <-; reflexivity); now subst|].
    eapply here_gfr; [|exact R]. eapply gfr_lift; [|exact H]. intros s Hs. apply fr_keeps. exact (keeps_say _ _ _ _ Hs).
  Qed.
  Lemma unsub_net_here l i G x G' : here_ok true G -> unsub_net RC E o c l i G x = Some G' -> here_ok true G'.
  Proof.
    intros H0 H. unfold unsub_net in H.
    destruct (aget (v_conns (cn_srv (G o))) c) as [k|] eqn:Hk; [|assert (X : G' = G) by (injection H as <-; reflexivity); now subst].
    destruct (lift G o (unsub_one E (cn_srv (G o)) c i x)) as [G1|] eqn:F; [|discriminate].
    assert (B : here_ok true G1).
    { eapply here_lift; [|exact F|exact H0]. intros s Hs. eapply unsub_one_own; [apply (h_own _ _ H0)|exact Hs]. }
    assert (Here : Some G1 = Some G' -> here_ok true G') by (intro Y; assert (X : G' = G1) by (injection Y as <-; reflexivity); now subst).
    destruct (check_sub k x); try (apply Here; exact H). destruct (k_client k) as [cl|] eqn:Hcl; [|apply Here; exact H].
    destruct (is_remote RC o cl) eqn:Fr; [|apply Here; exact H].
    destruct (route RC E G1 o c k cl (QUnsub l i)) as [[G2 b]|] eqn:R; [|discriminate].
    apply (route_here true) in R; [|exact B|eapply own_contract; [apply (h_own _ _ H0)|exact Hk|exact Hcl]|exact Fr].
    destruct b; [assert (X : G' = G2) by (injection H as <-; reflexivity); now subst|].
    eapply here_gfr; [|exact R]. eapply gfr_lift; [|exact H]. intros s Hs. apply fr_keeps. exact (keeps_say _ _ _ _ Hs).
  Qed.
  Lemma each_net_here T (f : net -> T -> option net) (l : list T) :
    (forall G x G', here_ok true G -> f G x = Some G' -> here_ok true G') ->
    forall G G', here_ok true G -> each_net f G o c l = Some G' -> here_ok true G'.
  Proof.
    intros Hf. induction l as [|x l IH]; intros G G' H0 H; cbn in H.
    - assert (X : G' = G) by (injection H as <-; reflexivity). now subst.
    - destruct (is_stuck (cn_srv (G o)) c); [assert (X : G' = G) by (injection H as <-; reflexivity); now subst|].
      destruct (f G x) as [G1|] eqn:F; [|discriminate]. exact (IH _ _ (Hf _ _ _ H0 F) H).
  Qed.
  Lemma handle_net_here G q G' : here_ok true G -> c_one_contract o c kc (CPacket o c q) -> handle_net RC E G o c q = Some G' ->
    exists b, here_ok b G'.
  Proof.
    intros H0 Ho H.
    assert (D : match lift G o (handle E (cn_srv (G o)) c q) with
         | Some G1 => Some (put_node G1 o (started false (G1 o)))
         | None => None
         end = Some G' -> exists b, here_ok b G').
    { intros Y. destruct (handle E (cn_srv (G o)) c q) as [s|] eqn:F; [|discriminate]. cbn [lift] in Y.
      destruct (handle_own E _ c kc q s (h_own _ _ H0)) as (b & O); [|exact F|].
      - destruct q as [[| |]| | | | | |]; cbn in Ho |- *; auto.
      - exists b. rewrite put_same in Y.
        assert (X : G' = put_node (put_node G o (set_srv s (G o))) o (started false (set_srv s (G o)))) by (injection Y as <-; reflexivity). rewrite X.
        eapply here_put; [eapply here_put; [exact H0|exact O|reflexivity]|exact O|]. now rewrite put_same. }
    destruct q as [who ins cl key|l i|l i|p|l i| |ty flow i]; cbn [handle_net] in H; try (apply D; exact H); clear D.
    - destruct (each_net _ G o c l) as [G1|] eqn:F; [|discriminate]. cbn [option_map] in H.
      assert (X : G' = ack_net G1 o c (KCtl tSUBSCRIBE fACK i)) by (injection H as <-; reflexivity). rewrite X.
      exists true. eapply here_gfr; [apply ack_net_fr|]. eapply each_net_here; [|exact H0|exact F]. intros G0 x G2. apply sub_net_here.
    - destruct (each_net _ G o c l) as [G1|] eqn:F; [|discriminate]. cbn [option_map] in H.
      assert (X : G' = ack_net G1 o c (KCtl tUNSUBSCRIBE fACK i)) by (injection H as <-; reflexivity). rewrite X.
      exists true. eapply here_gfr; [apply ack_net_fr|]. eapply each_net_here; [|exact H0|exact F]. intros G0 x G2. apply unsub_net_here.
  Qed.
  (** the owner is told *)
  Lemma gone_none x : (nosub c (cn_srv x) /\ live (cn_srv x) c = None) \/ own c kc true (cn_srv x) /\ named c (cn_srv x) /\ aget (cn_remote x) c <> None ->
    nosub c (cn_srv (gone x c)) /\ live (cn_srv (gone x c)) c = None.
  Proof.
    intros [[H1 H2]|(H1 & Hn & H2)]; unfold gone.
    - rewrite H2. destruct (aget (cn_remote x) c); auto.
    - destruct (aget (cn_remote x) c); [|contradiction]. destruct (own_live _ _ _ H1) as (k & L). rewrite L.
      destruct (live_some _ _ _ L) as [Hk _]. destruct H1 as (k0 & Hk0 & _ & Hcl & _ & Hown). rewrite Hk in Hk0. injection Hk0 as <-.
      cbn [set_srv cn_srv]. split; [|unfold live; cbn [v_conns]; rewrite aget_aput, N.eqb_refl; reflexivity].
      intros y Hy Ey. cbn [v_subs] in Hy. apply filter_In in Hy. destruct Hy as [Hy Hf].
      destruct (Hown _ Hy Ey) as (_ & B & q & v & C & D).
      assert (F : existsb (fun e => M_Subs.beq (M_Subs.st_id (snd e)) (s_id y)) (k_subs k) = true).
      { apply existsb_exists. exists (q, v). split; [exact (st_get_in _ _ _ C)|]. cbn [snd]. rewrite D. apply beq_same. }
      destruct (k_client k) as [id|] eqn:Hid; [|now destruct (Hn _ Hk)].
      rewrite F, B, (Hcl _ eq_refl), N.eqb_refl in Hf. discriminate.
  Qed.
  Lemma local_conn G n c' k : all_ok ES A G -> aget (v_conns (cn_srv (G n))) c' = Some k -> aget (cn_remote (G n)) c' = None -> c' = c -> n = o.
  Proof. intros O Hk Hr ->. destruct (nonremote ES A G n c k O Hk Hr) as [H _]. exact (A1 _ _ _ H Ao). Qed.
  Lemma not_remote G : all_ok ES A G -> aget (cn_remote (G o)) c = None.
  Proof.
    intros O. destruct (aget (cn_remote (G o)) c) as [d|] eqn:R; [|reflexivity]. destruct (o_rem _ _ _ _ (O o) _ _ R) as [Ad Dd].
    now destruct (Dd (A1 _ _ _ Ad Ao)).
  Qed.
  Lemma here_b b b' G : here_ok b G -> here_ok b' G -> b = b'.
  Proof. intros [(k & Hk & Ho & _) _ _] [(k' & Hk' & Ho' & _) _ _]. congruence. Qed.
  (** A step is by another connection, or by [c] at its node, or tells that it is gone. *)
  Lemma step_kind G ev G' : all_ok ES A G -> c_running ev ->
    (forall n, ev = CAccept n -> u32 (v_next (cn_srv (G n)) + 1) <> c) -> c_step RC E G ev = Some G' ->
    gfr c G G' \/
    (exists q k, ev = CPacket o c q /\ aget (v_conns (cn_srv (G o))) c = Some k /\ k_open k = true /\ handle_net RC E G o c q = Some G') \/
    (exists s, ev = CLost o c /\ close_conn (cn_srv (G o)) c = Some s /\ G' = put_node G o (set_srv s (G o))) \/
    (exists G1 k id p t, gfr c G G1 /\ aget (v_conns (cn_srv (G1 o))) c = Some k /\ k_client k = Some id /\ is_remote RC o id = true /\ route RC E G1 o c k id (QPub p) = Some (G', t)) \/
    (exists a d, ev = CGone a c d /\ live (cn_srv (G a)) c = None /\ In (c, d) (cn_told (G a)) /\
       G' = let G1 := put_node G a (mkCN (cn_srv (G a)) (cn_fwd (G a)) (cn_remote (G a)) (adel (cn_told (G a)) c)) in put_node G1 d (gone (G1 d) c)).
  Proof.
    intros O Hr Ha H.
    destruct ev as [a|a c' q|a i|a c'|a c'|a c' d|a c'|a k]; unfold c_step in H; [| | | | | | |contradiction].
    - left. specialize (Ha a eq_refl). cbn [step] in H. set (x := mkCN _ _ _ _) in H.
      assert (X : G' = put_node G a x) by (injection H as <-; reflexivity). rewrite X. apply gfr_put. unfold x. split; cbn [cn_srv cn_remote cn_told v_next].
      + apply fr_put; auto.
      + rewrite aget_adel. destruct (N.eqb_spec c (u32 (v_next (cn_srv (G a)) + 1))); [congruence|reflexivity].
      + intros d. apply in_adel. congruence.
    - assert (Same : Some G = Some G' -> gfr c G G') by (intro Y; assert (X : G' = G) by (injection Y as <-; reflexivity); subst; apply gfr_refl).
      destruct (aget (cn_remote (G a)) c') eqn:R; [left; apply Same; exact H|].
      destruct (aget (v_conns (cn_srv (G a))) c') as [k|] eqn:Hk; [|left; apply Same; exact H].
      destruct (k_open k && negb (k_stuck k)) eqn:Op; [|left; apply Same; exact H].
      destruct (N.eq_dec c' c) as [Ec|Dc]; [|left; exact (handle_net_fr RC E c _ _ _ _ _ Dc H)].
      right. left. assert (a = o) by exact (local_conn _ _ _ _ O Hk R Ec). subst a c'. exists q, k. apply andb_prop in Op. destruct Op. auto.
    - unfold run_net in H. destruct (nth_error (v_tasks (cn_srv (G a))) i) as [t|] eqn:Ht.
      2:{ left. assert (X : G' = G) by (injection H as <-; reflexivity). subst. apply gfr_refl. }
      destruct (send_gone (G a) t) as [t'|] eqn:Hg.
      + left. unfold send_gone in Hg. destruct t as [| |c0 p m0 id sn todo]; try discriminate.
        match type of H with Some (put_node G a ?z) = _ => set (x := z) in H end.
        assert (X : G' = put_node G a x) by (injection H as <-; reflexivity). rewrite X. apply gfr_put. unfold x. apply nfr_srv, fr_keeps.
        eapply keeps_trans; [|apply keeps_tasks]. destruct (aget (v_conns (cn_srv (G a))) (s_conn sn)); [apply keeps_persist|apply keeps_refl].
      + assert (H' : match step E (cn_srv (G a)) (ERun i) with
          | None => None
          | Some s => match t with
              | TLoop c p _ _ [] => publish_end RC E (put_node G a (mkCN s (if Nat.ltb (length (v_tasks s)) (length (v_tasks (cn_srv (G a)))) then firstn i (cn_fwd (G a)) ++ skipn (S i) (cn_fwd (G a)) else cn_fwd (G a)) (cn_remote (G a)) (cn_told (G a)))) a (nth i (cn_fwd (G a)) false) c p
              | _ => Some (put_node G a (mkCN s (if Nat.ltb (length (v_tasks s)) (length (v_tasks (cn_srv (G a)))) then firstn i (cn_fwd (G a)) ++ skipn (S i) (cn_fwd (G a)) else cn_fwd (G a)) (cn_remote (G a)) (cn_told (G a))))
              end
          end = Some G') by (destruct t; exact H). clear H. rename H' into H.
        destruct (step E (cn_srv (G a)) (ERun i)) as [s|] eqn:F; [|discriminate].
        set (x := mkCN s _ _ _) in *. pose proof (keeps_run _ _ _ _ F) as K.
        assert (P1 : gfr c G (put_node G a x)) by (apply gfr_put; split; [apply fr_keeps; exact K|reflexivity|reflexivity]).
        assert (Done : Some (put_node G a x) = Some G' -> gfr c G G') by (intro Y; assert (X : G' = put_node G a x) by (injection Y as <-; reflexivity); now rewrite X).
        destruct t as [c0 p t pl|c0 p m0 id [|y todo]|c0 p m0 id y todo]; try (left; apply Done; exact H).
        unfold publish_end in H. rewrite put_same in H.
        destruct (aget (v_conns (cn_srv x)) c0) as [k|] eqn:Hk; [|left; apply Done; exact H].
        destruct (k_client k) as [cl|] eqn:Hc; [|discriminate].
        destruct (negb (nth i (cn_fwd (G a)) false) && is_remote RC a cl) eqn:B; [|left; apply Done; exact H].
        apply andb_prop in B. destruct B as [B1 B2].
        destruct (route RC E (put_node G a x) a c0 k cl (QPub p)) as [[G1 b]|] eqn:R; [|discriminate]. cbn in H.
        assert (X : G' = G1) by (injection H as <-; reflexivity). subst G1.
        destruct (N.eq_dec c0 c) as [Ec|Dc]; [|left; eapply gfr_trans; [exact P1|exact (route_fr _ _ _ _ _ _ _ _ _ _ _ Dc R)]].
        subst c0. assert (Hac : A a c).
        { assert (Hi : (i < length (v_tasks (cn_srv (G a))))%nat) by (apply nth_error_Some; congruence).
          pose proof (o_len _ _ _ _ (O a)) as L. apply (o_task _ _ _ _ (O a) i _ Ht). destruct (nth_error (cn_fwd (G a)) i) as [b0|] eqn:Hb.
          - rewrite (nth_error_nth _ _ false Hb) in B1. now destruct b0.
          - apply nth_error_None in Hb. lia. }
        assert (a = o) by exact (A1 _ _ _ Hac Ao). subst a. right. right. right. left.
        exists (put_node G o x), k, cl, p, b. rewrite put_same. auto.
    - left. cbn [step lift] in H. assert (X : G' = put_node G a (set_srv (send_batch (cn_srv (G a)) c') (G a))) by (injection H as <-; reflexivity). rewrite X.
      apply gfr_put, nfr_srv, fr_keeps, keeps_send_batch.
    - destruct (aget (cn_remote (G a)) c') eqn:R; [left; assert (X : G' = G) by (injection H as <-; reflexivity); subst; apply gfr_refl|].
      cbn [step] in H. destruct (N.eq_dec c' c) as [Ec|Dc]; [|left; eapply gfr_lift; [|exact H]; intros s Hs; exact (fr_close _ _ _ _ Dc Hs)].
      destruct (aget (v_conns (cn_srv (G a))) c') as [k|] eqn:Hk.
      + assert (a = o) by exact (local_conn _ _ _ _ O Hk R Ec). subst a c'. right. right. left.
        destruct (close_conn (cn_srv (G o)) c) as [s|] eqn:F; [|discriminate]. exists s. split; [reflexivity|]. split; [reflexivity|]. cbn [lift] in H. now injection H as <-.
      + left. eapply gfr_lift; [|exact H]. intros s Hs. unfold close_conn in Hs. rewrite Hk in Hs. injection Hs as <-. apply fr_refl.
    - assert (X : G' = conn_gone G a c' d) by (injection H as <-; reflexivity). clear H. unfold conn_gone in X.
      destruct (live (cn_srv (G a)) c') eqn:L; [left; subst; apply gfr_refl|].
      destruct (existsb (fun e => (fst e =? c') && Nat.eqb (snd e) d) (cn_told (G a))) eqn:B; [|left; subst; apply gfr_refl].
      destruct (N.eq_dec c' c) as [Ec|Dc].
      + right. right. right. right. subst c'. exists a, d. split; [reflexivity|]. split; [exact L|]. split; [|exact X].
        apply existsb_exists in B. destruct B as ([c1 d1] & B1 & B2). cbn [fst snd] in B2. apply andb_prop in B2. destruct B2 as [B2 B3].
        assert (c1 = c) by lia. assert (d1 = d) by lia. now subst.
      + left. rewrite X. eapply gfr_trans; [|apply gfr_put; now apply gone_fr]. apply gfr_put. split; [apply fr_refl|reflexivity|].
        intros z. cbn [cn_told]. apply in_adel. congruence.
    - left. unfold write_net in H.
      assert (Same : Some G = Some G' -> gfr c G G') by (intro Y; assert (X : G' = G) by (injection Y as <-; reflexivity); subst; apply gfr_refl).
      destruct (aget (cn_remote (G a)) c') as [d|]; [|apply Same; exact H].
      destruct (live (cn_srv (G a)) c') as [k|] eqn:L; [|apply Same; exact H]. destruct (k_out k) as [|pk r]; [apply Same; exact H|]. clear Same.
      set (G1 := put_node G a _) in *.
      assert (P1 : gfr c G G1) by (apply gfr_put, nfr_srv, fr_keeps; eapply keeps_set; [apply (live_some _ _ _ L)|reflexivity]).
      assert (Done : Some G1 = Some G' -> gfr c G G') by (intro Y; assert (X : G' = G1) by (injection Y as <-; reflexivity); now rewrite X).
      destruct pk as [p|ty fl i]; [apply Done; exact H|].
      destruct (live (cn_srv (G1 d)) c') as [k'|] eqn:L'; [|apply Done; exact H].
      destruct (aget (cn_remote (G1 d)) c'); [discriminate|].
      set (x := set_srv _ (G1 d)) in H. assert (X : G' = put_node G1 d x) by (injection H as <-; reflexivity). rewrite X.
      eapply gfr_trans; [exact P1|]. apply gfr_put, nfr_srv, fr_keeps. eapply keeps_set; [apply (live_some _ _ _ L')|reflexivity].
  Qed.
  Lemma here_gone b G a d : all_ok ES A G -> here_ok b G -> live (cn_srv (G a)) c = None -> In (c, d) (cn_told (G a)) ->
    let G1 := put_node G a (mkCN (cn_srv (G a)) (cn_fwd (G a)) (cn_remote (G a)) (adel (cn_told (G a)) c)) in
    here_ok b (put_node G1 d (gone (G1 d) c)) /\
    (a = o -> forall n, n <> o -> nosub c (cn_srv (put_node G1 d (gone (G1 d) c) n)) /\ live (cn_srv (put_node G1 d (gone (G1 d) c) n)) c = None).
  Proof.
    intros O [H1 H2 H3] L Hd G1.
    assert (S1 : forall n, cn_srv (G1 n) = cn_srv (G n) /\ cn_remote (G1 n) = cn_remote (G n)).
    { intros n. unfold G1. destruct (Nat.eq_dec n a) as [->|D]; [now rewrite put_same|now rewrite put_other]. }
    set (G2 := put_node G1 d (gone (G1 d) c)).
    assert (Oo : cn_srv (G2 o) = cn_srv (G o)).
    { unfold G2. destruct (Nat.eq_dec o d) as [E1|D]; [|rewrite put_other by assumption; apply S1]. rewrite <- E1, put_same. unfold gone.
      rewrite (proj2 (S1 o)), (not_remote _ O). apply S1. }
    assert (Od : d <> o -> nosub c (cn_srv (G2 d)) /\ live (cn_srv (G2 d)) c = None).
    { intros D. unfold G2. rewrite put_same. apply gone_none. rewrite (proj1 (S1 d)), (proj2 (S1 d)). destruct (H3 d D) as [P Q|P Q M R S]; auto. }
    assert (Told : incl (cn_told (G2 o)) (cn_told (G o)) /\ (a <> o -> cn_told (G2 o) = cn_told (G o))).
    { assert (T1 : cn_told (G2 o) = cn_told (G1 o)).
      { unfold G2. destruct (Nat.eq_dec o d) as [E1|D]; [|now rewrite put_other]. rewrite <- E1, put_same. unfold gone. rewrite (proj2 (S1 o)), (not_remote _ O). reflexivity. }
      rewrite T1. unfold G1. destruct (Nat.eq_dec o a) as [E1|D].
      - rewrite E1, put_same. split; [cbn [cn_told]; apply incl_filter'|congruence].
      - rewrite put_other by assumption. split; [apply incl_refl|reflexivity]. }
    assert (Away : forall n, n <> o -> n <> d -> cn_srv (G2 n) = cn_srv (G n) /\ cn_remote (G2 n) = cn_remote (G n)).
    { intros n Hn Dn. unfold G2. rewrite put_other by assumption. apply S1. }
    assert (All : a = o -> forall n, n <> o -> nosub c (cn_srv (G2 n)) /\ live (cn_srv (G2 n)) c = None).
    { intros -> n Hn. destruct (Nat.eq_dec n d) as [->|Dn]; [now apply Od|]. rewrite (proj1 (Away n Hn Dn)).
      destruct (H3 n Hn) as [P Q|P Q M R S]; [auto|]. exfalso. apply Dn. rewrite P. symmetry. exact (H2 _ Hd). }
    split; [|exact All]. split.
    - now rewrite Oo.
    - intros z Hz. apply H2. now apply (proj1 Told).
    - intros n Hn. destruct (Nat.eq_dec a o) as [Ea|Da].
      + destruct (All Ea n Hn). now apply aw_none.
      + destruct (Nat.eq_dec n d) as [->|Dn]; [destruct (Od Hn); now apply aw_none|].
        destruct (Away n Hn Dn) as [W1 W2]. destruct (H3 n Hn) as [P Q|P Q M R S].
        * apply aw_none; rewrite W1; assumption.
        * apply aw_own; rewrite ?W1, ?W2; try assumption. rewrite (proj2 Told Da). exact S.
  Qed.
  Lemma step_here b G ev G' : all_ok ES A G -> here_ok b G -> c_running ev -> c_one_contract o c kc ev ->
    (forall n, ev = CAccept n -> u32 (v_next (cn_srv (G n)) + 1) <> c) -> c_step RC E G ev = Some G' -> exists b', here_ok b' G'.
  Proof.
    intros O H0 Hr Ho Ha H. destruct (step_kind _ _ _ O Hr Ha H) as [F|[(q & k & -> & Hk & Op & F)|[(s & -> & F & ->)|[(G1 & k & id & p & t & F1 & Hk & Hid & Rm & F)|(a & d & -> & L & Hd & ->)]]]].
    - exists b. exact (here_gfr _ _ _ F H0).
    - assert (b = true) by (destruct (h_own _ _ H0) as (k0 & Hk0 & Ho0 & _); congruence). subst b. exact (handle_net_here _ _ _ H0 Ho F).
    - exists false. eapply here_put; [exact H0|exact (close_own _ _ _ _ _ (h_own _ _ H0) F)|reflexivity].
    - exists b. pose proof (here_gfr _ _ _ F1 H0) as H1. eapply route_here; [exact H1|eapply own_contract; [apply (h_own _ _ H1)|exact Hk|exact Hid]|exact Rm|exact F].
    - exists b. apply here_gone; assumption.
  Qed.
  (** ** After the end *)
  Record over (G : net) : Prop := {
    v_here : own c kc false (cn_srv (G o));
    v_none : forall n, nosub c (cn_srv (G n)) }.
  Lemma over_gfr G G' : gfr c G G' -> over G -> over G'.
  Proof. intros F [H1 H2]. split; [eapply fr_own; [apply (F o)|exact H1]|]. intros n. eapply fr_nosub; [apply (F n)|apply H2]. Qed.
  Lemma master_over x sess id p y : nosub c (cn_srv x) -> master E x o c sess id (QPub p) = Some y -> nosub c (cn_srv y).
  Proof.
    intros Hx H. unfold master in H. set (sr := match live (cn_srv x) c with Some _ => (cn_srv x, cn_remote x) | None => (set_conn (cn_srv x) c (rpc_conn sess id), aput (cn_remote x) c o) end) in H.
    assert (B : v_subs (fst sr) = v_subs (cn_srv x)) by (unfold sr; destruct (live (cn_srv x) c); reflexivity). destruct sr as [sa ra]. cbn [fst] in B.
    destruct (pub_msgs E (on_conn sa c (set_client id)) c p (p_msgs p)) as [[s4 b]|] eqn:F; [|discriminate]. cbn [option_map fst] in H. injection H as <-.
    cbn [started cn_srv]. destruct (keeps_pub _ _ _ _ _ _ _ F) as (K & _). intros z Hz. rewrite K, on_vsubs, B in Hz. now apply Hx.
  Qed.
  Lemma step_over G ev G' : all_ok ES A G -> over G -> c_running ev ->
    (forall n, ev = CAccept n -> u32 (v_next (cn_srv (G n)) + 1) <> c) -> c_step RC E G ev = Some G' -> over G'.
  Proof.
    intros O H0 Hr Ha H. destruct (step_kind _ _ _ O Hr Ha H) as [F|[(q & k & -> & Hk & Op & F)|[(s & -> & F & ->)|[(G1 & k & id & p & t & F1 & Hk & Hid & Rm & F)|(a & d & -> & L & Hd & ->)]]]].
    - exact (over_gfr _ _ F H0).
    - destruct (v_here _ H0) as (k0 & Hk0 & Ho0 & _). congruence.
    - pose proof (close_own _ _ _ _ _ (v_here _ H0) F) as C. split; [now rewrite put_same|]. intros n.
      destruct (Nat.eq_dec n o) as [->|D]; [rewrite put_same; exact (own_closed _ _ _ C)|rewrite put_other by assumption; apply H0].
    - pose proof (over_gfr _ _ F1 H0) as [H1 H2]. unfold route in F. unfold is_remote in Rm. set (d := rc_ring RC o (id_contract id)) in *.
      set (x1 := mkCN (cn_srv (G1 o)) (cn_fwd (G1 o)) (cn_remote (G1 o)) _) in F. assert (D : d <> o) by lia.
      assert (B : over (put_node G1 o x1)).
      { split; [now rewrite put_same|]. intros n. destruct (Nat.eq_dec n o) as [->|Dn]; [rewrite put_same; apply H2|rewrite put_other by assumption; apply H2]. }
      destruct (rc_agree RC o d).
      + destruct (master E (put_node G1 o x1 d) o c (k_sess k) id (QPub p)) as [y|] eqn:M; [|discriminate].
        assert (X : G' = put_node (put_node G1 o x1) d y) by (injection F as <- _; reflexivity). rewrite X.
        apply master_over in M; [|apply B]. destruct B as [B1 B2]. split; [rewrite put_other by lia; exact B1|].
        intros n. destruct (Nat.eq_dec n d) as [->|Dn]; [now rewrite put_same|rewrite put_other by assumption; apply B2].
      + assert (X : G' = put_node G1 o x1) by (injection F as <- _; reflexivity). now rewrite X.
    - cbv zeta. set (G1 := put_node G a _).
      assert (S1 : forall n, cn_srv (G1 n) = cn_srv (G n) /\ cn_remote (G1 n) = cn_remote (G n)).
      { intros n. unfold G1. destruct (Nat.eq_dec n a) as [->|D]; [now rewrite put_same|now rewrite put_other]. }
      split.
      + destruct (Nat.eq_dec o d) as [E1|D]; [|rewrite put_other by assumption; rewrite (proj1 (S1 o)); apply H0].
        rewrite <- E1, put_same. unfold gone. rewrite (proj2 (S1 o)), (not_remote _ O), (proj1 (S1 o)). apply H0.
      + intros n. destruct (Nat.eq_dec n d) as [->|D]; [|rewrite put_other by assumption; rewrite (proj1 (S1 n)); apply H0].
        rewrite put_same. unfold gone. destruct (aget (cn_remote (G1 d)) c); [|rewrite (proj1 (S1 d)); apply H0].
        destruct (live (cn_srv (G1 d)) c); [|rewrite (proj1 (S1 d)); apply H0]. intros y Hy. cbn [set_srv cn_srv v_subs] in Hy.
        apply filter_In in Hy. apply (v_none _ H0 d). rewrite <- (proj1 (S1 d)). apply Hy.
  Qed.
End CONN.
