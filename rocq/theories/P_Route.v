(** C92, C93: clusters. *)
From Coq Require Import Lia ZifyBool ZifyNat ZifyN.
From Verif Require Import M_Bytes M_Keys M_MsgIds M_Conn M_Route S_Conn S_Route P_Conn P_Pending P_Origin P_Client.
From Verif Require M_Subs.
Open Scope N_scope.

Lemma put_same : forall G n x, put_node G n x n = x.
Proof. intros. unfold put_node. now rewrite Nat.eqb_refl. Qed.
Lemma put_other : forall G n x m, m <> n -> put_node G n x m = G m.
Proof. intros G n x m H. unfold put_node. now rewrite (proj2 (Nat.eqb_neq m n) H). Qed.
Lemma c_run_app : forall RC E a b G, c_run RC E G (a ++ b) = match c_run RC E G a with Some G1 => c_run RC E G1 b | None => None end.
Proof. induction a as [|x a IH]; intros b G; cbn; [reflexivity|]. destruct (c_step RC E G x); [apply IH|reflexivity]. Qed.
Lemma s_run_app : forall E a b s, run E s (a ++ b) = match run E s a with Some s1 => run E s1 b | None => None end.
Proof. induction a as [|x a IH]; intros b s; cbn; [reflexivity|]. destruct (step E s x); [apply IH|reflexivity]. Qed.

(** ** Clients at the owners of their contracts *)
Section LOCAL.
  Variable RC : rings.
  Variable E : env.
  Definition local (n : nat) (s : server) : Prop :=
    forall c k id, aget (v_conns s) c = Some k -> k_client k = Some id -> is_remote RC n id = false.
  Lemma local_kc : forall n s s', kc s s' -> local n s -> local n s'.
  Proof. intros n s s' [K _] L c k id Hk Hid. destruct (K _ _ Hk) as (k0 & H0 & E0). eapply L; [exact H0|congruence]. Qed.
  (** only the server of node [n] has changed *)
  Definition only (n : nat) (G : net) (r : option server) (o : option net) : Prop :=
    match o with
    | Some G' => r = Some (cn_srv (G' n)) /\ (forall m, m <> n -> G' m = G m) /\ cn_remote (G' n) = cn_remote (G n)
    | None => r = None
    end.
  Lemma only_lift : forall n G r, only n G r (lift G n r).
  Proof.
    intros n G [s|]; cbn; [|reflexivity]. rewrite put_same. cbn. split; [reflexivity|]. split; [|reflexivity].
    intros m H. now apply put_other.
  Qed.
  Lemma sub_local : forall n c l id G x, local n (cn_srv (G n)) -> sub_net RC E n c l id G x = lift G n (sub_one E (cn_srv (G n)) c id x) \/
    (aget (v_conns (cn_srv (G n))) c = None /\ sub_net RC E n c l id G x = Some G).
  Proof.
    intros n c l id G [[text mode] delay] L. unfold sub_net. cbn [fst].
    destruct (aget (v_conns (cn_srv (G n))) c) as [k|] eqn:Hk; [left|right; auto].
    destruct (check_sub k text); try reflexivity. destruct (k_client k) as [cl|] eqn:Hc; [|reflexivity].
    match goal with |- match ?x with _ => _ end = _ => destruct x; [|reflexivity] end.
    now rewrite (L _ _ _ Hk Hc), andb_false_r.
  Qed.
  Lemma sub_only : forall n c l id G x, local n (cn_srv (G n)) ->
    only n G (sub_one E (cn_srv (G n)) c id x) (sub_net RC E n c l id G x).
  Proof.
    intros n c l id G x L. destruct (sub_local n c l id G x L) as [->|[Hn ->]]; [apply only_lift|].
    cbn. destruct x as [[t m] d]. cbn. rewrite Hn. auto.
  Qed.
  Lemma unsub_only : forall n c l id G x, local n (cn_srv (G n)) ->
    only n G (unsub_one E (cn_srv (G n)) c id x) (unsub_net RC E n c l id G x).
  Proof.
    intros n c l id G x L. unfold unsub_net. destruct (aget (v_conns (cn_srv (G n))) c) as [k|] eqn:Hk.
    - destruct (lift G n (unsub_one E (cn_srv (G n)) c id x)) as [G1|] eqn:F.
      + assert (O : only n G (unsub_one E (cn_srv (G n)) c id x) (Some G1)) by (rewrite <- F; apply only_lift).
        destruct (check_sub k x); try exact O. destruct (k_client k) as [cl|] eqn:Hc; [|exact O].
        now rewrite (L _ _ _ Hk Hc).
      + rewrite <- F. apply only_lift.
    - cbn. unfold unsub_one. rewrite Hk. auto.
  Qed.
  Lemma each_only : forall A (f : net -> A -> option net) (g : server -> A -> option server) n c,
    (forall G x, local n (cn_srv (G n)) -> only n G (g (cn_srv (G n)) x) (f G x)) ->
    (forall s x s', g s x = Some s' -> kc s s') ->
    forall l G, local n (cn_srv (G n)) -> only n G (each g (cn_srv (G n)) c l) (each_net f G n c l).
  Proof.
    intros A f g n c Hf Hg. induction l as [|x l IH]; intros G L; cbn [each each_net].
    - cbn. auto.
    - destruct (is_stuck (cn_srv (G n)) c); [cbn; auto|].
      pose proof (Hf G x L) as O. destruct (f G x) as [G1|]; cbn in O.
      + destruct O as (O1 & O2 & O3). rewrite O1. assert (L1 : local n (cn_srv (G1 n))) by (eapply local_kc; [eapply Hg; exact O1|exact L]).
        specialize (IH G1 L1). destruct (each_net f G1 n c l) as [G2|]; cbn in *; [|assumption].
        destruct IH as (I1 & I2 & I3). split; [assumption|]. split; [|congruence]. intros m Hm. rewrite I2 by assumption. now apply O2.
      + now rewrite O.
  Qed.
  Lemma kc_sub : forall s c i x s', sub_one E s c i x = Some s' -> kc s s'.
  Proof. intros s c i x s' H. eapply kc_moves, (sub_moves E [x] i); [now left|exact H]. Qed.
  Lemma kc_unsub : forall s c i x s', unsub_one E s c i x = Some s' -> kc s s'.
  Proof. intros s c i x s' H. eapply kc_moves, (unsub_moves E QPing); exact H. Qed.
  Lemma ack_only : forall n G c pk r o, only n G r o ->
    only n G (option_map (fun s => ack s c pk) r) (option_map (fun G1 => ack_net G1 n c pk) o).
  Proof.
    intros n G c pk r [G1|]; cbn; [|now intros ->]. intros (-> & H2 & H3). cbn. unfold ack_net. rewrite put_same. cbn.
    split; [reflexivity|]. split; [|assumption]. intros m Hm. rewrite put_other by assumption. now apply H2.
  Qed.
  Lemma handle_only : forall G n c q, local n (cn_srv (G n)) -> only n G (handle E (cn_srv (G n)) c q) (handle_net RC E G n c q).
  Proof.
    intros G n c q L.
    assert (D : only n G (handle E (cn_srv (G n)) c q)
      (match lift G n (handle E (cn_srv (G n)) c q) with Some G1 => Some (put_node G1 n (started false (G1 n))) | None => None end)).
    { destruct (handle E (cn_srv (G n)) c q) as [s|]; cbn; [|reflexivity]. rewrite !put_same. cbn. split; [reflexivity|]. split; [|reflexivity].
      intros m Hm. now rewrite !put_other by assumption. }
    destruct q as [who ins cl key|l id|l id|p|l id| |ty flow id]; try exact D; unfold handle_net; cbn [handle]; apply ack_only.
    - apply each_only; [|intros s x s'; apply kc_sub|exact L]. intros G0 x L0. now apply sub_only.
    - apply each_only; [|intros s x s'; apply kc_unsub|exact L]. intros G0 x L0. now apply unsub_only.
  Qed.

  Definition projected (G : net) : Prop := forall n, cn_remote (G n) = [] /\ local n (cn_srv (G n)).
  Lemma step_projected : forall G ev G', projected G -> c_step RC E G ev = Some G' ->
    forall n, cn_remote (G' n) = [] /\ run E (cn_srv (G n)) (here n [ev]) = Some (cn_srv (G' n)).
  Proof.
    intros G ev G' P H.
    assert (One : forall a x, cn_remote x = [] -> forall e, (forall n, here n [ev] = if Nat.eqb a n then [e] else []) ->
      step E (cn_srv (G a)) e = Some (cn_srv x) -> forall n, cn_remote (put_node G a x n) = [] /\ run E (cn_srv (G n)) (here n [ev]) = Some (cn_srv (put_node G a x n))).
    { intros a x Hr e He Hs n. rewrite He. destruct (Nat.eqb a n) eqn:F.
      - assert (a = n) by lia. subst a. rewrite put_same. split; [assumption|]. cbn [run]. now rewrite Hs.
      - rewrite put_other by lia. split; [apply P|reflexivity]. }
    assert (Only : forall a o e, (forall n, here n [ev] = if Nat.eqb a n then [e] else []) ->
      only a G (step E (cn_srv (G a)) e) o -> o = Some G' -> forall n, cn_remote (G' n) = [] /\ run E (cn_srv (G n)) (here n [ev]) = Some (cn_srv (G' n))).
    { intros a o e He O -> n. destruct O as (O1 & O2 & O3). rewrite He. destruct (Nat.eqb a n) eqn:F.
      - assert (a = n) by lia. subst a. split; [rewrite O3; apply P|]. cbn [run]. now rewrite O1.
      - rewrite O2 by lia. split; [apply P|reflexivity]. }
    assert (Same : forall a c q, ev = CPacket a c q -> step E (cn_srv (G a)) (EPacket c q) = Some (cn_srv (G a)) ->
      forall n, cn_remote (G n) = [] /\ run E (cn_srv (G n)) (here n [ev]) = Some (cn_srv (G n))).
    { intros a c q -> Hs n. split; [apply P|]. cbn [here flat_map app]. destruct (Nat.eqb a n) eqn:F; cbn [app run]; [|reflexivity].
      assert (a = n) by lia. subst a. now rewrite Hs. }
    destruct ev as [a|a c q|a i|a c|a c|a c m|a c|a k]; unfold c_step in H.
    - destruct (step E (cn_srv (G a)) EAccept) as [s|] eqn:F; [|discriminate]. assert (X : G' = put_node G a _) by (injection H as <-; reflexivity). rewrite X.
      apply One with (e := EAccept); [|intro n; cbn [here flat_map]; now rewrite app_nil_r|exact F].
      cbn [cn_remote]. now rewrite (proj1 (P a)).
    - rewrite (proj1 (P a)) in H. cbn [aget] in H.
      destruct (aget (v_conns (cn_srv (G a))) c) as [k|] eqn:Hk.
      + destruct (k_open k && negb (k_stuck k)) eqn:Ho.
        * apply (Only a (handle_net RC E G a c q) (EPacket c q)); [intro n; cbn [here flat_map]; now rewrite app_nil_r| |exact H].
          cbn [step]. rewrite Hk, Ho. apply handle_only. apply P.
        * assert (X : G' = G) by (injection H as <-; reflexivity). rewrite X. eapply Same; [reflexivity|]. cbn [step]. now rewrite Hk, Ho.
      + assert (X : G' = G) by (injection H as <-; reflexivity). rewrite X. eapply Same; [reflexivity|]. cbn [step]. now rewrite Hk.
    - unfold run_net in H. destruct (nth_error (v_tasks (cn_srv (G a))) i) as [t|] eqn:Ht.
      + assert (Hg : send_gone (G a) t = None) by (destruct t; cbn; try reflexivity; now rewrite (proj1 (P a))). rewrite Hg in H.
        destruct (step E (cn_srv (G a)) (ERun i)) as [s|] eqn:F; [|discriminate].
        set (x := mkCN s _ _ _) in H.
        assert (Hx : forall n, cn_remote (put_node G a x n) = [] /\ run E (cn_srv (G n)) (here n [CRun a i]) = Some (cn_srv (put_node G a x n))).
        { apply One with (e := ERun i); [apply P|intro n; cbn [here flat_map]; now rewrite app_nil_r|exact F]. }
        assert (Done : Some (put_node G a x) = Some G' -> forall n, cn_remote (G' n) = [] /\ run E (cn_srv (G n)) (here n [CRun a i]) = Some (cn_srv (G' n))).
        { intro Y. assert (X : G' = put_node G a x) by (injection Y as <-; reflexivity). now rewrite X. }
        destruct t as [c p t pl|c p m id [|y todo]|c p m id y todo]; try (apply Done; exact H).
        apply Done. rewrite <- H. unfold publish_end. rewrite put_same.
        destruct (aget (v_conns (cn_srv x)) c) as [k|] eqn:Hk; [|reflexivity].
        assert (Hs : v_conns s = v_conns (cn_srv (G a))).
        { cbn [step] in F. rewrite Ht in F. cbn in F. now injection F as <-. }
        cbn in Hk. rewrite Hs in Hk. destruct (k_client k) as [cl|] eqn:Hc.
        * rewrite (proj2 (P a) _ _ _ Hk Hc), andb_false_r. reflexivity.
        * exfalso. unfold publish_end in H. rewrite put_same in H. cbn in H. rewrite Hs, Hk, Hc in H. discriminate.
      + assert (X : G' = G) by (injection H as <-; reflexivity). rewrite X. intro n. split; [apply P|]. cbn [here flat_map app].
        destruct (Nat.eqb a n) eqn:F; cbn [app run]; [|reflexivity]. assert (a = n) by lia. subst a. cbn [step]. now rewrite Ht.
    - apply (Only a (lift G a (step E (cn_srv (G a)) (EBatch c))) (EBatch c)); [intro n; cbn [here flat_map]; now rewrite app_nil_r|apply only_lift|exact H].
    - rewrite (proj1 (P a)) in H. cbn [aget] in H.
      apply (Only a (lift G a (step E (cn_srv (G a)) (ELost c))) (ELost c)); [intro n; cbn [here flat_map]; now rewrite app_nil_r|apply only_lift|exact H].
    - assert (X : G' = conn_gone G a c m) by (injection H as <-; reflexivity). rewrite X. clear X H. intro n. cbn [here flat_map app run].
      unfold conn_gone. destruct (live (cn_srv (G a)) c); [split; [apply P|reflexivity]|].
      destruct (existsb _ (cn_told (G a))); [|split; [apply P|reflexivity]].
      set (x := mkCN (cn_srv (G a)) _ _ _).
      assert (R : forall n, cn_remote (put_node G a x n) = [] /\ cn_srv (put_node G a x n) = cn_srv (G n)).
      { intro n0. destruct (Nat.eq_dec n0 a) as [->|D]; [rewrite put_same; split; [apply P|reflexivity]|rewrite put_other by assumption; split; [apply P|reflexivity]]. }
      assert (Y : gone (put_node G a x m) c = put_node G a x m) by (unfold gone; now rewrite (proj1 (R m))).
      rewrite Y. destruct (Nat.eq_dec n m) as [->|D]; [rewrite put_same|rewrite (put_other _ m) by assumption]; destruct (R n) as [R1 R2] || idtac.
      + destruct (R m) as [R1 R2]. split; [exact R1|now rewrite R2].
      + split; [exact R1|now rewrite R2].
    - unfold write_net in H. rewrite (proj1 (P a)) in H. cbn in H. assert (X : G' = G) by (injection H as <-; reflexivity). rewrite X.
      intro n. split; [apply P|reflexivity].
    - destruct (step E (cn_srv (G a)) (ERestart k)) as [s|] eqn:F; [|discriminate]. assert (X : G' = put_node G a _) by (injection H as <-; reflexivity). rewrite X.
      apply One with (e := ERestart k); [reflexivity|intro n; cbn [here flat_map]; now rewrite app_nil_r|exact F].
  Qed.
End LOCAL.
Lemma here_app : forall n a b, here n (a ++ b) = here n a ++ here n b.
Proof. intros. unfold here. apply flat_map_app. Qed.
Lemma here_connects : forall n es c id ins, accepted (here n es) c id ins -> connects es n c id.
Proof.
  intros n es c id ins (ch & cl & key & H). unfold here in H. apply in_flat_map in H. destruct H as (ev & Hev & Hin).
  destruct ev as [a|a x q|a i|a x|a x|a x m|a x|a k]; try contradiction Hin;
    destruct (Nat.eqb a n) eqn:F; try contradiction Hin; destruct Hin as [Hin|[]]; try discriminate Hin.
  assert (a = n) by lia. subst a. injection Hin as -> ->. exists ch, ins, cl, key. assumption.
Qed.
Lemma local_run : forall RC E, parses_small E -> forall starts es G, at_owner RC es -> c_run RC E (fresh starts) es = Some G ->
  forall n, cn_remote (G n) = [] /\ run E (server_new (starts n)) (here n es) = Some (cn_srv (G n)).
Proof.
  intros RC E HE starts. induction es as [|ev es IH] using rev_ind; intros G A H.
  - injection H as <-. intro n. split; reflexivity.
  - rewrite c_run_app in H. destruct (c_run RC E (fresh starts) es) as [G1|] eqn:F; [|discriminate].
    assert (A1 : at_owner RC es).
    { intros n c id (ch & ins & cl & key & Hin). apply (A n c id). exists ch, ins, cl, key. apply in_or_app. now left. }
    specialize (IH G1 A1 eq_refl). cbn in H. destruct (c_step RC E G1 ev) as [G2|] eqn:S; [|discriminate].
    assert (X : G2 = G) by (injection H as <-; reflexivity). subst G2.
    assert (P : projected RC G1).
    { intro n. destruct (IH n) as [Hr Hrun]. split; [assumption|]. intros c k id Hk Hid.
      pose proof (inv_reached E HE _ _ _ Hrun) as I0. destruct (k_was _ _ _ _ _ (i_conn _ _ _ _ I0 _ _ Hk) _ Hid) as (ins & Hac).
      apply here_connects in Hac. unfold is_remote. rewrite (A1 _ _ _ Hac), Nat.eqb_refl. reflexivity. }
    intro n. destruct (step_projected RC E G1 ev G P S n) as [Hr Hs]. split; [assumption|].
    rewrite here_app, s_run_app. rewrite (proj2 (IH n)). exact Hs.
Qed.

(** ** Whose requests *)
Lemma z0 : 0 < 2 ^ 32.
Proof. reflexivity. Qed.
Lemma z1 : 0 < 1 /\ 1 < 2 ^ 16.
Proof. split; reflexivity. Qed.
Section WHO.
  Variable RC : rings.
  Variable E : env.
  Variable ES : list cevent.
  Variable A : nat -> N -> Prop.     (* the numbers of a node *)
  Hypothesis A1 : forall n m c, A n c -> A m c -> n = m.
  Definition task_conn (t : task) : N := match t with TPub c _ _ _ | TLoop c _ _ _ _ | TSend c _ _ _ _ _ => c end.
  Definition owned (n : nat) (x : cnode) (c : N) (cl : option bytes) : Prop :=
    match aget (cn_remote x) c with
    | Some o => forall id, cl = Some id -> connects ES o c id
    | None => A n c /\ forall id, cl = Some id -> connects ES n c id
    end.
  Record node_ok (n : nat) (x : cnode) : Prop := {
    o_rem : forall c o, aget (cn_remote x) c = Some o -> A o c /\ o <> n;
    o_conn : forall c k, aget (v_conns (cn_srv x)) c = Some k -> owned n x c (k_client k);
    o_task : forall i t, nth_error (v_tasks (cn_srv x)) i = Some t -> nth_error (cn_fwd x) i = Some false -> A n (task_conn t);
    o_len : length (cn_fwd x) = length (v_tasks (cn_srv x));
    o_subs : forall y, In y (v_subs (cn_srv x)) -> exists o id, connects ES o (s_conn y) id /\ id_contract id = s_contract y }.
  Definition all_ok (G : net) : Prop := forall n, node_ok n (G n).
  Lemma ok_put : forall G n x, all_ok G -> node_ok n x -> all_ok (put_node G n x).
  Proof. intros G n x H Hx m. destruct (Nat.eq_dec m n) as [->|D]; [now rewrite put_same|]. rewrite put_other by assumption. apply H. Qed.
  (** a server that moved on; [fl]: the flag of new goroutines *)
  Lemma ok_srv : forall n x s, node_ok n x -> kc (cn_srv x) s -> v_tasks s = v_tasks (cn_srv x) ->
    (forall y, In y (v_subs s) -> In y (v_subs (cn_srv x)) \/ exists o id, connects ES o (s_conn y) id /\ id_contract id = s_contract y) ->
    node_ok n (set_srv s x).
  Proof.
    intros n x s [H1 H2 H3 H4 H5] [K _] T S. split; cbn; try rewrite T; auto.
    - intros c k Hk. destruct (K _ _ Hk) as (k0 & H0 & E0). rewrite E0. exact (H2 _ _ H0).
    - intros y Hy. destruct (S _ Hy) as [Y|Y]; [now apply H5|exact Y].
  Qed.
  Lemma ok_started : forall n x s l fl, node_ok n x -> kc (cn_srv x) s -> v_tasks s = v_tasks (cn_srv x) ++ l ->
    (fl = false -> Forall (fun t => A n (task_conn t)) l) ->
    (forall y, In y (v_subs s) -> In y (v_subs (cn_srv x)) \/ exists o id, connects ES o (s_conn y) id /\ id_contract id = s_contract y) ->
    node_ok n (started fl (set_srv s x)).
  Proof.
    intros n x s l fl [H1 H2 H3 H4 H5] [K _] T F S. unfold started. cbn [cn_srv set_srv cn_fwd cn_remote cn_told]. rewrite T.
    assert (L : (length (v_tasks (cn_srv x) ++ l) - length (cn_fwd x))%nat = length l) by (rewrite app_length; lia).
    rewrite L. split; cbn [cn_srv cn_fwd cn_remote cn_told]; auto.
    - intros c k Hk. destruct (K _ _ Hk) as (k0 & H0 & E0). rewrite E0. exact (H2 _ _ H0).
    - intros i t Ht Hf. rewrite T in Ht. destruct (Nat.lt_ge_cases i (length (cn_fwd x))) as [D|D].
      + rewrite nth_error_app1 in Ht by lia. rewrite nth_error_app1 in Hf by lia. eapply H3; eassumption.
      + rewrite nth_error_app2 in Ht by lia. rewrite nth_error_app2 in Hf by lia.
        assert (fl = false). { apply nth_error_In, repeat_spec in Hf. congruence. }
        specialize (F H). rewrite Forall_forall in F. apply F. eapply nth_error_In; exact Ht.
    - rewrite T, !app_length, repeat_length. lia.
    - intros y Hy. destruct (S _ Hy) as [Y|Y]; [now apply H5|exact Y].
  Qed.
  Lemma ok_told : forall n x f, node_ok n x -> node_ok n (mkCN (cn_srv x) (cn_fwd x) (cn_remote x) f).
  Proof. intros n x f [H1 H2 H3 H4 H5]. split; auto. Qed.

  Lemma owned_some : forall n x c k id, node_ok n x -> aget (v_conns (cn_srv x)) c = Some k -> k_client k = Some id -> exists o, connects ES o c id.
  Proof.
    intros n x c k id O Hk Hid. pose proof (o_conn _ _ O _ _ Hk) as W. unfold owned in W.
    destruct (aget (cn_remote x) c) as [o|]; [exists o; now apply W|exists n; now apply W].
  Qed.
  Lemma moved_subs : forall n x c q s', node_ok n x -> moves E c q (cn_srv x) s' ->
    forall y, In y (v_subs s') -> In y (v_subs (cn_srv x)) \/ exists o id, connects ES o (s_conn y) id /\ id_contract id = s_contract y.
  Proof.
    intros n x c q s' O M y Hy. destruct (moves_subs _ _ _ _ _ M _ Hy) as [Y|(Hc & k & id & Hk & Hid & Hcon)]; [now left|right].
    destruct (owned_some _ _ _ _ _ O Hk Hid) as (o & Ho). exists o, id. rewrite Hc. auto.
  Qed.
  Lemma master_ok : forall x m o c sess id q y, node_ok m x -> m <> o -> A o c -> connects ES o c id ->
    master E x o c sess id q = Some y -> node_ok m y /\ v_next (cn_srv y) = v_next (cn_srv x).
  Proof.
    intros x m o c sess id q y O D Ha Hc H. unfold master in H.
    set (sr := match live (cn_srv x) c with Some _ => (cn_srv x, cn_remote x) | None => (set_conn (cn_srv x) c (rpc_conn sess id), aput (cn_remote x) c o) end) in H.
    assert (X : node_ok m (mkCN (on_conn (fst sr) c (set_client id)) (cn_fwd x) (snd sr) (cn_told x)) /\ v_next (fst sr) = v_next (cn_srv x)).
    { unfold sr. destruct (live (cn_srv x) c) as [k|] eqn:L; cbn [fst snd].
      - split; [|reflexivity]. assert (Hk : aget (v_conns (cn_srv x)) c = Some k).
        { unfold live in L. destruct (aget (v_conns (cn_srv x)) c) as [k0|]; [|discriminate]. destruct (k_open k0); [exact L|discriminate]. }
        destruct O as [H1 H2 H3 H4 H5]. split; cbn [cn_srv cn_fwd cn_remote cn_told]; rewrite ?on_tasks, ?on_vsubs; auto.
        intros q0 k0. rewrite get_on. destruct (q0 =? c) eqn:F; [|intro Y; exact (H2 _ _ Y)].
        assert (q0 = c) by lia. subst q0. rewrite Hk. cbn. intro Y. injection Y as <-. unfold owned. cbn.
        pose proof (H2 _ _ Hk) as W. unfold owned in W. destruct (aget (cn_remote x) c) as [o'|] eqn:R.
        + destruct (H1 _ _ R) as [Ha' _]. rewrite (A1 _ _ _ Ha' Ha). intros i Hi. injection Hi as <-. assumption.
        + exfalso. apply D. exact (A1 _ _ _ (proj1 W) Ha).
      - split; [|reflexivity]. destruct O as [H1 H2 H3 H4 H5]. split; cbn [cn_srv cn_fwd cn_remote cn_told]; rewrite ?on_tasks, ?on_vsubs; auto.
        + intros q0 o'. rewrite aget_aput. destruct (q0 =? c) eqn:F; [|apply H1]. intro Y. injection Y as <-. assert (q0 = c) by lia. subst q0. auto.
        + intros q0 k0. rewrite get_on, !get_set, N.eqb_refl. unfold owned. cbn [cn_remote]. rewrite aget_aput. destruct (q0 =? c) eqn:F; [|intro Y; exact (H2 _ _ Y)].
          cbn. intro Y. injection Y as <-. cbn. assert (q0 = c) by lia. subst q0. intros i Hi. injection Hi as <-. assumption. }
    assert (X2 : match (match q with
         | QSub l i => each (fun s y => sub_one E s c i y) (on_conn (fst sr) c (set_client id)) c l
         | QUnsub l i => each (fun s y => unsub_one E s c i y) (on_conn (fst sr) c (set_client id)) c l
         | QPub p => option_map fst (pub_msgs E (on_conn (fst sr) c (set_client id)) c p (p_msgs p))
         | _ => Some (on_conn (fst sr) c (set_client id))
         end) with Some s3 => Some (started true (mkCN s3 (cn_fwd x) (snd sr) (cn_told x))) | None => None end = Some y).
    { destruct sr as [sa ra]. exact H. }
    clear H. destruct X as [X Xn]. set (x1 := mkCN (on_conn (fst sr) c (set_client id)) (cn_fwd x) (snd sr) (cn_told x)) in X.
    match type of X2 with match ?t with _ => _ end = _ => destruct t as [s3|] eqn:F; [|discriminate] end.
    assert (M : moves E c q (cn_srv x1) s3).
    { destruct q as [who ins cl key|l i|l i|p|l i| |ty flow i]; cbn in F; try (injection F as <-; apply mv_refl).
      - eapply (each_moves _ _ _ _ _ l l); [|easy|exact F]. intros s0 z s1 Hz. now apply sub_moves.
      - eapply (each_moves _ _ _ _ _ l l); [|easy|exact F]. intros s0 z s1 Hz. now apply unsub_moves.
      - destruct (pub_msgs E _ c p (p_msgs p)) as [[s4 b]|] eqn:G; [|discriminate]. cbn in F. injection F as <-. now apply pub_moves in G. }
    injection X2 as <-. destruct (moves_tasks E 0 1 z0 z1 c q _ _ M) as (l & Ht & _). pose proof (kc_moves _ _ _ _ _ M) as K.
    split.
    - apply (ok_started m x1 s3 l true X K Ht); [discriminate|]. eapply moved_subs; eassumption.
    - cbn. rewrite (kc_n _ _ K). unfold x1. cbn [cn_srv]. rewrite on_next. exact Xn.
  Qed.
  Definition nx (G G' : net) : Prop := forall n, v_next (cn_srv (G' n)) = v_next (cn_srv (G n)).
  Lemma nx_trans : forall a b c, nx a b -> nx b c -> nx a c.
  Proof. intros a b c H K n. now rewrite K. Qed.
  Lemma nx_put : forall G n x, v_next (cn_srv x) = v_next (cn_srv (G n)) -> nx G (put_node G n x).
  Proof. intros G n x H m. destruct (Nat.eq_dec m n) as [->|D]; [now rewrite put_same|now rewrite put_other]. Qed.
  (** the loops of one packet *)
  Definition J (n : nat) (c : N) (G G' : net) : Prop := all_ok G' /\ aget (cn_remote (G' n)) c = None /\ nx G G'.
  Lemma route_ok : forall G n c k id q G' b, all_ok G -> A n c -> connects ES n c id -> is_remote RC n id = true ->
    route RC E G n c k id q = Some (G', b) ->
    all_ok G' /\ nx G G' /\ cn_srv (G' n) = cn_srv (G n) /\ cn_remote (G' n) = cn_remote (G n) /\ cn_fwd (G' n) = cn_fwd (G n).
  Proof.
    intros G n c k id q G' b O Ha Hc Hr H. unfold route in H. unfold is_remote in Hr.
    set (m := rc_ring RC n (id_contract id)) in *. assert (D : m <> n) by lia.
    set (x1 := mkCN (cn_srv (G n)) (cn_fwd (G n)) (cn_remote (G n)) _) in H.
    assert (O1 : all_ok (put_node G n x1)) by (apply ok_put; [assumption|]; apply ok_told; apply O).
    assert (N1 : nx G (put_node G n x1)) by (apply nx_put; reflexivity).
    destruct (rc_agree RC n m).
    - destruct (master E (put_node G n x1 m) n c (k_sess k) id q) as [y|] eqn:F; [|discriminate].
      destruct (master_ok _ m n c _ id q y (O1 m) D Ha Hc F) as [Oy Ny].
      assert (X : G' = put_node (put_node G n x1) m y) by (injection H as <- _; reflexivity). rewrite X.
      split; [now apply ok_put|]. split; [eapply nx_trans; [exact N1|]; now apply nx_put|].
      rewrite (put_other _ m) by lia. rewrite put_same. auto.
    - assert (X : G' = put_node G n x1) by (injection H as <- _; reflexivity). rewrite X. rewrite put_same. auto.
  Qed.
  Lemma nonremote : forall G n c k, all_ok G -> aget (v_conns (cn_srv (G n))) c = Some k -> aget (cn_remote (G n)) c = None ->
    A n c /\ forall id, k_client k = Some id -> connects ES n c id.
  Proof. intros G n c k O Hk Hr. pose proof (o_conn _ _ (O n) _ _ Hk) as W. unfold owned in W. now rewrite Hr in W. Qed.
  Lemma lift_ok : forall G n c q r G', all_ok G -> aget (cn_remote (G n)) c = None ->
    (forall s, r = Some s -> moves E c q (cn_srv (G n)) s /\ v_tasks s = v_tasks (cn_srv (G n))) -> lift G n r = Some G' -> J n c G G'.
  Proof.
    intros G n c q [s|] G' O Hr M H; [|discriminate]. cbn in H. assert (X : G' = put_node G n (set_srv s (G n))) by (injection H as <-; reflexivity). rewrite X.
    destruct (M s eq_refl) as [Mo T]. pose proof (kc_moves _ _ _ _ _ Mo) as K. split; [|split].
    - apply ok_put; [assumption|]. apply ok_srv; [apply O|assumption|assumption|eapply moved_subs; [apply O|exact Mo]].
    - rewrite put_same. exact Hr.
    - apply nx_put. cbn. apply K.
  Qed.
  Lemma plain_tasks : forall c q s s', moves E c q s s' -> (forall p, q <> QPub p) -> v_tasks s' = v_tasks s.
  Proof.
    intros c q s s' M Hq. destruct (moves_tasks E 0 1 z0 z1 c q _ _ M) as (l & -> & F). destruct l as [|t l]; [now rewrite app_nil_r|].
    inversion F as [|? ? (p & t' & pl & X & _)]; subst. now destruct (Hq p).
  Qed.
  Lemma sub_net_ok : forall n c l i G x G', In x l -> all_ok G -> aget (cn_remote (G n)) c = None -> sub_net RC E n c l i G x = Some G' -> J n c G G'.
  Proof.
    intros n c l i G x G' Hin O Hr H. unfold sub_net in H.
    assert (Here : lift G n (sub_one E (cn_srv (G n)) c i x) = Some G' -> J n c G G').
    { apply (lift_ok G n c (QSub l i)); [assumption|assumption|]. intros s Hs. apply (sub_moves E l) in Hs; [|assumption]. split; [assumption|].
      eapply plain_tasks; [exact Hs|discriminate]. }
    destruct (aget (v_conns (cn_srv (G n))) c) as [k|] eqn:Hk.
    2:{ assert (X : G' = G) by (injection H as <-; reflexivity). subst. split; [assumption|]. split; [assumption|]. intro m. reflexivity. }
    destruct (check_sub k (fst (fst x))); try (apply Here; exact H). destruct (k_client k) as [cl|] eqn:Hc; [|apply Here; exact H].
    match type of H with match ?t with _ => _ end = _ => destruct t as [ky|]; [|apply Here; exact H] end.
    destruct (M_Subs.exist (k_subs k) ky && is_remote RC n cl) eqn:F; [|apply Here; exact H].
    apply andb_prop in F. destruct F as [_ F]. destruct (nonremote G n c k O Hk Hr) as [Ha Hw].
    destruct (route RC E G n c k cl (QSub l i)) as [[G1 b]|] eqn:R; [|discriminate].
    destruct (route_ok _ _ _ _ _ _ _ _ O Ha (Hw _ Hc) F R) as (O1 & N1 & _ & R1 & _).
    assert (Hr1 : aget (cn_remote (G1 n)) c = None) by (rewrite R1; assumption).
    destruct b.
    - assert (X : G' = G1) by (injection H as <-; reflexivity). subst. split; [assumption|]. split; assumption.
    - apply (lift_ok G1 n c (QSub l i)) in H; [|assumption|assumption|].
      + destruct H as (O2 & H2 & N2). split; [assumption|]. split; [assumption|]. eapply nx_trans; eassumption.
      + intros s Hs. apply notify_moves with (q := QSub l i) in Hs. split; [assumption|]. eapply plain_tasks; [exact Hs|discriminate].
  Qed.
  Lemma unsub_net_ok : forall n c l i G x G', all_ok G -> aget (cn_remote (G n)) c = None -> unsub_net RC E n c l i G x = Some G' -> J n c G G'.
  Proof.
    intros n c l i G x G' O Hr H. unfold unsub_net in H.
    destruct (aget (v_conns (cn_srv (G n))) c) as [k|] eqn:Hk.
    2:{ assert (X : G' = G) by (injection H as <-; reflexivity). subst. split; [assumption|]. split; [assumption|]. intro m. reflexivity. }
    destruct (lift G n (unsub_one E (cn_srv (G n)) c i x)) as [G1|] eqn:F; [|discriminate].
    assert (J1 : J n c G G1).
    { apply (lift_ok G n c (QUnsub l i)) in F; [exact F|assumption|assumption|]. intros s Hs. apply (unsub_moves E (QUnsub l i)) in Hs. split; [assumption|].
      eapply plain_tasks; [exact Hs|discriminate]. }
    assert (Here : Some G1 = Some G' -> J n c G G') by (intro Y; assert (X : G' = G1) by (injection Y as <-; reflexivity); now subst).
    destruct (check_sub k x); try (apply Here; exact H). destruct (k_client k) as [cl|] eqn:Hc; [|apply Here; exact H].
    destruct (is_remote RC n cl) eqn:Fr; [|apply Here; exact H].
    destruct (nonremote G n c k O Hk Hr) as [Ha Hw]. destruct J1 as (O1 & Hr1 & N1).
    destruct (route RC E G1 n c k cl (QUnsub l i)) as [[G2 b]|] eqn:R; [|discriminate].
    destruct (route_ok _ _ _ _ _ _ _ _ O1 Ha (Hw _ Hc) Fr R) as (O2 & N2 & _ & R2 & _).
    assert (Hr2 : aget (cn_remote (G2 n)) c = None) by (rewrite R2; assumption).
    destruct b.
    - assert (X : G' = G2) by (injection H as <-; reflexivity). subst. split; [assumption|]. split; [assumption|]. eapply nx_trans; eassumption.
    - apply (lift_ok G2 n c (QUnsub l i)) in H; [|assumption|assumption|].
      + destruct H as (O3 & H3 & N3). split; [assumption|]. split; [assumption|]. eapply nx_trans; [exact N1|]. eapply nx_trans; eassumption.
      + intros s Hs. apply notify_moves with (q := QUnsub l i) in Hs. split; [assumption|]. eapply plain_tasks; [exact Hs|discriminate].
  Qed.
  Lemma each_net_ok : forall T (f : net -> T -> option net) n c (l l' : list T),
    (forall G x G', In x l -> all_ok G -> aget (cn_remote (G n)) c = None -> f G x = Some G' -> J n c G G') -> incl l' l ->
    forall G G', all_ok G -> aget (cn_remote (G n)) c = None -> each_net f G n c l' = Some G' -> J n c G G'.
  Proof.
    intros T f n c l. induction l' as [|x l' IH]; intros Hf Hi G G' O Hr H; cbn in H.
    - assert (X : G' = G) by (injection H as <-; reflexivity). subst. split; [assumption|]. split; [assumption|]. intro m. reflexivity.
    - destruct (is_stuck (cn_srv (G n)) c).
      + assert (X : G' = G) by (injection H as <-; reflexivity). subst. split; [assumption|]. split; [assumption|]. intro m. reflexivity.
      + destruct (f G x) as [G1|] eqn:F; [|discriminate].
        destruct (Hf _ _ _ (Hi x (or_introl eq_refl)) O Hr F) as (O1 & Hr1 & N1).
        destruct (IH Hf (fun y Hy => Hi y (or_intror Hy)) G1 G' O1 Hr1 H) as (O2 & Hr2 & N2).
        split; [assumption|]. split; [assumption|]. eapply nx_trans; eassumption.
  Qed.
  Lemma ack_ok : forall n c G G1 ty flow i, J n c G G1 -> J n c G (ack_net G1 n c (KCtl ty flow i)).
  Proof.
    intros n c G G1 ty flow i (O & Hr & N). unfold ack_net.
    assert (M : moves E c QPing (cn_srv (G1 n)) (ack (cn_srv (G1 n)) c (KCtl ty flow i))) by apply ack_moves.
    pose proof (kc_moves _ _ _ _ _ M) as K. split; [|split].
    - apply ok_put; [assumption|]. apply ok_srv; [apply O|assumption|eapply plain_tasks; [exact M|discriminate]|eapply moved_subs; [apply O|exact M]].
    - rewrite put_same. exact Hr.
    - eapply nx_trans; [exact N|]. apply nx_put. apply K.
  Qed.

  Lemma handle_kc : forall s c q s', (forall who ins cl key, q <> QConnect who ins cl key) -> handle E s c q = Some s' -> kc s s'.
  Proof.
    intros s c q s' Hq H. destruct q as [who ins cl key|l id|l id|p|l id| |ty flow id];
      try (eapply kc_moves, handle_moves; [|exact H]; exact I).
    - now destruct (Hq who ins cl key).
    - eapply kc_flow; exact H.
  Qed.
  Lemma close_subs : forall s c s', close_conn s c = Some s' -> incl (v_subs s') (v_subs s).
  Proof.
    intros s c s' H. unfold close_conn in H. destruct (aget (v_conns s) c) as [k|]; [|injection H as <-; apply incl_refl].
    destruct (negb (k_open k)); [injection H as <-; apply incl_refl|].
    destruct (k_subs k); [|destruct (k_client k); [|discriminate]]; injection H as <-; cbn; [apply incl_refl|apply incl_filter'].
  Qed.
  Lemma next_subs : forall s c s1 r, next_id s c = (s1, r) -> v_subs s1 = v_subs s.
  Proof.
    intros s c s1 r H. unfold next_id in H. destruct (aget (v_conns s) c) as [k|]; [|now injection H as <- _].
    destruct (mids_step _ _) as [m z]. now injection H as <- _.
  Qed.
  Lemma send_subs : forall s c i mode delay m s1 r, send_message s c i mode delay m = Some (s1, r) -> v_subs s1 = v_subs s.
  Proof.
    intros s c i mode delay m s1 r F. apply send_inv in F. destruct F as (s0 & G0 & G1).
    assert (X : v_subs s0 = v_subs s).
    { destruct (i =? 0); [|now destruct G0 as [-> _]]. eapply next_subs; exact G0. }
    rewrite <- X. destruct r; [|now subst]. destruct G1 as [G1| ->].
    - unfold batch_add in G1. destruct (aget (v_conns s0) c) as [k|]; [destruct (k_batch k); [|discriminate]|]; now injection G1 as <-.
    - unfold put_out. now rewrite on_vsubs, persist_vsubs.
  Qed.
  Lemma flow_subs : forall s c ty flow i s', on_flow E s c ty flow i = Some s' -> incl (v_subs s') (v_subs s).
  Proof.
    intros s c ty flow i s' H. unfold on_flow in H.
    destruct (aget (v_conns s) c) as [k|] eqn:Hk; [|injection H as <-; apply incl_refl].
    set (s1 := if match k_client k with Some _ => true | None => false end then _ else s) in *.
    assert (K : v_subs s1 = v_subs s).
    { unfold s1. destruct (k_client k); [|reflexivity]. cbn. now destruct (flow =? fRECEIPT). }
    clearbody s1.
    destruct (flow =? fRECEIVE).
    - destruct (log_get E (v_log s1) _) as [[x|]|].
      + injection H as <-. unfold put_out. rewrite on_vsubs, K. apply incl_refl.
      + injection H as <-. rewrite K. apply incl_refl.
      + apply close_subs in H. now rewrite K in H.
    - destruct (flow =? fRECEIPT); [|injection H as <-; rewrite K; apply incl_refl]. injection H as <-.
      unfold put_out. rewrite on_vsubs. destruct (k_client k); cbn; rewrite K; apply incl_refl.
  Qed.
  Lemma resume_subs : forall c b s, v_subs (resume E s c b) = v_subs s.
  Proof.
    intros c b s. unfold resume. generalize (log_keys E (v_log s) b). intro l. revert s.
    induction l as [|q l IH]; intro s; cbn [fold_left]; [reflexivity|]. rewrite IH. unfold resume_key.
    destruct (log_get E (v_log s) q) as [[x|ty f i]|]; [| |reflexivity]; destruct (N.testbit q 4); try reflexivity.
    unfold put_out. now rewrite !on_vsubs.
  Qed.
  Lemma connect_subs : forall s c who ins clean key s', on_connect_msg E s c who ins clean key = Some s' -> incl (v_subs s') (v_subs s).
  Proof.
    intros s c who ins clean key s' H. destruct who as [|id ch|id]; [discriminate| |].
    - unfold on_connect_msg in H. set (s1 := on_conn _ c (set_client id)) in H.
      assert (X1 : v_subs s1 = v_subs s) by (unfold s1, put_out; now rewrite !on_vsubs).
      destruct (aget (v_conns s1) c) as [k|]; [|injection H as <-; rewrite X1; apply incl_refl].
      destruct (m_hung (k_ids k)); [injection H as <-; rewrite on_vsubs, X1; apply incl_refl|].
      set (s2 := on_conn s1 c _) in *. assert (X2 : v_subs s2 = v_subs s) by (unfold s2; now rewrite on_vsubs).
      match type of H with match ?x with _ => _ end = _ => destruct x as [s4|] eqn:F; [|discriminate] end.
      assert (X4 : v_subs s4 = v_subs s).
      { destruct (sess_get E (v_log s2) _) as [[old|]|]; [|discriminate|]; injection F as <-; [|assumption].
        rewrite on_vsubs. destruct clean; [exact X2|now rewrite resume_subs]. }
      injection H as <-. destruct (_ =? _)%Z; cbn; rewrite X4; apply incl_refl.
    - cbn in H. destruct (say _ c (mkPM tClientid id)) as [s1|] eqn:F; [|discriminate].
      assert (X : v_subs s1 = v_subs s).
      { unfold say in F. destruct (send_message _ c 0 0 0 _) as [[s2 r]|] eqn:G; [|discriminate]. apply send_subs in G.
        unfold put_out in G. rewrite !on_vsubs in G. destruct r; injection F as <-; rewrite ?on_vsubs; exact G. }
      destruct (is_stuck s1 c); [injection H as <-; rewrite X; apply incl_refl|]. apply close_subs in H. now rewrite X in H.
  Qed.
  Lemma run_task_subs : forall s t s1 r, run_task E s t = Some (s1, r) -> v_subs s1 = v_subs s /\ match r with Some t' => task_conn t' = task_conn t | None => True end.
  Proof.
    intros s t s1 r H. destruct t as [c q t pl|c q m i [|n todo]|c q m i n todo]; cbn in H.
    - destruct (aget (v_conns s) c) as [k|]; [destruct (k_client k); [|discriminate]|]; injection H as <- <-; auto.
    - injection H as <- <-; auto.
    - destruct (aget (v_conns s) (s_conn n)) as [k|]; [destruct (k_open k)|]; try (injection H as <- <-; split; reflexivity).
      destruct (i =? 0); [|injection H as <- <-; split; reflexivity].
      destruct (next_id s c) as [s2 [j|]] eqn:F; injection H as <- <-; (split; [eapply next_subs; exact F|]); reflexivity || exact I.
    - destruct (aget (v_conns s) (s_conn n)) as [k|] eqn:Hk; [|injection H as <- <-; auto].
      assert (X : forall s1 r, match send_message s (s_conn n) i (s_mode n) (s_delay n) m with
              | Some (s1, Some i) => Some (s1, Some (TLoop c q m i todo)) | Some (s1, None) => Some (s1, None)
              | None => None end = Some (s1, r) -> v_subs s1 = v_subs s /\ match r with Some t' => task_conn t' = c | None => True end).
      { intros s2 r2. destruct (send_message _ _ _ _ _ _) as [[s3 [j|]]|] eqn:F; intro G; [| |discriminate];
          injection G as <- <-; (split; [eapply send_subs; exact F|]); reflexivity || exact I. }
      destruct (reliable (p_mode q)).
      + destruct (reliable (s_mode n)).
        * destruct (k_open k); [|discriminate]. injection H as <- <-. split; [|reflexivity]. unfold put_out. now rewrite on_vsubs.
        * destruct (s_mode n =? 0); [apply X; exact H|]. injection H as <- <-. split; reflexivity.
      + destruct (p_mode q =? 0); [apply X; exact H|]. injection H as <- <-. split; reflexivity.
  Qed.
  Lemma nth_cut : forall T (l : list T) i j, (i < length l)%nat ->
    nth_error (firstn i l ++ skipn (S i) l) j = if Nat.ltb j i then nth_error l j else nth_error l (S j).
  Proof.
    induction l as [|x l IH]; intros i j H; [cbn in H; lia|]. destruct i as [|i]; cbn [firstn skipn app].
    - reflexivity.
    - destruct j as [|j]; [reflexivity|]. cbn [nth_error]. rewrite IH by (cbn in H; lia).
      destruct (Nat.ltb j i) eqn:F1, (Nat.ltb (S j) (S i)) eqn:F2; try lia; reflexivity.
  Qed.
  Lemma nth_upd : forall T (l : list T) i j x, (i < length l)%nat ->
    nth_error (firstn i l ++ x :: skipn (S i) l) j = if Nat.eqb j i then Some x else nth_error l j.
  Proof.
    induction l as [|y l IH]; intros i j x H; [cbn in H; lia|]. destruct i as [|i]; cbn [firstn skipn app].
    - destruct j; reflexivity.
    - destruct j as [|j]; [reflexivity|]. cbn [nth_error]. rewrite IH by (cbn in H; lia). reflexivity.
  Qed.
  (** a goroutine advances *)
  Lemma ok_run : forall n x i s, node_ok n x -> step E (cn_srv x) (ERun i) = Some s ->
    nth_error (v_tasks (cn_srv x)) i <> None ->
    let ended := Nat.ltb (length (v_tasks s)) (length (v_tasks (cn_srv x))) in
    node_ok n (mkCN s (if ended then firstn i (cn_fwd x) ++ skipn (S i) (cn_fwd x) else cn_fwd x) (cn_remote x) (cn_told x)) /\
    v_next s = v_next (cn_srv x).
  Proof.
    intros n x i s [H1 H2 H3 H4 H5] Hs Hn. cbn [step] in Hs. destruct (nth_error (v_tasks (cn_srv x)) i) as [t|] eqn:Ht; [|contradiction].
    destruct (run_task E (cn_srv x) t) as [[s1 r]|] eqn:F; [|discriminate].
    assert (Hi : (i < length (v_tasks (cn_srv x)))%nat) by (apply nth_error_Some; congruence).
    destruct (run_task_subs _ _ _ _ F) as [S1 S2]. pose proof (kc_run_task _ _ _ _ _ F) as [K Kn].
    assert (L0 : length (firstn i (v_tasks (cn_srv x))) = i) by (rewrite firstn_length; lia).
    assert (L1 : length (skipn (S i) (v_tasks (cn_srv x))) = (length (v_tasks (cn_srv x)) - S i)%nat) by apply skipn_length.
    assert (Hc : forall c k, aget (v_conns s) c = Some k -> owned n x c (k_client k)).
    { intros c k Hk. injection Hs as <-. destruct (K _ _ Hk) as (k0 & Hk0 & E0). rewrite E0. exact (H2 _ _ Hk0). }
    assert (Hsub : v_subs s = v_subs (cn_srv x)) by (injection Hs as <-; exact S1).
    assert (Hnx : v_next s = v_next (cn_srv x)) by (injection Hs as <-; exact Kn).
    assert (Hts : v_tasks s = firstn i (v_tasks (cn_srv x)) ++ (match r with Some t' => [t'] | None => [] end) ++ skipn (S i) (v_tasks (cn_srv x))) by (injection Hs as <-; reflexivity).
    cbv zeta. split; [|exact Hnx]. destruct r as [t'|]; cbn [app] in Hts.
    - assert (Len : length (v_tasks s) = length (v_tasks (cn_srv x))) by (rewrite Hts, app_length; cbn [length]; rewrite L0, L1; lia).
      rewrite (proj2 (Nat.ltb_ge _ _)) by lia. split; cbn [cn_srv cn_fwd cn_remote]; rewrite ?Hsub; auto.
      + intros j tj Hj Hf. rewrite Hts, nth_upd in Hj by assumption. destruct (Nat.eqb j i) eqn:D.
        * assert (j = i) by lia. subst j. injection Hj as <-. rewrite S2. eapply H3; eassumption.
        * eapply H3; eassumption.
      + lia.
    - assert (Len : length (v_tasks s) = (length (v_tasks (cn_srv x)) - 1)%nat) by (rewrite Hts, app_length, L0, L1; lia).
      rewrite (proj2 (Nat.ltb_lt _ _)) by lia. split; cbn [cn_srv cn_fwd cn_remote]; rewrite ?Hsub; auto.
      + intros j tj Hj Hf. rewrite Hts, nth_cut in Hj by assumption. rewrite nth_cut in Hf by lia. destruct (Nat.ltb j i); eapply H3; eassumption.
      + rewrite Len, app_length, firstn_length, skipn_length. lia.
  Qed.
  Lemma step_ok : forall G ev G', all_ok G -> incl [ev] ES ->
    (forall n, ev = CAccept n -> A n (u32 (v_next (cn_srv (G n)) + 1))) -> c_step RC E G ev = Some G' -> all_ok G' /\
    forall n, v_next (cn_srv (G' n)) =
      match ev with
      | CAccept a => if Nat.eqb a n then u32 (v_next (cn_srv (G n)) + 1) else v_next (cn_srv (G n))
      | CRestart a k => if Nat.eqb a n then k else v_next (cn_srv (G n))
      | _ => v_next (cn_srv (G n))
      end.
  Proof.
    intros G ev G' O Hev Ha H.
    assert (Put : forall a x, node_ok a x -> v_next (cn_srv x) = v_next (cn_srv (G a)) -> all_ok (put_node G a x) /\ nx G (put_node G a x)).
    { intros a x Hx Hn. split; [now apply ok_put|now apply nx_put]. }
    destruct ev as [a|a c q|a i|a c|a c|a c m|a c|a k]; unfold c_step in H.
    - cbn [step] in H. set (c := u32 (v_next (cn_srv (G a)) + 1)) in *. specialize (Ha a eq_refl). fold c in Ha.
      set (x := mkCN _ _ _ _) in H. assert (X : G' = put_node G a x) by (injection H as <-; reflexivity). rewrite X. split.
      + apply ok_put; [assumption|]. destruct (O a) as [H1 H2 H3 H4 H5]. unfold x. split; cbn [cn_srv cn_fwd cn_remote v_conns v_tasks v_subs v_next]; auto.
        * intros c0 o. rewrite aget_adel. destruct (c0 =? c); [discriminate|apply H1].
        * intros c0 k. rewrite aget_aput. unfold owned. cbn [cn_remote v_next]. rewrite aget_adel. destruct (c0 =? c) eqn:F; [|intro Hk; exact (H2 _ _ Hk)].
          intro Y. injection Y as <-. assert (c0 = c) by lia. subst c0. cbn. split; [assumption|discriminate].
      + intro n. destruct (Nat.eqb a n) eqn:F; [assert (a = n) by lia; subst; now rewrite put_same|now rewrite put_other by lia].
    - assert (Same : Some G = Some G' -> all_ok G' /\ nx G G') by (intro Y; assert (X : G' = G) by (injection Y as <-; reflexivity); subst; split; [assumption|intro; reflexivity]).
      destruct (aget (cn_remote (G a)) c) as [|] eqn:Hr; [apply Same; exact H|].
      destruct (aget (v_conns (cn_srv (G a))) c) as [k|] eqn:Hk; [|apply Same; exact H].
      destruct (k_open k && negb (k_stuck k)); [|apply Same; exact H]. clear Same.
      destruct (nonremote G a c k O Hk Hr) as [Hac Hw].
      assert (Jn : J a c G G' -> all_ok G' /\ nx G G') by (intros (J1 & _ & J3); auto).
      assert (D : forall s l, Some (put_node (put_node G a (set_srv s (G a))) a (started false (set_srv s (G a)))) = Some G' ->
        kc (cn_srv (G a)) s -> v_tasks s = v_tasks (cn_srv (G a)) ++ l -> Forall (fun t => A a (task_conn t)) l ->
        (forall y, In y (v_subs s) -> In y (v_subs (cn_srv (G a))) \/ exists o id, connects ES o (s_conn y) id /\ id_contract id = s_contract y) -> all_ok G' /\ nx G G').
      { intros s l Y K T F S. assert (X : G' = put_node (put_node G a (set_srv s (G a))) a (started false (set_srv s (G a)))) by (injection Y as <-; reflexivity).
        rewrite X. assert (Ok : node_ok a (started false (set_srv s (G a)))) by (eapply ok_started; [apply O|exact K|exact T|intros _; exact F|exact S]). split.
        - intro m. destruct (Nat.eq_dec m a) as [->|Dm]; [now rewrite put_same|rewrite !put_other by assumption; apply O].
        - intro m. destruct (Nat.eq_dec m a) as [->|Dm]; [rewrite put_same; cbn; apply K|now rewrite !put_other by assumption]. }
      destruct q as [who ins cl key|l i|l i|p|l i| |ty flow i]; unfold handle_net in H.
      + cbn [handle] in H. destruct (on_connect_msg E (cn_srv (G a)) c who ins cl key) as [s|] eqn:F; [|discriminate]. cbn [lift] in H. rewrite put_same in H.
        pose proof (connect_tasks E 0 1 z0 z1 _ _ _ _ _ _ _ F) as T. pose proof (connect_subs _ _ _ _ _ _ _ F) as Su. destruct (kc_connect _ _ _ _ _ _ _ _ F) as [Kn Kc].
        assert (X : G' = put_node (put_node G a (set_srv s (G a))) a (started false (set_srv s (G a)))) by (injection H as <-; reflexivity). rewrite X.
        assert (Ok : node_ok a (started false (set_srv s (G a)))).
        { destruct (O a) as [H1 H2 H3 H4 H5]. unfold started. cbn [cn_srv set_srv cn_fwd cn_remote cn_told]. rewrite T, H4, Nat.sub_diag. cbn [repeat]. rewrite app_nil_r.
          split; cbn [cn_srv cn_fwd cn_remote]; auto; try (rewrite T; assumption).
          - intros c0 k0 Hk0. destruct (Kc _ _ Hk0) as (k1 & Hk1 & [->|(-> & id & ch & -> & ->)]); [exact (H2 _ _ Hk1)|].
            unfold owned. cbn [cn_remote]. rewrite Hr. split; [assumption|]. intros i Hi. injection Hi as <-. exists ch, ins, cl, key. apply Hev. now left. }
        split.
        * intro m. destruct (Nat.eq_dec m a) as [->|Dm]; [now rewrite put_same|rewrite !put_other by assumption; apply O].
        * intro m. destruct (Nat.eq_dec m a) as [->|Dm]; [rewrite put_same; cbn; apply Kn|now rewrite !put_other by assumption].
      + apply Jn. destruct (each_net (sub_net RC E a c l i) G a c l) as [G1|] eqn:F; [|discriminate]. cbn in H.
        assert (X : G' = ack_net G1 a c (KCtl tSUBSCRIBE fACK i)) by (injection H as <-; reflexivity). rewrite X. apply ack_ok.
        eapply (each_net_ok _ _ a c l l); [|easy|exact O|exact Hr|exact F]. intros G0 x G2 Hx O0 Hr0. now apply sub_net_ok.
      + apply Jn. destruct (each_net (unsub_net RC E a c l i) G a c l) as [G1|] eqn:F; [|discriminate]. cbn in H.
        assert (X : G' = ack_net G1 a c (KCtl tUNSUBSCRIBE fACK i)) by (injection H as <-; reflexivity). rewrite X. apply ack_ok.
        eapply (each_net_ok _ _ a c l l); [|easy|exact O|exact Hr|exact F]. intros G0 x G2 Hx O0 Hr0. now apply unsub_net_ok.
      + destruct (handle E (cn_srv (G a)) c (QPub p)) as [s|] eqn:F; [|discriminate]. cbn [lift] in H. rewrite put_same in H.
        pose proof (handle_moves E _ _ (QPub p) _ I F) as M. destruct (moves_tasks E 0 1 z0 z1 c _ _ _ M) as (l & T & Fl).
        apply (D s l H); [eapply kc_moves; exact M|exact T| |eapply moved_subs; [apply O|exact M]].
        eapply Forall_impl; [|exact Fl]. intros t (p0 & t' & pl & _ & ->). exact Hac.
      + destruct (handle E (cn_srv (G a)) c (QRelay l i)) as [s|] eqn:F; [|discriminate]. cbn [lift] in H. rewrite put_same in H.
        pose proof (handle_moves E _ _ (QRelay l i) _ I F) as M.
        apply (D s [] H); [eapply kc_moves; exact M|rewrite app_nil_r; eapply plain_tasks; [exact M|discriminate]|constructor|eapply moved_subs; [apply O|exact M]].
      + destruct (handle E (cn_srv (G a)) c QPing) as [s|] eqn:F; [|discriminate]. cbn [lift] in H. rewrite put_same in H.
        pose proof (handle_moves E _ _ QPing _ I F) as M.
        apply (D s [] H); [eapply kc_moves; exact M|rewrite app_nil_r; eapply plain_tasks; [exact M|discriminate]|constructor|eapply moved_subs; [apply O|exact M]].
      + destruct (handle E (cn_srv (G a)) c (QFlow ty flow i)) as [s|] eqn:F; [|discriminate]. cbn [lift] in H. rewrite put_same in H.
        apply (D s [] H); [eapply kc_flow; exact F|rewrite app_nil_r; eapply flow_tasks; exact F|constructor|].
        intros y Hy. left. eapply flow_subs; [exact F|exact Hy].
    - unfold run_net in H. destruct (nth_error (v_tasks (cn_srv (G a))) i) as [t|] eqn:Ht.
      2:{ assert (X : G' = G) by (injection H as <-; reflexivity). subst. split; [assumption|intro; reflexivity]. }
      destruct (send_gone (G a) t) as [t'|] eqn:Hg.
      + unfold send_gone in Hg. destruct t as [| |c p m0 id sn todo]; try discriminate.
        destruct (aget (cn_remote (G a)) (s_conn sn)) as [o|]; [|discriminate]. destruct (aget (v_conns (cn_srv (G a))) (s_conn sn)) as [sub|]; [|discriminate].
        destruct (negb (k_open sub) && reliable (p_mode p) && reliable (s_mode sn)); [|discriminate]. injection Hg as <-.
        match type of H with Some (put_node G a ?z) = _ => set (x := z) in H end. assert (X : G' = put_node G a x) by (injection H as <-; reflexivity). rewrite X.
        assert (Hi : (i < length (v_tasks (cn_srv (G a))))%nat) by (apply nth_error_Some; congruence).
        apply Put; [|unfold x; cbn; reflexivity].
        destruct (O a) as [H1 H2 H3 H4 H5]. unfold x. split; cbn [set_srv cn_srv cn_fwd cn_remote set_tasks v_tasks v_conns v_subs]; auto.
        * intros j tj Hj Hf. rewrite nth_upd in Hj by assumption. destruct (Nat.eqb j i) eqn:D; [|eapply H3; eassumption].
          assert (j = i) by lia. subst j. injection Hj as <-. exact (H3 _ _ Ht Hf).
        * rewrite app_length. cbn [length]. rewrite firstn_length, skipn_length. lia.
      + assert (H' : match step E (cn_srv (G a)) (ERun i) with
          | None => None
          | Some s => match t with
              | TLoop c p _ _ [] => publish_end RC E (put_node G a (mkCN s (if Nat.ltb (length (v_tasks s)) (length (v_tasks (cn_srv (G a)))) then firstn i (cn_fwd (G a)) ++ skipn (S i) (cn_fwd (G a)) else cn_fwd (G a)) (cn_remote (G a)) (cn_told (G a)))) a (nth i (cn_fwd (G a)) false) c p
              | _ => Some (put_node G a (mkCN s (if Nat.ltb (length (v_tasks s)) (length (v_tasks (cn_srv (G a)))) then firstn i (cn_fwd (G a)) ++ skipn (S i) (cn_fwd (G a)) else cn_fwd (G a)) (cn_remote (G a)) (cn_told (G a))))
              end
          end = Some G') by (destruct t; exact H). clear H. rename H' into H.
        destruct (step E (cn_srv (G a)) (ERun i)) as [s|] eqn:F; [|discriminate].
        destruct (ok_run a (G a) i s (O a) F) as [Ox Nx]; [congruence|].
        set (x := mkCN s _ _ _) in *. destruct (Put a x Ox Nx) as [P1 P2].
        assert (Done : Some (put_node G a x) = Some G' -> all_ok G' /\ nx G G') by (intro Y; assert (X : G' = put_node G a x) by (injection Y as <-; reflexivity); now rewrite X).
        destruct t as [c p t pl|c p m id [|y todo]|c p m id y todo]; try (apply Done; exact H).
        unfold publish_end in H. rewrite put_same in H.
        destruct (aget (v_conns (cn_srv x)) c) as [k|] eqn:Hk; [|apply Done; exact H].
        destruct (k_client k) as [cl|] eqn:Hc; [|discriminate].
        destruct (negb (nth i (cn_fwd (G a)) false) && is_remote RC a cl) eqn:B; [|apply Done; exact H].
        apply andb_prop in B. destruct B as [B1 B2].
        assert (Hac : A a c).
        { assert (Hi : (i < length (v_tasks (cn_srv (G a))))%nat) by (apply nth_error_Some; congruence).
          pose proof (o_len _ _ (O a)) as L. apply (o_task _ _ (O a) i _ Ht). destruct (nth_error (cn_fwd (G a)) i) as [b|] eqn:Hb.
          - rewrite (nth_error_nth _ _ false Hb) in B1. now destruct b.
          - apply nth_error_None in Hb. lia. }
        assert (Hr : aget (cn_remote (put_node G a x a)) c = None).
        { destruct (aget (cn_remote (put_node G a x a)) c) as [o|] eqn:R; [|reflexivity]. destruct (o_rem _ _ (P1 a) _ _ R) as [Ao Do].
          now destruct (Do (A1 _ _ _ Ao Hac)). }
        assert (Hk' : aget (v_conns (cn_srv (put_node G a x a))) c = Some k) by (rewrite put_same; exact Hk).
        destruct (nonremote _ a c k P1 Hk' Hr) as [_ Hw].
        destruct (route RC E (put_node G a x) a c k cl (QPub p)) as [[G1 b]|] eqn:R; [|discriminate]. cbn in H.
        assert (X : G' = G1) by (injection H as <-; reflexivity). subst G1.
        destruct (route_ok _ _ _ _ _ _ _ _ P1 Hac (Hw _ Hc) B2 R) as (O2 & N2 & _). split; [assumption|eapply nx_trans; eassumption].
    - cbn [step lift] in H. assert (X : G' = put_node G a (set_srv (send_batch (cn_srv (G a)) c) (G a))) by (injection H as <-; reflexivity). rewrite X.
      apply Put; [|cbn; apply kc_send_batch]. apply ok_srv; [apply O|apply kc_send_batch|apply (send_batch_tasks 0 1 z0 z1)|].
      intros y Hy. left. unfold send_batch in Hy. destruct (aget (v_conns (cn_srv (G a))) c) as [k|]; [|exact Hy].
      destruct (k_batch k) as [[|m0 l]|]; try exact Hy. destruct (k_open k); [|exact Hy].
      destruct (next_id _ c) as [s1 [z|]] eqn:F; apply next_subs in F; cbn [v_subs set_conn] in F.
      + unfold put_out in Hy. rewrite on_vsubs, persist_vsubs, F in Hy. exact Hy.
      + rewrite F in Hy. exact Hy.
    - destruct (aget (cn_remote (G a)) c) as [|].
      { assert (X : G' = G) by (injection H as <-; reflexivity). subst. split; [assumption|intro; reflexivity]. }
      cbn [step] in H. destruct (close_conn (cn_srv (G a)) c) as [s|] eqn:F; [|discriminate]. cbn [lift] in H.
      assert (X : G' = put_node G a (set_srv s (G a))) by (injection H as <-; reflexivity). rewrite X.
      apply Put; [|cbn; apply (kc_close _ _ _ F)]. apply ok_srv; [apply O|eapply kc_close; exact F|eapply close_tasks; exact F|].
      intros y Hy. left. eapply close_subs; [exact F|exact Hy].
    - assert (X : G' = conn_gone G a c m) by (injection H as <-; reflexivity). rewrite X. unfold conn_gone.
      destruct (live (cn_srv (G a)) c); [split; [assumption|intro; reflexivity]|].
      destruct (existsb _ (cn_told (G a))); [|split; [assumption|intro; reflexivity]].
      set (x := mkCN (cn_srv (G a)) _ _ _). destruct (Put a x) as [P1 P2]; [apply ok_told; apply O|reflexivity|].
      set (G1 := put_node G a x) in *.
      assert (Y : node_ok m (gone (G1 m) c) /\ v_next (cn_srv (gone (G1 m) c)) = v_next (cn_srv (G1 m))).
      { unfold gone. destruct (aget (cn_remote (G1 m)) c); [|split; [apply P1|reflexivity]].
        destruct (live (cn_srv (G1 m)) c) as [k|] eqn:L; [|split; [apply P1|reflexivity]]. split; [|reflexivity].
        assert (Hk : aget (v_conns (cn_srv (G1 m))) c = Some k).
        { unfold live in L. destruct (aget (v_conns (cn_srv (G1 m))) c) as [k0|]; [|discriminate]. destruct (k_open k0); [exact L|discriminate]. }
        apply ok_srv; [apply P1|eapply kc_aput; [exact Hk| |reflexivity|reflexivity]; reflexivity|reflexivity|].
        intros y Hy. left. cbn in Hy. now apply filter_In in Hy. }
      destruct Y as [Y1 Y2]. split; [now apply ok_put|]. eapply nx_trans; [exact P2|]. now apply nx_put.
    - unfold write_net in H.
      assert (Same : Some G = Some G' -> all_ok G' /\ nx G G') by (intro Y; assert (X : G' = G) by (injection Y as <-; reflexivity); subst; split; [assumption|intro; reflexivity]).
      destruct (aget (cn_remote (G a)) c) as [o|] eqn:Hr; [|apply Same; exact H].
      destruct (live (cn_srv (G a)) c) as [k|] eqn:L; [|apply Same; exact H].
      destruct (k_out k) as [|pk r]; [apply Same; exact H|]. clear Same.
      assert (Live : forall s k0, live s c = Some k0 -> aget (v_conns s) c = Some k0).
      { intros s k0 L0. unfold live in L0. destruct (aget (v_conns s) c) as [k1|]; [|discriminate]. destruct (k_open k1); [exact L0|discriminate]. }
      destruct (Put a (set_srv (set_conn (cn_srv (G a)) c (set_out r k)) (G a))) as [P1 P2].
      { apply ok_srv; [apply O|eapply kc_aput; [exact (Live _ _ L)| |reflexivity|reflexivity]; reflexivity|reflexivity|auto]. }
      { reflexivity. }
      set (G1 := put_node G a _) in *.
      assert (Done : Some G1 = Some G' -> all_ok G' /\ nx G G') by (intro Y; assert (X : G' = G1) by (injection Y as <-; reflexivity); now rewrite X).
      destruct pk as [p|ty fl i]; [apply Done; exact H|].
      destruct (live (cn_srv (G1 o)) c) as [k'|] eqn:L'; [|apply Done; exact H].
      destruct (aget (cn_remote (G1 o)) c); [discriminate|].
      set (x := set_srv _ (G1 o)) in H. assert (X : G' = put_node G1 o x) by (injection H as <-; reflexivity). rewrite X. split.
      + apply ok_put; [assumption|]. apply ok_srv; [apply P1|eapply kc_aput; [exact (Live _ _ L')| |reflexivity|reflexivity]; reflexivity|reflexivity|auto].
      + eapply nx_trans; [exact P2|]. apply nx_put. reflexivity.
    - cbn [step] in H. set (x := mkCN _ _ _ _) in H. assert (X : G' = put_node G a x) by (injection H as <-; reflexivity). rewrite X. split.
      + apply ok_put; [assumption|]. destruct (O a) as [H1 H2 H3 H4 H5]. unfold x. split; cbn; try discriminate; auto. intros i t Hi. destruct i; discriminate.
      + intro n. destruct (Nat.eqb a n) eqn:F; [assert (a = n) by lia; subst; now rewrite put_same|now rewrite put_other by lia].
  Qed.
End WHO.
Lemma node_new_ok : forall ES A n k, node_ok ES A n (cnode_new k).
Proof. intros. split; cbn; try discriminate; try contradiction; auto. intros i t H. destruct i; discriminate. Qed.
Lemma who_run : forall RC E ES (A : nat -> N -> Prop), (forall n m c, A n c -> A m c -> n = m) -> forall es G G', incl es ES -> all_ok ES A G ->
  (forall n c, In c (numbers n (v_next (cn_srv (G n))) es) -> A n c) -> c_run RC E G es = Some G' -> all_ok ES A G'.
Proof.
  intros RC E ES A A1. induction es as [|ev es IH]; intros G G' HES O HA H; cbn [c_run] in H.
  { assert (X : G' = G) by (injection H as <-; reflexivity). now subst. }
  destruct (c_step RC E G ev) as [G1|] eqn:F; [|discriminate].
  destruct (step_ok RC E ES A A1 G ev G1 O) as [O1 N1].
  - intros e [<-|[]]. apply HES. now left.
  - intros n ->. apply HA. cbn [numbers]. rewrite Nat.eqb_refl. now left.
  - exact F.
  - apply (IH G1 G'); [intros e He; apply HES; now right|assumption| |exact H].
    intros n c Hc. apply HA. rewrite N1 in Hc. destruct ev as [a|a c0 q|a i|a c0|a c0|a c0 m|a c0|a k]; cbn [numbers]; try exact Hc;
      destruct (Nat.eqb a n); try exact Hc. now right.
Qed.
Lemma who_acts : forall RC E starts es G, apart starts es -> c_run RC E (fresh starts) es = Some G ->
  (forall n c k id, aget (v_conns (cn_srv (G n))) c = Some k -> k_client k = Some id ->
     match aget (cn_remote (G n)) c with None => connects es n c id | Some o => connects es o c id end) /\
  (forall n x, In x (v_subs (cn_srv (G n))) -> exists o id, connects es o (s_conn x) id /\ id_contract id = s_contract x).
Proof.
  intros RC E starts es G Ap H.
  assert (O : all_ok es (fun n c => In c (numbers n (starts n) es)) G).
  { eapply (who_run RC E es _ Ap es (fresh starts)); [apply incl_refl| |intros n c Hc; exact Hc|exact H]. intro n. apply node_new_ok. }
  split.
  - intros n c k id Hk Hid. pose proof (o_conn _ _ _ _ (O n) _ _ Hk) as W. unfold owned in W.
    destruct (aget (cn_remote (G n)) c) as [o|]; [|destruct W as [_ W]]; now apply W.
  - intros n. apply (o_subs _ _ _ _ (O n)).
Qed.
