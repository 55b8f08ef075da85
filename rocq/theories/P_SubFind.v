(** Proofs about subscriptions in the database: every subscriber is found. *)
From Verif Require Import M_Bytes P_Bytes M_Bloom M_MsgId M_Mac M_Entry M_MemDB M_Window M_Query M_Topic M_DB M_SubStore S_Trie S_MemDB S_DB S_Session S_Only S_SubStore
  P_Codec P_DB P_Session5 P_Only P_SubStore.
From Coq Require Import Lia ZifyBool ZifyNat ZifyN Permutation.
Open Scope N_scope.

(** An identifier and at once the message with it are as a message that takes
    its own. *)
Lemma newid_put c s now k topic p s' e' : put_entry c s now (put_message k topic p 0) = (s', e', DOk) ->
  exists e'', put_entry c (next_seq s) now (put_with_id k (newID (unix now) (d_seq (next_seq s))) topic p) = (s', e'', DOk).
Proof.
  set (id := newID (unix now) (d_seq (next_seq s))).
  assert (Hlen : Nat.ltb (length id) 16 = false) by reflexivity.
  assert (Hseq : id_sequence id = d_seq (next_seq s)).
  { apply newID_sequence. unfold next_seq. cbn [d_seq set_seq]. unfold u64. now apply N.mod_lt. }
  unfold put_entry. change (d_closed (next_seq s)) with (d_closed s).
  destruct (d_closed s); [discriminate|].
  change (check_put (put_with_id k id topic p)) with (check_put (put_message k topic p 0)).
  destruct (check_put (put_message k topic p 0)); [discriminate|].
  unfold set_entry. cbn [put_message put_with_id u_contract u_topic u_hash u_id u_payload u_expires u_encrypt u_tsize].
  fold id. change (d_trie (next_seq s)) with (d_trie s). rewrite Hlen, Hseq. clearbody id.
  set (s1 := next_seq s).
  destruct (d_seq s1 =? 0); [discriminate|].
  match goal with |- context [if ?b then mac_encrypt ?m ?v else Some ?v] => destruct (if b then mac_encrypt m v else Some v) as [val|]; [|discriminate] end.
  cbn [e_seq e_topicHash e_expiresAt].
  destruct (mem_put _ _ _ _) as [m []]; try discriminate.
  destruct (add_topic _ _ _ _) as [tr|]; [|discriminate].
  intros [= <- <-]. eexists. reflexivity.
Qed.

Definition wpay (h : wish) : bytes := sub_payload (h_mode h) (h_conn h) (h_delay h).
Definition wish_fits (h : wish) : Prop := h_mode h < 2 ^ 8 /\ h_conn h < 2 ^ 32 /\ h_delay h < 2 ^ 32.
Lemma loop_wishes : forall l acc, Forall wish_fits l -> sub_loop (map wpay l) acc = FSent (acc ++ map h_target l).
Proof.
  induction l as [|h l IH]; intros acc Hl; cbn [map sub_loop]; [now rewrite app_nil_r|].
  inversion Hl as [|? ? (H1 & H2 & H3) Hr]; subst. unfold wpay at 1. rewrite decode_payload by assumption. rewrite IH by exact Hr.
  rewrite <- app_assoc. reflexivity.
Qed.

(** The subscriptions among the messages of the database. *)
Lemma subs_among (A B : N -> Prop) (now : Z) (f : bool) : (forall a b, A a -> B b -> sub_contract a <> owner b) -> (forall a, A a -> a <> connStoreId) ->
  forall k names ops, A k -> Forall sub_fits ops -> (forall k, In k (flat_map sub_side (map as_store ops)) -> A k) -> (forall k, In k (flat_map msg_side (map as_store ops)) -> B k) ->
  map s_payload (filter (fun m => asked (sub_contract k) names m && (f || in_time now m))%bool (flat_map sends (map as_sop ops))) =
  map wpay (filter (wanted k names) (flat_map wishes ops)).
Proof.
  intros Hab Hk0 k names. induction ops as [|o ops IH]; intros Ak Hf HA HB; [reflexivity|].
  cbn [map flat_map] in *. rewrite !filter_app, !map_app. rewrite IH; [|exact Ak|now inversion Hf|intros k' Hk'; apply HA, in_or_app; now right|intros k' Hk'; apply HB, in_or_app; now right].
  f_equal. destruct o as [now' k' p mode conn delay|now' g k' names'|now' k' p payload expires|now'| |now' ord]; cbn [as_sop sends wishes filter map]; try reflexivity.
  - assert (Ak' : A k') by (apply HA; now left).
    unfold asked, wanted, in_time. cbn [s_owner s_pattern s_expires h_contract h_pattern].
    change (N.lxor k' connStoreId) with (sub_contract k').
    rewrite !sub_contract_owner by (now apply Hk0).
    assert (E : (sub_contract k' =? sub_contract k) = (k' =? k)).
    { destruct (N.eqb_spec k' k) as [->|Hne]; [apply N.eqb_refl|]. apply N.eqb_neq. intros H. apply Hne. now apply sub_contract_inj. }
    rewrite E. rewrite N.eqb_refl, Bool.orb_true_l, Bool.orb_true_r, Bool.andb_true_r.
    destruct ((k' =? k) && matches (pt_levels p) (pt_multi p) names)%bool; [|reflexivity].
    cbn [map s_payload]. inversion Hf as [|? ? Hfo Hfr]; subst. destruct Hfo as (H1 & H2 & H3 & H4). unfold wpay, sub_payload. cbn [h_mode h_conn h_delay].
    unfold u8. rewrite N.mod_small by exact H2. reflexivity.
  - assert (Bk : B k') by (apply HB; now left).
    unfold asked at 1. cbn [s_owner s_pattern]. rewrite (sub_contract_owner k) by (now apply Hk0).
    destruct (N.eqb_spec (owner k') (sub_contract k)) as [E|]; [|reflexivity]. exfalso. exact (Hab _ _ Ak Bk (eq_sym E)).
Qed.

Lemma among_incl : forall (items : list bytes) (l : list wish), incl items (map wpay l) -> exists hs, items = map wpay hs /\ incl hs l.
Proof.
  induction items as [|x r IH]; intros l H; [exists []; split; [reflexivity|intros y []]|].
  destruct (IH l) as (hs & -> & Hh); [intros y Hy; apply H; now right|].
  assert (Hx : In x (map wpay l)) by (apply H; now left). apply in_map_iff in Hx. destruct Hx as (h & <- & Hin).
  exists (h :: hs). split; [reflexivity|]. intros y [<-|Hy]; auto.
Qed.

Lemma wishes_fit ops : Forall sub_fits ops -> Forall wish_fits (flat_map wishes ops).
Proof.
  intros H. apply Forall_forall. intros h Hh. apply in_flat_map in Hh. destruct Hh as (o & Ho & Hin).
  rewrite Forall_forall in H. specialize (H _ Ho). destruct o; cbn [wishes] in Hin; try (destruct Hin; fail).
  destruct Hin as [<-|[]]. destruct H as (_ & H). exact H.
Qed.
Lemma filter_fits ops k names : Forall sub_fits ops -> Forall wish_fits (filter (wanted k names) (flat_map wishes ops)).
Proof. intros H. apply wishes_fit in H. rewrite Forall_forall in *. intros h Hh. apply filter_In in Hh. apply H, Hh. Qed.

Lemma sim c (A B : N -> Prop) : (forall a b, A a -> B b -> sub_contract a <> owner b) -> (forall a, A a -> a <> connStoreId) ->
  forall ops pre first w w' douts, Forall sub_fits (pre ++ ops) ->
  (forall k, In k (flat_map sub_side (map as_store (pre ++ ops))) -> A k) -> (forall k, In k (flat_map msg_side (map as_store (pre ++ ops))) -> B k) ->
  drun c w (map as_dop (map as_sop ops)) = (w', douts) -> answered first (flat_map sends (map as_sop pre)) (map as_sop ops) douts ->
  exists outs, store_run c w (map as_store ops) = (w', outs) /\ reaches first (flat_map wishes pre) ops outs.
Proof.
  intros Hab Hk0. induction ops as [|o ops IH]; intros pre first w w' douts Hf HA HB E Ha; cbn [map drun] in E.
  - injection E as <- <-. exists []. split; [reflexivity|exact I].
  - destruct (dstep c w (as_dop (as_sop o))) as [w1 x] eqn:E1. destruct (drun c w1 (map as_dop (map as_sop ops))) as [w2 xs] eqn:E2. injection E as <- <-.
    assert (Hpre : pre ++ o :: ops = (pre ++ [o]) ++ ops) by (now rewrite <- app_assoc).
    assert (Hso : flat_map sends (map as_sop (pre ++ [o])) = flat_map sends (map as_sop pre) ++ sends (as_sop o)) by (rewrite map_app, flat_map_app; cbn [map flat_map]; now rewrite app_nil_r).
    assert (Hwo : flat_map wishes (pre ++ [o]) = flat_map wishes pre ++ wishes o) by (rewrite flat_map_app; cbn [flat_map]; now rewrite app_nil_r).
    assert (Ha2 : answered first (flat_map sends (map as_sop (pre ++ [o]))) (map as_sop ops) xs).
    { rewrite Hso. cbn [map answered] in Ha. exact (proj2 Ha). }
    assert (Hf' : Forall sub_fits ((pre ++ [o]) ++ ops)) by (now rewrite <- Hpre).
    assert (HA2 : forall k, In k (flat_map sub_side (map as_store ((pre ++ [o]) ++ ops))) -> A k) by (now rewrite <- Hpre).
    assert (HB2 : forall k, In k (flat_map msg_side (map as_store ((pre ++ [o]) ++ ops))) -> B k) by (now rewrite <- Hpre).
    destruct (IH (pre ++ [o]) first w1 w2 xs Hf' HA2 HB2 E2 Ha2) as (outs & Eo & Hr).
    rewrite Hwo in Hr. cbn [map answered] in Ha. destruct Ha as [Hx _].
    assert (Hfo : sub_fits o /\ Forall sub_fits pre).
    { apply Forall_app in Hf. destruct Hf as [Hp Hq]. inversion Hq; subst. auto. }
    destruct Hfo as [Hfo Hfp].
    assert (G : exists y, store_step c w (as_store o) = (w1, y) /\ match o with
      | PSub _ _ _ _ _ _ => exists id, y = TSubbed id (ORes DOk)
      | PFind now g k names => exists ts, y = TFound (FSent ts) /\
          incl ts (map h_target (filter (wanted k names) (flat_map wishes pre))) /\
          (spared first (N.lxor k connStoreId) names = false -> ts = rev (map h_target (filter (wanted k names) (flat_map wishes pre))))
      | _ => True end).
    { destruct o as [now k p mode conn delay|now g k names|now k p payload expires|now| |now ord]; cbn [as_store as_sop as_dop store_step] in *.
      - subst x. destruct w as [s|f]; [|discriminate E1]. cbn [dstep] in E1.
        destruct (put_entry c s now _) as [[s' e'] r] eqn:Ep. injection E1 as <- ->.
        destruct Hfo as (F1 & F2 & F3 & F4).
        assert (Epay : mode :: le 4 conn ++ le 4 delay = sub_payload mode conn delay) by (unfold sub_payload, u8; now rewrite N.mod_small).
        rewrite Epay in Ep. fold (put_message (N.lxor k connStoreId) (text p) (sub_payload mode conn delay) 0) in Ep.
        destruct (newid_put _ _ _ _ _ _ _ _ Ep) as [e2 Ep2]. cbn [dstep db_new_id].
        unfold sub_contract. rewrite Ep2. eexists. split; [reflexivity|]. eexists. reflexivity.
      - fold (query_of (N.lxor k connStoreId) (text (static names))) in E1. unfold sub_contract. rewrite E1. eexists. split; [reflexivity|].
        destruct Hx as (items & -> & Hi & He).
        assert (Ak : A k).
        { apply HA. rewrite map_app, flat_map_app. apply in_or_app. right. now left. }
        assert (HAp : forall k, In k (flat_map sub_side (map as_store pre)) -> A k) by (intros k' Hk'; apply HA; rewrite map_app, flat_map_app; apply in_or_app; now left).
        assert (HBp : forall k, In k (flat_map msg_side (map as_store pre)) -> B k) by (intros k' Hk'; apply HB; rewrite map_app, flat_map_app; apply in_or_app; now left).
        pose proof (subs_among A B 0%Z true Hab Hk0 k names pre Ak Hfp HAp HBp) as S1.
        pose proof (subs_among A B now false Hab Hk0 k names pre Ak Hfp HAp HBp) as S2.
        unfold expect in He. change (sub_contract k) with (N.lxor k connStoreId) in S1, S2.
        assert (Hi2 : incl items (map wpay (filter (wanted k names) (flat_map wishes pre)))).
        { rewrite <- S1. erewrite filter_ext; [exact Hi|]. intros m. cbv beta. now rewrite Bool.orb_true_l, Bool.andb_true_r. }
        destruct (among_incl _ _ Hi2) as (hs & -> & Hh).
        pose proof (filter_fits pre k names Hfp) as Hw.
        assert (Hhs : Forall wish_fits hs) by (rewrite Forall_forall in *; auto).
        cbn [sub_found]. rewrite loop_wishes by exact Hhs. eexists. split; [reflexivity|]. cbn [app]. split.
        { intros y Hy. apply in_map_iff in Hy. destruct Hy as (h & <- & Hin). apply in_map. auto. }
        intros Hsp. specialize (He Hsp). cbn [orb] in S2. rewrite S2, <- map_rev in He.
        assert (E3 : sub_loop (map wpay hs) [] = sub_loop (map wpay (rev (filter (wanted k names) (flat_map wishes pre)))) []) by (now rewrite He).
        rewrite !loop_wishes in E3; [|apply Forall_rev; exact Hw|exact Hhs]. cbn [app] in E3. injection E3 as E3. rewrite E3. apply map_rev.
      - fold (put_message k (text p) payload expires) in E1. rewrite E1. eexists. split; [reflexivity|exact I].
      - rewrite E1. eexists. split; [reflexivity|exact I].
      - rewrite E1. eexists. split; [reflexivity|exact I].
      - rewrite E1. eexists. split; [reflexivity|exact I]. }
    destruct G as (y & Es & Hy). exists (y :: outs). cbn [map store_run]. rewrite Es, Eo. split; [reflexivity|]. cbn [reaches]. split; [exact Hy|exact Hr].
Qed.

Lemma store_found c gens t ord ops : setting_ok c gens -> (0 <= t)%Z -> session_ok c t [] (map as_sop ops) -> N.of_nat (length ops) <= 130000 ->
  Forall sub_fits ops -> apart (map as_store ops) ->
  exists first w outs, store_run c (store_start c gens t ord) (map as_store ops) = (w, outs) /\
    (Forall (fun o => psyncs o = false) ops -> first = None) /\ reaches first [] ops outs.
Proof.
  intros Hs Ht Hok Hn Hf [H1 H2].
  destruct (session c gens t ord false false (map as_sop ops) Hs Ht Hok) as (first & douts & Ed & Hfirst & Ha); [now rewrite map_length|].
  cbn [drun] in Ed. destruct (start_up c gens t ord Hs Ht) as [Eo _]. unfold store_start.
  destruct (dstep c (Down no_files) _) as [w0 x0]. cbn [fst snd] in *. subst x0.
  destruct (drun c w0 (map as_dop (map as_sop ops))) as [w' xs] eqn:E. cbn [snd] in Ed. injection Ed as ->.
  destruct (sim c (fun k => In k (flat_map sub_side (map as_store ops))) (fun k => In k (flat_map msg_side (map as_store ops))) H1) with (ops := ops) (pre := @nil sub_op) (first := first) (w := w0) (w' := w') (douts := douts)
    as (outs & Er & Hr); auto.
  { intros a Ha' ->. exact (H2 Ha'). }
  exists first, w', outs. split; [exact Er|]. split; [|exact Hr].
  intros Hq. apply Hfirst. apply Forall_map. revert Hq. apply Forall_impl. intros [] Hq; try reflexivity. discriminate Hq.
Qed.
