(** Proofs about relays. *)
From Verif Require Import M_Bytes P_Bytes M_Bloom M_MsgId M_Mac M_Entry M_MemDB M_Window M_Query M_Topic M_DB M_SubStore M_Relay S_Trie S_MemDB S_DB S_Session S_Only S_SubStore S_Since S_Relay
  P_Codec P_DB P_Session5 P_Only P_SubStore P_SubFind P_Since.
From Coq Require Import Lia ZifyBool ZifyNat ZifyN Permutation.
Open Scope N_scope.

Lemma stamps_published (f : Z * sent -> bool) k : (forall x, f x = true -> s_owner (snd x) = owner k) ->
  forall ops, (forall a, In a (flat_map subs_of ops) -> owner (N.lxor a connStoreId) <> owner k) ->
  filter f (flat_map stamps (map as_lop ops)) = filter f (flat_map published ops).
Proof.
  intros Hf. induction ops as [|o ops IH]; intros Hs; [reflexivity|]. cbn [map flat_map] in *. rewrite !filter_app.
  rewrite IH by (intros a Ha; apply Hs, in_or_app; now right). f_equal.
  destruct o as [[now k' p mode conn delay|now g k' names|now k' p payload expires|now| |now ord]|now g k' names [|b last]]; cbn [as_lop as_sop stamps sends clock map published filter]; try reflexivity.
  destruct (f (now, _)) eqn:E; [|reflexivity]. apply Hf in E. cbn [snd s_owner] in E. exfalso. eapply Hs; [|exact E]. now left.
Qed.

(** One operation of the store is one of the database. *)
Lemma store_one c w o w1 x : sub_fits o -> dstep c w (as_dop (as_sop o)) = (w1, x) ->
  match o with PSub _ _ _ _ _ _ => x = ORes DOk | _ => True end ->
  exists y, store_step c w (as_store o) = (w1, y).
Proof.
  intros Hf E Hx. destruct o as [now k p mode conn delay|now g k names|now k p payload expires|now| |now ord]; cbn [as_store as_sop as_dop store_step] in *.
  - subst x. destruct w as [s|f]; [|discriminate E]. cbn [dstep] in E.
    destruct (put_entry c s now _) as [[s' e'] r] eqn:Ep. injection E as <- ->.
    destruct Hf as (F1 & F2 & F3 & F4).
    assert (Epay : mode :: le 4 conn ++ le 4 delay = sub_payload mode conn delay) by (unfold sub_payload, u8; now rewrite N.mod_small).
    rewrite Epay in Ep. fold (put_message (N.lxor k connStoreId) (text p) (sub_payload mode conn delay) 0) in Ep.
    destruct (newid_put _ _ _ _ _ _ _ _ Ep) as [e2 Ep2]. cbn [dstep db_new_id].
    unfold sub_contract. rewrite Ep2. eexists. reflexivity.
  - fold (query_of (N.lxor k connStoreId) (text (static names))) in E. unfold sub_contract. rewrite E. eexists. reflexivity.
  - fold (put_message k (text p) payload expires) in E. rewrite E. eexists. reflexivity.
  - rewrite E. eexists. reflexivity.
  - rewrite E. eexists. reflexivity.
  - rewrite E. eexists. reflexivity.
Qed.

Lemma relay_sim c : forall ops pre first w w' douts, Forall rel_fits ops -> relays_apart (pre ++ ops) ->
  drun c w (map (as_ldop c) (map as_lop ops)) = (w', douts) -> spanned c first (flat_map stamps (map as_lop pre)) (map as_lop ops) douts ->
  exists outs, rel_run c w (map as_rel ops) = (w', outs) /\ relays c first (flat_map published pre) ops outs.
Proof.
  induction ops as [|o ops IH]; intros pre first w w' douts Hf Hap E Ha; cbn [map drun] in E.
  - injection E as <- <-. exists []. split; [reflexivity|exact I].
  - destruct (dstep c w (as_ldop c (as_lop o))) as [w1 x] eqn:E1. destruct (drun c w1 (map (as_ldop c) (map as_lop ops))) as [w2 xs] eqn:E2. injection E as <- <-.
    assert (Hso : flat_map stamps (map as_lop (pre ++ [o])) = flat_map stamps (map as_lop pre) ++ stamps (as_lop o)) by (rewrite map_app, flat_map_app; cbn [map flat_map]; now rewrite app_nil_r).
    assert (Hwo : flat_map published (pre ++ [o]) = flat_map published pre ++ published o) by (rewrite flat_map_app; cbn [flat_map]; now rewrite app_nil_r).
    inversion Hf as [|? ? Hfo Hfr]; subst. cbn [map spanned] in Ha. destruct Ha as [Hx Ha2].
    destruct (IH (pre ++ [o]) first w1 w2 xs Hfr) as (outs & Eo & Hr).
    { rewrite <- app_assoc. exact Hap. } { exact E2. } { rewrite Hso. exact Ha2. }
    rewrite Hwo in Hr.
    assert (G : exists y, rel_step c w (as_rel o) = (w1, y) /\ match o with
      | VRelay now g k names [] => y = RSent []
      | VRelay now g k names last => exists items, y = RSent (map (pair (text (static names))) items) /\
          incl items (map (fun x => s_payload (snd x)) (filter (fun x => asked k names (snd x) && recent (back c now last) x)%bool (flat_map published pre))) /\
          (spared first k names = false -> items = expect_since now k names (back c now last) (flat_map published pre))
      | VDo _ => True end).
    { destruct o as [o|now g k names last].
      - cbn [as_lop as_ldop as_rel rel_step] in *. destruct (store_one c w o w1 x Hfo E1) as (y & Ey).
        { destruct o; try exact I. cbn [as_sop] in Hx. exact Hx. }
        rewrite Ey. eexists. split; [reflexivity|exact I].
      - cbn [as_rel rel_step] in *. destruct last as [|b last]; cbn [as_lop as_ldop] in *.
        + exists (RSent []). split; [|reflexivity]. cbn [as_dop] in E1. destruct w; cbn [dstep] in E1; injection E1 as <- _; reflexivity.
        + change (relay_query c now k (text (static names)) (b :: last)) with (last_query c now k names 0 (b :: last)). rewrite E1.
          eexists. split; [reflexivity|]. destruct Hx as (items & -> & Hi & He). exists items. cbn [relay_sent]. split; [reflexivity|].
          assert (Hs : forall a, In a (flat_map subs_of pre) -> owner (N.lxor a connStoreId) <> owner k).
          { intros a Ha. apply Hap; rewrite flat_map_app; apply in_or_app; [now left|right]. now left. }
          unfold expect_since in *. split.
          * rewrite (stamps_published _ k) in Hi; [exact Hi| |exact Hs]. intros y Hy. apply Bool.andb_true_iff in Hy as [Hy _]. unfold asked in Hy. apply Bool.andb_true_iff in Hy as [Hy _]. now apply N.eqb_eq.
          * intros Hsp. rewrite (He Hsp). rewrite (stamps_published _ k); [reflexivity| |exact Hs].
            intros y Hy. apply Bool.andb_true_iff in Hy as [Hy _]. apply Bool.andb_true_iff in Hy as [Hy _]. unfold asked in Hy. apply Bool.andb_true_iff in Hy as [Hy _]. now apply N.eqb_eq. }
    destruct G as (y & Es & Hy). exists (y :: outs). cbn [map rel_run]. rewrite Es, Eo. split; [reflexivity|]. cbn [relays]. split; [exact Hy|exact Hr].
Qed.

Lemma relays_ok c gens t ord ops : setting_ok c gens -> (0 <= t)%Z -> span_ok c t [] (map as_lop ops) -> N.of_nat (length ops) <= 130000 ->
  Forall rel_fits ops -> relays_apart ops ->
  exists first w outs, rel_run c (store_start c gens t ord) (map as_rel ops) = (w, outs) /\
    (Forall (fun o => rel_syncs o = false) ops -> first = None) /\ relays c first [] ops outs.
Proof.
  intros Hs Ht Hok Hn Hf Hap.
  destruct (session_since c gens t ord false false (map as_lop ops) Hs Ht Hok) as (first & douts & Ed & Hfirst & Ha); [now rewrite map_length|].
  cbn [drun] in Ed. destruct (start_up c gens t ord Hs Ht) as [Eo _]. unfold store_start.
  destruct (dstep c (Down no_files) _) as [w0 x0]. cbn [fst snd] in *. subst x0.
  destruct (drun c w0 (map (as_ldop c) (map as_lop ops))) as [w' xs] eqn:E. cbn [snd] in Ed. injection Ed as ->.
  destruct (relay_sim c ops [] first w0 w' douts Hf Hap E Ha) as (outs & Er & Hr).
  exists first, w', outs. split; [exact Er|]. split; [|exact Hr].
  intros Hq. apply Hfirst. apply Forall_map. revert Hq. apply Forall_impl. intros [[]|? ? ? ? []] Hq; try reflexivity. discriminate Hq.
Qed.
