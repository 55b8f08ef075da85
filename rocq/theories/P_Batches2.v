(** Proofs about batches in sessions: the steps of a batch. *)
From Verif Require Import M_Bytes P_Bytes M_File M_Hash M_Bloom M_Entry P_Codec M_MsgId M_Mac M_Topic M_Trie M_Query M_IndexBlock M_Lease
  M_BlockStore M_WinBlock M_Wal M_MemDB M_Window M_Get M_DB S_Trie S_Window S_BlockStore S_MemDB S_Get S_DB S_Session S_Batches
  P_Topic P_Trie P_Trie2 P_Trie3 P_MemBlock P_MemDB P_MemGet P_DB P_Session P_Session2 P_Session3 P_Session4 P_Batches.
From Coq Require Import Lia ZifyBool ZifyNat ZifyN Permutation Sorted.
Open Scope Z_scope.

(** * The store *)
Definition alike (m m' : mdb) : Prop :=
  m_blocks m' = m_blocks m /\ m_bufs m' = m_bufs m /\ m_pool m' = m_pool m /\ m_live m' = m_live m /\ m_filters m' = m_filters m /\
  m_closed m' = m_closed m /\ m_qfilters m' = m_qfilters m.
Lemma alike_refl m : alike m m.
Proof. now repeat split. Qed.
Lemma ginv_to c m m' g t : ginv c m g -> alike m m' -> g_cur g <= t -> live m t <> None -> m_cur m' = t -> ginv c m' (mkG t true (g_slot g)).
Proof.
  intros [W Fr H F C O Q] (A1 & A2 & A3 & A4 & A5 & A6 & A7) Ht Hl Hc. split; cbn [g_slot g_cur g_open].
  - eapply winv_same; eassumption.
  - eapply frec_same; [exact Fr|exact A5|auto].
  - eapply hinv_same; [exact H|assumption|assumption|assumption|reflexivity].
  - eapply finv_same; [exact F|exact A5|exact Ht|auto].
  - exact Hc.
  - split; [reflexivity|]. intros _. unfold live in *. rewrite A4. exact Hl.
  - congruence.
Qed.
Lemma ginv_add c m g t : ginv c m g -> g_open g = true -> ginv c (addTimeBlock m t None) g.
Proof.
  intros [W Fr H F C O Q] Ho. destruct (addTimeBlock_inv m _ t None W) as (W1 & F1 & C1). split.
  - exact W1.
  - eapply frec_same; [exact Fr|exact F1|auto].
  - eapply hinv_add; eassumption.
  - eapply finv_same; [exact F|exact F1|lia|auto].
  - congruence.
  - split; [auto|]. intros _. assert (L : live m (g_cur g) <> None) by now apply O.
    unfold addTimeBlock. destruct (live m t) eqn:El; [exact L|]. unfold live. cbn [set_live m_live].
    destruct (Z.eq_dec (g_cur g) t) as [E|Hn]; [rewrite E in L; congruence|]. rewrite (afind_aset_other _ Zeqb_iff) by congruence. exact L.
  - rewrite add_q, F1. exact Q.
Qed.
Lemma ginv_tiny c m g id t : ginv c m g -> ginv c (tinyWrite m id t) g.
Proof.
  intros [W Fr H F C O Q]. destruct (tinyWrite_inv m _ id t W) as (W1 & F1 & C1 & L1). split.
  - exact W1.
  - eapply frec_same; [exact Fr|exact F1|auto].
  - now apply hinv_tiny.
  - eapply finv_same; [exact F|exact F1|lia|auto].
  - congruence.
  - unfold live in *. rewrite L1. exact O.
  - rewrite tiny_q, F1. exact Q.
Qed.
Lemma inv_mem2 c s l g off H first M T e t mm b : inv c s l g off H first M T e t -> ginv (c_mem c) mm (mkG b true (g_slot g)) ->
  b <= trunc t (c_dur (c_mem c)) -> inv c (set_mem s mm) l (mkG b true (g_slot g)) off H first M T e t.
Proof.
  intros [Hcl Henc Hl Hm Htw Hwin Hst Htr Hcur HT] Hg Hb.
  split; cbn [set_mem d_closed d_enc d_seq d_mem d_tw d_win d_index d_data d_lease d_trie]; auto.
  - destruct Hm as [M1 M2 M3 M4 M5]. split; [exact Hg|reflexivity|..]; auto.
  - destruct Hwin as [W1 W2 W3 W4]. split; auto.
  - destruct Hst as [S1 [G1 G2] S4]. split; auto. split; auto.
Qed.

(** * One message *)
Definition full_raw (k : N) (p : pattern) : bytes := topic_marshal (t_parts (filed k (text p))) (t_depth (filed k (text p))).
Definition known (l : list gmsg) (h : N) : Prop := exists x, In x l /\ gm_hash x = h.
Definition raw_ok (l : list gmsg) (m : gmsg) : Prop :=
  (gm_raw m = [] /\ known l (gm_hash m)) \/ gm_raw m = full_raw (s_owner (gm_sent m)) (s_pattern (gm_sent m)).
Lemma known_find l h : known l h -> find (fun x => (gm_hash x =? h)%N) l <> None.
Proof. intros (x & Hx & E) Hf. apply (find_none _ _ Hf) in Hx. cbv beta in Hx. rewrite E, N.eqb_refl in Hx. discriminate. Qed.
Lemma raw_more l l' m : incl l l' -> raw_ok l m -> raw_ok l' m.
Proof. intros Hl [(E & x & Hx & Ex)|E]; [left|now right]. split; [exact E|]. exists x. auto. Qed.
Lemma raw_of_ok s l m off : trie_part (d_trie s) l off -> gm_raw m = raw_of s (s_owner (gm_sent m)) (s_pattern (gm_sent m)) -> raw_ok l m.
Proof.
  intros (Mt & Htr & EM) Hr. unfold raw_of in Hr.
  change (get_hash (s_owner (gm_sent m)) (filed (s_owner (gm_sent m)) (text (s_pattern (gm_sent m))))) with (gm_hash m) in Hr.
  rewrite (tries_offset _ _ _ Htr), EM in Hr. unfold topic_of in Hr.
  destruct (find (fun x => (gm_hash x =? gm_hash m)%N) l) as [x|] eqn:Ef; [|right; exact Hr]. left. split; [exact Hr|].
  apply find_some in Ef as [Hx Ex]. apply N.eqb_eq in Ex. exists x. auto.
Qed.

Lemma trie_put2 c tr0 l m off : gm_ok c m -> trie_part tr0 l off ->
  (find (fun x => (gm_hash x =? gm_hash m)%N) l = None -> off (gm_hash m) = 0) -> raw_ok l m ->
  exists tr, add_topic tr0 (gm_entry m) (gm_cache m) (entrySize + idSize) = Some tr /\ trie_part tr (l ++ [m]) off.
Proof.
  intros Hok (Mt & Htr & EM) Hoff Hraw. set (k := s_owner (gm_sent m)) in *. set (p := s_pattern (gm_sent m)) in *.
  pose proof (gk_plain _ _ Hok) as Hpl. fold k p in Hpl.
  assert (Eh : gm_hash m = get_hash k (filed k (text p))) by reflexivity.
  assert (Hstay : find (fun x => (gm_hash x =? gm_hash m)%N) l <> None -> trie_part tr0 (l ++ [m]) off).
  { intros Ef. exists Mt. split; [exact Htr|]. intros h. rewrite EM. unfold topic_of. rewrite find_snoc.
    destruct (find (fun x => (gm_hash x =? h)%N) l) eqn:Ef2; [reflexivity|]. destruct (N.eqb_spec (gm_hash m) h) as [E|]; [|reflexivity]. subst h. congruence. }
  unfold add_topic. change (e_topicSize (gm_entry m)) with (N.of_nat (length (gm_raw m))). change (e_topicHash (gm_entry m)) with (gm_hash m).
  destruct Hraw as [(Hr0 & Hk)|Hr0].
  { rewrite Hr0. cbn [length N.of_nat N.eqb]. exists tr0. split; [reflexivity|]. apply Hstay. now apply known_find. }
  fold k p in Hr0. unfold full_raw in Hr0. destruct (plain_raw k p Hpl) as [Hr _]. rewrite <- Hr0 in Hr.
  assert (Hne : (0 < length (gm_raw m))%nat) by (rewrite Hr0; unfold topic_marshal; cbn; lia).
  destruct (N.eqb_spec (N.of_nat (length (gm_raw m))) 0); [lia|].
  unfold topic_bytes. destruct (N.leb_spec (2 ^ 16) (N.of_nat (entrySize + idSize) + N.of_nat (length (gm_raw m)))) as [Hb|_].
  { unfold entrySize, idSize in Hb. lia. }
  assert (Es : slice (gm_cache m) (entrySize + idSize) (N.to_nat (N.of_nat (length (gm_raw m)))) = gm_raw m).
  { rewrite Nat2N.id. unfold gm_cache, gm_body. rewrite app_assoc. apply slice_app_mid; [|reflexivity].
    rewrite app_length, entry_marshal_length, (gk_id _ _ Hok). reflexivity. }
  rewrite Es, Hr0. pose proof (stored_plain k p (text p) Hpl (or_introl eq_refl)) as Est. unfold stored in Est. rewrite Est.
  destruct (trie_add tr0 (gm_hash m, 0) (fparts k (text p)) (fdepth k (text p))) as [tr b] eqn:Ea. cbn [fst].
  exists tr. split; [reflexivity|].
  destruct (find (fun x => (gm_hash x =? gm_hash m)%N) l) as [m0|] eqn:Ef.
  - assert (tr = tr0) as ->.
    { unfold trie_add in Ea. cbn [fst] in Ea. rewrite (ti_sum _ _ (tries_inv _ _ Htr)), EM in Ea. unfold topic_of in Ea. rewrite Ef in Ea. congruence. }
    apply Hstay. discriminate.
  - assert (b = true).
    { unfold trie_add in Ea. cbn [fst] in Ea. rewrite (ti_sum _ _ (tries_inv _ _ Htr)), EM in Ea. unfold topic_of in Ea. rewrite Ef in Ea. congruence. }
    subst b. exists (tput Mt (gm_hash m) (k, text p, 0)). split.
    + rewrite Eh. eapply tr_add; [exact Htr|exact Est|]. rewrite <- Eh. exact Ea.
    + intros h. unfold tput, topic_of. rewrite find_snoc. destruct (N.eqb_spec h (gm_hash m)) as [->|Hn].
      * rewrite Ef, N.eqb_refl. now rewrite Hoff.
      * rewrite EM. unfold topic_of. destruct (find (fun x => (gm_hash x =? h)%N) l); [reflexivity|]. destruct (N.eqb_spec (gm_hash m) h); [congruence|reflexivity].
Qed.

Lemma list_app_l c l m n : list_part c (l ++ m) n -> list_part c l n.
Proof.
  intros [L1 L2 L3 L4]. rewrite map_app in L2. split.
  - apply Forall_app in L1. tauto.
  - clear - L2. induction (map gm_seq l) as [|a r IH]; [constructor|]. cbn [app] in L2. inversion L2; subst. constructor; [auto|]. apply Forall_app in H2. tauto.
  - apply Forall_app in L3. tauto.
  - intros m1 m2 H1 H2. apply L4; apply in_app_iff; now left.
Qed.
Lemma list_new c l m n : list_part c (l ++ [m]) n -> forall x, In x l -> gm_seq x <> gm_seq m.
Proof.
  intros [_ L2 _ _] x Hx E. rewrite map_app in L2. apply sorted_nodup in L2. apply NoDup_remove_2 in L2. apply L2. rewrite app_nil_r, <- E. now apply in_map.
Qed.

Lemma entry_step c s l g off H first M T e t m : inv c s l g off H first M T e t -> list_part c (l ++ [m]) (d_seq s) -> raw_ok l m ->
  exists tr mm, add_topic (d_trie s) (gm_entry m) (gm_cache m) (entrySize + idSize) = Some tr /\
    put_in (c_mem c) (d_mem s) (g_cur g) (gm_seq m) (gm_cache m) = (mm, MOk) /\
    inv c (set_tw (set_mem (set_trie s tr) mm) (tw_add (d_tw s) (g_cur g) (gm_hash m) (gm_we m))) (l ++ [m])
      (gset g (gm_seq m) (Held (g_cur g) (gm_cache m))) off H first M T e t.
Proof.
  intros Hi Hl' Hraw. pose proof Hi as [Hcl Henc Hl Hm Htw Hwin Hst Htr Hcur HT].
  assert (Hok : gm_ok c m) by (pose proof (lp_ok _ _ _ Hl') as Ho; apply Forall_app in Ho as [_ Ho]; now inversion Ho).
  pose proof (list_new _ _ _ _ Hl') as Hnew.
  assert (Habs : g_slot g (gm_seq m) = Absent).
  { destruct (g_slot g (gm_seq m)) as [|t' v|] eqn:Es; [reflexivity| |]; exfalso.
    - destruct (mp_held _ _ _ _ Hm _ _ _ Es) as (x & Hx & E & _). now apply (Hnew x).
    - destruct (mp_freed _ _ _ _ Hm _ Es) as (x & Hx & E). now apply (Hnew x). }
  pose proof (gi_cur _ _ _ (mp_inv _ _ _ _ Hm)) as Ecur.
  destruct (put_in (c_mem c) (d_mem s) (g_cur g) (gm_seq m) (gm_cache m)) as [mm r] eqn:Ep.
  assert (Ep' : mem_put (c_mem c) (d_mem s) (gm_seq m) (gm_cache m) = (mm, r)) by (unfold mem_put; now rewrite Ecur).
  destruct (gput _ _ _ _ _ _ _ (mp_inv _ _ _ _ Hm) (gk_item _ _ Hok) (or_introl Habs) Ep') as (g' & Ha & Hg').
  pose proof (mp_open _ _ _ _ Hm) as Hop.
  inversion Ha; subst; [|congruence].
  assert (Hin : forall x, In x (l ++ [m]) <-> In x l \/ x = m) by (intros x; rewrite in_app_iff; cbn [In]; intuition).
  set (g' := gset g (gm_seq m) (Held (g_cur g) (gm_cache m))) in *.
  destruct (trie_put2 c (d_trie s) l m off Hok Htr) as (tr & Etr & Htr').
  { intros Ef. apply (off_zero _ _ _ _ _ _ (wp_run _ _ _ _ _ _ _ _ Hwin)). pose proof (wp_hist _ _ _ _ _ _ _ _ Hwin (gm_hash m)) as Hp.
    rewrite filter_none in Hp; [apply Permutation_sym, Permutation_nil, map_eq_nil in Hp; exact Hp|].
    intros x Hx. apply (find_none _ _ Ef) in Hx. unfold stored_of. cbn beta in Hx. now rewrite Hx. }
  { exact Hraw. }
  exists tr, mm. split; [exact Etr|]. split; [reflexivity|].
  split; cbn [set_trie set_tw set_mem d_closed d_enc d_seq d_mem d_tw d_win d_index d_data d_lease d_trie]; try assumption.
  - destruct Hm as [M1 M2 M3 M4 M5]. split; [exact Hg'|first [reflexivity|assumption]|..].
    + intros q t' v Es. unfold g', gset in Es; cbn [g_slot] in Es. destruct (N.eqb_spec q (gm_seq m)) as [->|Hq].
      * injection Es as <- <-. exists m. split; [apply Hin; now right|auto].
      * destruct (M3 _ _ _ Es) as (x & Hx & E1' & E2). exists x. split; [apply Hin; now left|auto].
    + intros x Hx. apply Hin in Hx as [Hx| ->].
      * unfold g'. rewrite (slot_old g l m Hnew x Hx). now apply M4.
      * right. exists (g_cur g). apply slot_new.
    + intros q Es. unfold g', gset in Es; cbn [g_slot] in Es. destruct (N.eqb_spec q (gm_seq m)) as [Hq|Hq]; [discriminate|].
      destruct (M5 _ Es) as (x & Hx & E2). exists x. split; [apply Hin; now left|exact E2].
  - now apply tw_put.
  - destruct Hwin as [W1 W2 W3 W4]. split; auto.
    + unfold nstored in *. unfold g'. rewrite (snoc_stored g l m Hnew). exact W2.
    + intros h. unfold g'. rewrite (snoc_stored_of g l m Hnew). apply W3.
    + intros h Ef. destruct (W4 h Ef) as (x & Hx & E2). exists x. split; [apply Hin; now left|exact E2].
  - assert (Hst' : forall x, In x (l ++ [m]) -> in_store g' x = true -> In x l /\ in_store g x = true).
    { intros x Hx Es. apply Hin in Hx as [Hx| ->].
      - split; [exact Hx|]. unfold in_store in *. unfold g' in Es. now rewrite (slot_old g l m Hnew x Hx) in Es.
      - unfold in_store, g' in Es. rewrite slot_new in Es. discriminate. }
    destruct Hst as [(w & S1 & S2 & S3) [G1 G2] S4]. split.
    + exists w. split; [exact S1|]. split; [exact S2|]. unfold nstored in *. unfold g'. now rewrite (snoc_stored g l m Hnew).
    + split.
      * intros x Hx Es. destruct (Hst' x Hx Es). now apply G1.
      * intros q Hq. unfold g', gset; cbn [g_slot]. destruct (N.eqb_spec q (gm_seq m)) as [->|]; [|now apply G2].
        rewrite G2 in Habs by exact Hq. discriminate.
    + intros x Hx Es. destruct (Hst' x Hx Es). now apply S4.
Qed.

(** * The messages of a batch *)
Lemma entries_fold c : forall ms s l g off H first M T e t, inv (fine c) (at_ (g_cur g) s) l g off H first M T e t ->
  list_part (fine c) (l ++ ms) (d_seq s) -> Forall (raw_ok l) ms ->
  exists s' g', batch_entries c s (g_cur g) (map (fun m => (false, gm_cache m)) ms) = Some s' /\
    inv (fine c) (at_ (g_cur g) s') (l ++ ms) g' off H first M T e t /\ g_cur g' = g_cur g /\
    m_cur (d_mem s') = m_cur (d_mem s) /\ d_seq s' = d_seq s /\ d_closed s' = d_closed s.
Proof.
  induction ms as [|m ms IH]; intros s l g off H first M T e t Hi Hl Hr; cbn [map batch_entries].
  - exists s, g. rewrite app_nil_r. auto 10.
  - assert (Hl1 : list_part (fine c) (l ++ [m]) (d_seq (at_ (g_cur g) s))).
    { apply (list_app_l _ _ ms). rewrite <- app_assoc. exact Hl. }
    inversion Hr as [|? ? Hr1 Hr2]; subst.
    assert (Hok : gm_ok (fine c) m) by (pose proof (lp_ok _ _ _ Hl1) as Ho; apply Forall_app in Ho as [_ Ho]; now inversion Ho).
    rewrite (gm_unmarshal _ _ Hok). cbn [andb].
    destruct (entry_step _ _ _ _ _ _ _ _ _ _ _ m Hi Hl1 Hr1) as (tr & mm & Etr & Ep & Hi').
    change (d_trie (at_ (g_cur g) s)) with (d_trie s) in Etr. rewrite Etr. cbv zeta. unfold batch_put.
    change (d_mem (set_trie s tr)) with (d_mem s). change (d_tw (set_trie s tr)) with (d_tw s).
    change (d_mem (at_ (g_cur g) s)) with (lg (g_cur g) (d_mem s)) in Ep. change (c_mem (fine c)) with (mkMC (c_bkey (c_mem c)) 1 (c_logint (c_mem c))) in Ep.
    rewrite lg_put in Ep.
    assert (Ep2 : put_in (c_mem c) (d_mem s) (g_cur g) (gm_seq m) (gm_cache m) =
                  put_in (mkMC (c_bkey (c_mem c)) 1 (c_logint (c_mem c))) (d_mem s) (g_cur g) (gm_seq m) (gm_cache m)) by reflexivity.
    change (e_seq (gm_entry m)) with (gm_seq m). rewrite Ep2.
    destruct (put_in (mkMC (c_bkey (c_mem c)) 1 (c_logint (c_mem c))) (d_mem s) (g_cur g) (gm_seq m) (gm_cache m)) as [mm0 r] eqn:Ep0.
    cbn [fst snd] in Ep. injection Ep as <- ->.
    set (s1 := set_tw (set_mem (set_trie s tr) mm0) (tw_add (d_tw s) (g_cur g) (e_topicHash (gm_entry m)) (mkWE (gm_seq m) (e_expiresAt (gm_entry m))))).
    set (g1 := gset g (gm_seq m) (Held (g_cur g) (gm_cache m))) in *.
    destruct (IH s1 (l ++ [m]) g1 off H first M T e t) as (s' & g' & E1 & E2 & E3 & E4 & E5 & E6).
    + exact Hi'.
    + rewrite <- app_assoc. exact Hl.
    + eapply Forall_impl; [|exact Hr2]. intros x. apply raw_more. intros y Hy. apply in_app_iff. now left.
    + change (g_cur g1) with (g_cur g) in *. exists s', g'. split; [exact E1|]. rewrite <- app_assoc in E2. split; [exact E2|]. split; [exact E3|].
      split; [|split; [exact E5|exact E6]]. rewrite E4. unfold s1. cbn [set_tw set_mem d_mem].
      revert Ep0. unfold put_in. destruct (m_closed _); [discriminate|]. destruct (live (d_mem s) (g_cur g)) as [q|]; [|discriminate].
      unfold block_put. destruct (nth_error _ q) as [bl|]; [|discriminate]. destruct (nth_error _ (mb_buf bl)) as [d|]; [|discriminate].
      intros [= <-]. unfold addTimeFilter. destruct (nth_error _ _); reflexivity.
Qed.

(** * What the function does *)
Record pending (c : dcfg) (s : db) (b : batch) (l ms : list gmsg) (g : gstate) (off : offsets) (H : hist) (first : option N) (M : ghost) (T e t : Z) : Prop := {
  pd_inv : inv (fine c) (at_ (g_cur g) s) l g off H first M T e t;
  pd_time : b_time b = g_cur g;
  pd_list : list_part (fine c) (l ++ ms) (d_seq s);
  pd_raw : Forall (raw_ok l) ms;
  pd_index : b_index b = map (fun m => (false, gm_cache m)) ms
}.
Lemma trunc_one t : trunc t 1 = t.
Proof. unfold trunc. rewrite Z.mod_1_r. lia. Qed.
Lemma fine_later c s l g off H first M T e t t' : t <= t' -> inv (fine c) s l g off H first M T e t -> inv (fine c) s l g off H first M T e t'.
Proof. intros Ht. apply inv_later; [reflexivity|exact Ht]. Qed.
Lemma fine_cur c s l g off H first M T e t : inv (fine c) s l g off H first M T e t -> g_cur g <= t.
Proof. intros Hi. pose proof (iv_cur _ _ _ _ _ _ _ _ _ _ _ Hi) as Hc. cbn [fine c_mem c_dur] in Hc. now rewrite trunc_one in Hc. Qed.
Lemma fine_setting c gens : setting_ok c gens -> setting_ok (fine c) gens.
Proof. intros [H1 H2 H3 H4 H5 H6 H7 H8]. split; try assumption. reflexivity. Qed.
Lemma fine_put c l k p payload expires : put_ok c l k p payload expires -> put_ok (fine c) l k p payload expires.
Proof. intros [H1 H2 H3 H4 H5 H6 H7]. split; assumption. Qed.
Lemma fine_get c l g k names limit : S_Session.get_ok c l g k names limit -> S_Session.get_ok (fine c) l g k names limit.
Proof. intros [H1 H2 H3 H4 H5 H6 H7 H8]. split; assumption. Qed.

Lemma inv_seq c s l g off H first M T e t n : inv c s l g off H first M T e t -> (d_seq s <= n)%N -> inv c (set_seq s n) l g off H first M T e t.
Proof.
  intros [Hcl Henc Hl Hm Htw Hwin Hst Htr Hcur HT] Hs.
  split; cbn [set_seq d_closed d_enc d_seq d_mem d_tw d_win d_index d_data d_lease d_trie]; auto.
  destruct Hl as [L1 L2 L3 L4]. split; auto. eapply Forall_impl; [|exact L3]. cbn. lia.
Qed.
Lemma list_snoc c l n m : list_part c l n -> gm_ok c m -> gm_seq m = (n + 1)%N ->
  (forall x, In x l -> gm_hash x = gm_hash m -> s_owner (gm_sent x) = s_owner (gm_sent m) /\ s_pattern (gm_sent x) = s_pattern (gm_sent m)) ->
  list_part c (l ++ [m]) (n + 1)%N.
Proof.
  intros [L1 L2 L3 L4] Hok Eseq Hclash.
  assert (Hin : forall x, In x (l ++ [m]) <-> In x l \/ x = m) by (intros x; rewrite in_app_iff; cbn [In]; intuition).
  split.
  - apply Forall_app. split; [exact L1|]. constructor; [exact Hok|constructor].
  - rewrite map_app. cbn [map]. rewrite Eseq. clear - L2 L3. induction l as [|a r IH]; cbn [map app]; [repeat constructor|].
    cbn [map] in L2. inversion L2; subst. inversion L3; subst. constructor; [auto|]. apply Forall_app. split; [assumption|]. constructor; [lia|constructor].
  - apply Forall_app. split; [eapply Forall_impl; [|exact L3]; cbn; lia|]. constructor; [lia|constructor].
  - intros m1 m2 I1 I2 Eh. apply Hin in I1, I2. destruct I1 as [I1|I1], I2 as [I2|I2]; subst; auto.
    destruct (Hclash m2 I2 (eq_sym Eh)) as [-> ->]. auto.
Qed.
Lemma check_ok c l k p payload expires encrypt : put_ok c l k p payload expires -> check_put (put_arg p payload expires k encrypt) = None.
Proof.
  intros [Hk Hpl Htop (Hpay & Hplen & Hpb) Hfour Hexp _]. unfold check_put, put_arg. cbn [u_topic u_payload].
  destruct (Nat.eqb_spec (length (text p)) 0) as [E0|_]; [apply length_zero_iff_nil in E0; now apply (plain_text _ _ Hpl) in E0|].
  destruct (N.ltb_spec maxTopicLength (N.of_nat (length (text p)))); [lia|].
  destruct (Nat.eqb_spec (length payload) 0) as [E0|_]; [apply length_zero_iff_nil in E0; contradiction|].
  destruct (N.ltb_spec maxValueLength (N.of_nat (length payload))); [lia|reflexivity].
Qed.

Lemma put_item c gens s b l ms g off H first M T e t now k p payload expires encrypt : setting_ok c gens ->
  pending c s b l ms g off H first M T e t -> t <= now -> (d_seq s + 1 <= 130000)%N -> put_ok c (map gm_sent (l ++ ms)) k p payload expires ->
  exists s' b' m, batch_step c s b (BPut now (put_arg p payload expires k encrypt)) = Some (s', b') /\
    gm_sent m = mkSent (owner k) p expires payload /\ pending c s' b' l (ms ++ [m]) g off H first M T e now /\
    d_seq s' = (d_seq s + 1)%N /\ m_cur (d_mem s') = m_cur (d_mem s).
Proof.
  intros Hset [Hi Htm Hl Hr Hx] Ht Hq Hput. pose proof (fine_later _ _ _ _ _ _ _ _ _ _ _ now Ht Hi) as Hi'. clear Hi Ht.
  cbn [batch_step]. unfold batch_put_entry. rewrite (check_ok _ _ _ _ _ _ _ Hput).
  unfold put_arg. cbn [u_id u_topic u_payload u_expires u_contract u_encrypt u_hash u_tsize].
  destruct (set_entry_session (fine c) gens s (l ++ ms) now k p payload expires (encrypt || b_encrypt b)%bool (fine_setting _ _ Hset)
    (iv_enc _ _ _ _ _ _ _ _ _ _ _ Hi') Hq (fine_put _ _ _ _ _ _ Hput)) as (e' & m & Ese & Esent & Eseq & Eraw & Hok & _).
  change (set_entry (fine c) s now) with (set_entry c s now) in Ese. unfold put_arg in Ese. rewrite Ese.
  assert (E1 : u64 (d_seq s + 1) = (d_seq s + 1)%N) by (apply next_num; lia).
  do 2 eexists. exists m. split; [reflexivity|]. split; [exact Esent|]. split; [|split; [exact E1|reflexivity]].
  split.
  - unfold next_seq. change (at_ (g_cur g) (set_seq s (u64 (d_seq s + 1)))) with (set_seq (at_ (g_cur g) s) (u64 (d_seq s + 1))).
    apply inv_seq; [exact Hi'|]. change (d_seq (at_ (g_cur g) s)) with (d_seq s). lia.
  - exact Htm.
  - change (d_seq (next_seq s)) with (u64 (d_seq s + 1)). rewrite E1, app_assoc. apply list_snoc; auto.
    intros x Hin Eh. rewrite Esent. cbn [s_owner s_pattern]. destruct Hput as [_ _ _ _ _ _ Hclash]. apply Hclash; [now apply in_map|].
    unfold gm_hash in Eh. rewrite Eh, Esent. reflexivity.
  - apply Forall_app. split; [exact Hr|]. constructor; [|constructor]. apply (raw_of_ok s l m off).
    + exact (iv_trie _ _ _ _ _ _ _ _ _ _ _ Hi').
    + now rewrite Esent.
  - cbn [b_add b_index]. rewrite Hx, map_app. reflexivity.
Qed.

Lemma move_on c s l g off H first M T e t now mm : inv (fine c) (at_ (g_cur g) s) l g off H first M T e t -> t <= now ->
  (ginv (c_mem (fine c)) (lg (g_cur g) (d_mem s)) g -> ginv (c_mem (fine c)) (lg (g_cur g) mm) g) -> live mm now <> None ->
  inv (fine c) (at_ now (set_mem s mm)) l (mkG now true (g_slot g)) off H first M T e now.
Proof.
  intros Hi Ht Hg Hl. pose proof (fine_cur _ _ _ _ _ _ _ _ _ _ _ Hi) as Hc. apply (fine_later _ _ _ _ _ _ _ _ _ _ _ now Ht) in Hi.
  change (at_ now (set_mem s mm)) with (set_mem (at_ (g_cur g) s) (lg now mm)). apply inv_mem2; [exact Hi| |].
  - eapply ginv_to; [apply Hg; exact (mp_inv _ _ _ _ (iv_mem _ _ _ _ _ _ _ _ _ _ _ Hi))|now repeat split|lia|exact Hl|reflexivity].
  - cbn [fine c_mem c_dur]. rewrite trunc_one. lia.
Qed.
Lemma add_cur m t pick : m_cur (addTimeBlock m t pick) = m_cur m.
Proof. unfold addTimeBlock. destruct (live m t); [reflexivity|]. destruct pick as [i|]; [destruct (existsb _ _)|]; reflexivity. Qed.
Lemma tiny_cur m id t : m_cur (tinyWrite m id t) = m_cur m.
Proof. unfold tinyWrite. destruct (live m t); [|reflexivity]. destruct (nth_error _ n); [|reflexivity]. destruct (nth_error _ _); [|reflexivity]. destruct (skipn _ _); reflexivity. Qed.

Lemma write_item c s b l ms g off H first M T e t now : pending c s b l ms g off H first M T e t -> t <= now ->
  exists s' b' g', batch_write_db c s b now None = Some (s', b') /\ pending c s' b' (l ++ ms) [] g' off H first M T e now /\
    d_seq s' = d_seq s /\ m_cur (d_mem s') = m_cur (d_mem s) /\ g_cur g <= g_cur g'.
Proof.
  intros [Hi Htm Hl Hr Hx] Ht. pose proof (fine_cur _ _ _ _ _ _ _ _ _ _ _ Hi) as Hgc. unfold batch_write_db. rewrite Hx. destruct ms as [|m0 ms].
  - cbn [map]. exists s, b, g. split; [reflexivity|]. split; [|split; [reflexivity|split; [reflexivity|lia]]]. rewrite app_nil_r in *.
    split; try assumption; [now apply (fine_later c _ _ _ _ _ _ _ _ _ t)|now rewrite app_nil_r].
  - cbn [map]. change ((false, gm_cache m0) :: map (fun m => (false, gm_cache m)) ms) with (map (fun m => (false, gm_cache m)) (m0 :: ms)).
    set (l2 := m0 :: ms) in *.
    change (d_closed s) with (d_closed (at_ (g_cur g) s)). rewrite (iv_closed _ _ _ _ _ _ _ _ _ _ _ Hi). rewrite Htm.
    destruct (entries_fold c l2 s l g off H first M T e t Hi Hl Hr) as (s1 & g1 & -> & Hi1 & Ec & Em & Eq & _).
    do 2 eexists. exists (mkG now true (g_slot g1)). split; [reflexivity|]. rewrite <- Ec in Hi1. split.
    + split; [|reflexivity|..].
      * cbn [g_cur]. apply (move_on c s1 _ g1 _ _ _ _ _ _ t); [exact Hi1|exact Ht| |].
        -- intros Hg. unfold batch_write. rewrite <- lg_add, <- lg_tiny. apply ginv_add; [|exact (mp_open _ _ _ _ (iv_mem _ _ _ _ _ _ _ _ _ _ _ Hi1))]. now apply ginv_tiny.
        -- apply add_live.
      * rewrite app_nil_r. cbn [set_mem d_seq]. rewrite Eq. exact Hl.
      * constructor.
      * reflexivity.
    + split; [exact Eq|]. split; [|cbn [g_cur]; lia]. cbn [set_mem d_mem]. unfold batch_write. rewrite add_cur, tiny_cur. exact Em.
Qed.

Lemma items_step c gens off H first M T e stop : setting_ok c gens -> forall items s b l ms g t, pending c s b l ms g off H first M T e t ->
  items_ok c t (map gm_sent (l ++ ms)) items stop -> Z.of_N (d_seq s) + Z.of_nat (length items) <= 130000 ->
  exists s' b' l' ms' g', batch_steps c s b (map as_bop items) = Some (s', b') /\ pending c s' b' l' ms' g' off H first M T e stop /\
    map gm_sent (l' ++ ms') = map gm_sent (l ++ ms) ++ flat_map item_sends items /\ incl (l ++ ms) (l' ++ ms') /\
    Z.of_N (d_seq s') <= Z.of_N (d_seq s) + Z.of_nat (length items) /\ m_cur (d_mem s') = m_cur (d_mem s) /\ g_cur g <= g_cur g'.
Proof.
  intros Hset. induction items as [|i r IH]; intros s b l ms g t Hp Hok Hq; cbn [map batch_steps items_ok flat_map] in *.
  - exists s, b, l, ms, g. split; [reflexivity|]. split; [|rewrite app_nil_r; split; [reflexivity|split; [apply incl_refl|split; [cbn; lia|split; [reflexivity|lia]]]]].
    destruct Hp as [P1 P2 P3 P4 P5]. split; auto. now apply (fine_later c _ _ _ _ _ _ _ _ _ t).
  - cbn [length] in Hq. destruct i as [now k p payload expires encrypt|now]; cbn [as_bop item_sends].
    + destruct Hok as (Ht & Hput & Hok).
      destruct (put_item c gens s b l ms g off H first M T e t now k p payload expires encrypt Hset Hp Ht ltac:(lia) Hput) as (s1 & b1 & m & E1 & Em & Hp1 & Eq & Ec).
      unfold put_arg in E1. rewrite E1.
      destruct (IH s1 b1 l (ms ++ [m]) g now Hp1) as (s' & b' & l' & ms' & g' & E2 & Hp2 & El & Hin & Hq2 & Ec2 & Hc2).
      { rewrite app_assoc, map_app. cbn [map]. rewrite Em. exact Hok. }
      { lia. }
      exists s', b', l', ms', g'. split; [exact E2|]. split; [exact Hp2|]. split; [|split; [|split; [cbn [length]; lia|split; [congruence|exact Hc2]]]].
      * rewrite El, app_assoc, map_app, <- app_assoc. cbn [map app]. now rewrite Em.
      * intros x Hx. apply Hin. rewrite app_assoc. apply in_app_iff. now left.
    + destruct Hok as (Ht & Hok). cbn [batch_step].
      destruct (write_item c s b l ms g off H first M T e t now Hp Ht) as (s1 & b1 & g1 & E1 & Hp1 & Eq & Ec & Hc1). rewrite E1.
      destruct (IH s1 b1 (l ++ ms) [] g1 now Hp1) as (s' & b' & l' & ms' & g' & E2 & Hp2 & El & Hin & Hq2 & Ec2 & Hc2).
      { now rewrite app_nil_r. }
      { lia. }
      rewrite app_nil_r in *. exists s', b', l', ms', g'. split; [exact E2|]. split; [exact Hp2|]. split; [exact El|]. split; [exact Hin|]. split; [cbn [length]; lia|]. split; [congruence|lia].
Qed.

Lemma mark_alike m t : alike m (mark_release (mark_add m t) t) /\ m_cur (mark_release (mark_add m t) t) = m_cur m.
Proof.
  unfold mark_release. destruct (afind Z.eqb (m_marks (mark_add m t)) t) as [r|]; [destruct (0 <? r - 1)|]; now repeat split.
Qed.
Lemma commit_alike : forall ts m, alike m (batch_commit m ts) /\ m_cur (batch_commit m ts) = m_cur m.
Proof.
  induction ts as [|t r IH]; intros m; [now repeat split|]. destruct (mark_alike m t) as [(A1 & A2 & A3 & A4 & A5 & A6 & A7) A8].
  destruct (IH (mark_release (mark_add m t) t)) as [(B1 & B2 & B3 & B4 & B5 & B6 & B7) B8].
  unfold batch_commit in *. cbn [fold_left]. repeat split; congruence.
Qed.

(** * A whole batch *)
Lemma batch_whole c gens s l g off H first M T e t now items now1 now2 : setting_ok c gens ->
  inv (fine c) (at_ (g_cur g) s) l g off H first M T e t -> t <= now -> items_ok c now (map gm_sent l) items now1 -> now1 <= now2 ->
  Z.of_N (d_seq s) + Z.of_nat (length items) <= 130000 ->
  exists s' l' g', db_batch_run c s now None (map as_bop items) false now1 now2 None None = Some s' /\
    inv (fine c) (at_ (g_cur g') s') l' g' off H first M T e now2 /\ map gm_sent l' = map gm_sent l ++ flat_map item_sends items /\ incl l l' /\
    Z.of_N (d_seq s') <= Z.of_N (d_seq s) + Z.of_nat (length items) /\ m_cur (d_mem s') = m_cur (d_mem s) /\ g_cur g <= g_cur g'.
Proof.
  intros Hset Hi Ht Hok Hn Hq. pose proof (fine_cur _ _ _ _ _ _ _ _ _ _ _ Hi) as Hgc. unfold db_batch_run, db_batch. unfold batch_new.
  set (s0 := set_mem s (addTimeBlock (d_mem s) now None)). set (b0 := mkBatch [] now [] MasterContract (d_enc s =? 1)%N).
  assert (Hp : pending c s0 b0 l [] (mkG now true (g_slot g)) off H first M T e now).
  { split; try reflexivity.
    - cbn [g_cur]. unfold s0. apply (move_on c s l g _ _ _ _ _ _ t); [exact Hi|exact Ht| |apply add_live].
      intros Hg. rewrite <- lg_add. apply ginv_add; [exact Hg|exact (mp_open _ _ _ _ (iv_mem _ _ _ _ _ _ _ _ _ _ _ Hi))].
    - rewrite app_nil_r. exact (iv_list _ _ _ _ _ _ _ _ _ _ _ Hi).
    - constructor. }
  destruct (items_step c gens off H first M T e now1 Hset items s0 b0 l [] _ now Hp) as (s1 & b1 & l1 & ms1 & g1 & -> & Hp1 & El & Hin & Hq1 & Ec1 & Hc1).
  { now rewrite app_nil_r. }
  { exact Hq. }
  unfold batch_commit_db.
  destruct (write_item c s1 b1 l1 ms1 g1 off H first M T e now1 now1 Hp1 (Z.le_refl _)) as (s2 & b2 & g2 & -> & Hp2 & Eq2 & Ec2 & Hc2).
  destruct Hp2 as [Hi2 Htm2 _ _ _]. rewrite app_nil_r in Hi2 || idtac.
  set (m1 := batch_write (d_mem s2) (b_time b2) now2 None). destruct (commit_alike (b_group b2 ++ [b_time b2]) m1) as [Al Ac].
  do 1 eexists. exists (l1 ++ ms1), (mkG (g_cur g2) true (g_slot g2)). split; [reflexivity|]. cbn [g_cur]. split.
  - pose proof (fine_later _ _ _ _ _ _ _ _ _ _ _ now2 Hn Hi2) as Hi3.
    change (at_ (g_cur g2) (set_mem s2 (batch_commit m1 (b_group b2 ++ [b_time b2])))) with
      (set_mem (at_ (g_cur g2) s2) (lg (g_cur g2) (batch_commit m1 (b_group b2 ++ [b_time b2])))).
    apply inv_mem2; [exact Hi3| |exact (iv_cur _ _ _ _ _ _ _ _ _ _ _ Hi3)].
    pose proof (mp_open _ _ _ _ (iv_mem _ _ _ _ _ _ _ _ _ _ _ Hi3)) as Hop.
    assert (Hg : ginv (c_mem (fine c)) (lg (g_cur g2) m1) g2).
    { unfold m1, batch_write. rewrite <- lg_add, <- lg_tiny. apply ginv_add; [|exact Hop]. apply ginv_tiny. exact (mp_inv _ _ _ _ (iv_mem _ _ _ _ _ _ _ _ _ _ _ Hi3)). }
    eapply ginv_to; [exact Hg| |lia| |reflexivity].
    + destruct Al as (A1 & A2 & A3 & A4 & A5 & A6 & A7). now repeat split.
    + now apply (gi_open _ _ _ Hg).
  - split; [rewrite El, app_nil_r; reflexivity|]. split; [|split; [cbn [set_mem d_seq]; rewrite Eq2; exact Hq1|split; [|]]].
    + intros x Hx. apply Hin. now rewrite app_nil_r.
    + cbn [set_mem d_mem]. rewrite Ac. unfold m1, batch_write. rewrite add_cur, tiny_cur, Ec2, Ec1. unfold s0. cbn [set_mem d_mem]. apply add_cur.
    + cbn [g_cur] in Hc1. lia.
Qed.
