(** Proofs about restarts: what an Open reads back. *)
From Verif Require Import M_Bytes P_Bytes M_File M_Hash M_Bloom M_Entry P_Codec M_MsgId M_Mac P_Mac M_Topic M_Trie M_Query M_IndexBlock M_Lease
  M_BlockRange M_BlockStore M_WinBlock M_Wal M_MemDB M_Window M_Get M_DBInfo M_DB S_Trie S_Window S_BlockStore S_MemDB S_Get S_DB S_Session S_Restart
  P_Topic P_Trie P_Trie2 P_Trie3 P_BlockStore4 P_Window2 P_Window3 P_Window4 P_WinOpen P_Get P_MemBlock P_MemDB P_MemGet P_MemLog P_MemWal P_MemKeep P_MemReopen P_DB
  P_Session P_Session2 P_Session3 P_Session4 P_Restart P_Restart2.
From Coq Require Import Lia ZifyBool ZifyNat ZifyN Permutation Sorted.
Open Scope Z_scope.

(** * Memory *)
(** Numbers that memory does not have may count as freed. *)
Definition refreed (old sl : N -> slot) (k : N) : slot := match old k with Freed => Freed | _ => sl k end.
Lemma refreed_held old sl : (forall k t v, sl k = Held t v -> exists t' v', old k = Held t' v') ->
  forall k t v, refreed old sl k = Held t v <-> sl k = Held t v.
Proof.
  intros Ho k t v. unfold refreed. destruct (old k) eqn:E; try tauto. split; [discriminate|]. intros Hk. apply Ho in Hk as (t' & v' & Hk). congruence.
Qed.
Lemma ginv_refreed c s cur op sl old : ginv c s (mkG cur op sl) -> (forall k, sl k <> Freed) ->
  (forall k t v, sl k = Held t v -> exists t' v', old k = Held t' v') -> ginv c s (mkG cur op (refreed old sl)).
Proof.
  intros [G1 G2 G3 G4 G5 G6 G7] Hnf Ho. cbn [g_slot g_cur g_open] in *. pose proof (refreed_held old sl Ho) as Hh.
  assert (EA : forall t k, A_of (refreed old sl) t k = A_of sl t k).
  { intros t k. destruct (A_of sl t k) as [v|] eqn:E.
    - apply A_of_held in E. apply A_of_held. now apply Hh.
    - destruct (A_of (refreed old sl) t k) as [v|] eqn:E2; [|reflexivity]. apply A_of_held in E2. apply Hh in E2. apply A_of_held in E2. congruence. }
  split; cbn [g_slot g_cur g_open]; auto.
  - eapply winv_ext; eassumption.
  - eapply frec_ext; eassumption.
  - destruct G3 as [H1 H2 H3]. split; auto. intros p b k off Hp Ha. destruct (H3 p b k off Hp Ha) as (H0 & [(t & v & Hl & Hs)|[_ Hs]]).
    + split; [exact H0|]. left. exists t, v. split; [exact Hl|]. now apply Hh.
    + exfalso. exact (Hnf k Hs).
  - eapply finv_same; [exact G4|reflexivity|lia|]. intros k t v Hk. now apply Hh.
Qed.

(** * The info file and the free list *)
Lemma le_mod k v : le k (v mod 256 ^ N.of_nat k) = le k v.
Proof. rewrite <- unle_le. pose proof (le_unle (le k v) (le_ok k v)) as E. now rewrite le_length in E. Qed.
Lemma header_back enc e n cnt : (e < 256)%N -> (n < 2 ^ 64)%N ->
  exists cnt', open_header enc (match write_info e n cnt with [] => None | b => Some b end) = OpenOk (mkInfo signature version 1 n cnt') /\ cnt' = (cnt mod 2 ^ 64)%N.
Proof.
  intros He Hn. assert (E : write_info e n cnt = write_info e n (cnt mod 2 ^ 64)).
  { unfold write_info, info_marshal. cbn [i_signature i_version i_encryption i_sequence i_count]. change (2 ^ 64)%N with (256 ^ N.of_nat 8)%N. now rewrite le_mod. }
  rewrite E. exists (cnt mod 2 ^ 64)%N. pose proof (open_header_written enc e n (cnt mod 2 ^ 64) He Hn) as Hw.
  destruct (write_info e n (cnt mod 2 ^ 64)) eqn:E2; [discriminate E2|]. split; [|reflexivity]. apply Hw. now apply N.mod_lt.
Qed.
Lemma lease_back f mi : lease_read (newLease f mi) (lease_write (defrag (newLease f mi))) = RdOk (newLease f mi) /\ defrag (newLease f mi) = newLease f mi.
Proof. split; reflexivity. Qed.

(** * The tree *)
Lemma sorted_app_lt (a : list gmsg) m b : StronglySorted N.lt (map gm_seq (a ++ m :: b)) -> (forall x, In x a -> (gm_seq x < gm_seq m)%N) /\ (forall x, In x b -> (gm_seq m < gm_seq x)%N).
Proof.
  induction a as [|y a IH]; cbn [app map]; intros Hs; inversion Hs as [|? ? Hs' Hf]; subst; rewrite Forall_forall in Hf.
  - split; [intros x []|]. intros x Hx. apply Hf. now apply in_map.
  - destruct (IH Hs') as [I1 I2]. split; [|exact I2]. intros x [<-|Hx]; [|auto]. apply Hf. apply in_map. apply in_app_iff. right. now left.
Qed.
Lemma raw_later c l n m m' : list_part c l n -> raws l -> In m l -> In m' l -> gm_hash m' = gm_hash m -> (gm_seq m' < gm_seq m)%N -> gm_raw m = [].
Proof.
  intros Hl Hr Hm Hm' Eh Hlt. apply in_split in Hm as (a & b & E). rewrite (Hr a m b E). pose proof (lp_sorted _ _ _ Hl) as Hs. rewrite E in Hs.
  destruct (sorted_app_lt _ _ _ Hs) as [S1 S2].
  assert (Hi : In m' a).
  { rewrite E in Hm'. apply in_app_iff in Hm' as [Hi|[->|Hi]]; [exact Hi|lia|]. specialize (S2 m' Hi). lia. }
  assert (existsb (fun x => (gm_hash x =? gm_hash m)%N) a = true) as ->; [|reflexivity]. apply existsb_exists. exists m'. split; [exact Hi|]. now apply N.eqb_eq.
Qed.
Lemma raw_first c l n m : list_part c l n -> raws l -> In m l -> (forall m', In m' l -> gm_hash m' = gm_hash m -> (gm_seq m <= gm_seq m')%N) -> gm_raw m = own_raw m.
Proof.
  intros Hl Hr Hm Hlow. apply in_split in Hm as (a & b & E). rewrite (Hr a m b E). pose proof (lp_sorted _ _ _ Hl) as Hs. rewrite E in Hs.
  destruct (sorted_app_lt _ _ _ Hs) as [S1 S2].
  destruct (existsb (fun x => (gm_hash x =? gm_hash m)%N) a) eqn:Ee; [|reflexivity]. apply existsb_exists in Ee as (x & Hx & Ex). apply N.eqb_eq in Ex.
  specialize (S1 x Hx). specialize (Hlow x). rewrite E in Hlow. exfalso. enough (gm_seq m <= gm_seq x)%N by lia. apply Hlow; [apply in_app_iff; now left|exact Ex].
Qed.
Lemma own_raw_some m : (0 < length (own_raw m))%nat.
Proof. unfold own_raw, topic_marshal. cbn. lia. Qed.

Lemma trie_same tr a b off : trie_part tr a off -> (forall h, topic_of a off h = topic_of b off h) -> trie_part tr b off.
Proof. intros (Mt & Ht & EM) E. exists Mt. split; [exact Ht|]. intros h. now rewrite EM. Qed.
Lemma trie_load c l n tr done m off : list_part c l n -> incl done l -> In m l -> gm_raw m = own_raw m -> gm_ok c m -> trie_part tr done off ->
  exists ps depth, topic_unmarshal (gm_raw m) = Some (ps, depth) /\ trie_part (fst (trie_add tr (gm_hash m, off (gm_hash m)) ps depth)) (done ++ [m]) off.
Proof.
  intros Hl Hd Hm Er Hok (Mt & Htr & EM). set (k := s_owner (gm_sent m)). set (p := s_pattern (gm_sent m)).
  pose proof (gk_plain _ _ Hok) as Hpl. fold k p in Hpl.
  assert (Eh : gm_hash m = get_hash k (filed k (text p))) by reflexivity.
  pose proof (stored_plain k p (text p) Hpl (or_introl eq_refl)) as Est. pose proof Est as Est'. unfold stored in Est'.
  exists (fparts k (text p)), (fdepth k (text p)). rewrite Er. unfold own_raw. fold k p. split; [exact Est'|].
  destruct (trie_add tr (gm_hash m, off (gm_hash m)) (fparts k (text p)) (fdepth k (text p))) as [tr' b] eqn:Ea. cbn [fst].
  destruct b.
  - exists (tput Mt (gm_hash m) (k, text p, off (gm_hash m))). split.
    + rewrite Eh. eapply tr_add; [exact Htr|exact Est|]. rewrite <- Eh. exact Ea.
    + assert (Ef : find (fun x => (gm_hash x =? gm_hash m)%N) done = None).
      { unfold trie_add in Ea. cbn [fst] in Ea. rewrite (ti_sum _ _ (tries_inv _ _ Htr)), EM in Ea. unfold topic_of in Ea.
        destruct (find _ done); [congruence|reflexivity]. }
      intros h. unfold tput, topic_of. rewrite find_snoc. destruct (N.eqb_spec h (gm_hash m)) as [->|Hn].
      * rewrite Ef, N.eqb_refl. reflexivity.
      * rewrite EM. unfold topic_of. destruct (find (fun x => (gm_hash x =? h)%N) done); [reflexivity|]. destruct (N.eqb_spec (gm_hash m) h); [congruence|reflexivity].
  - exists Mt. split; [rewrite Eh in Ea; eapply tr_old; [exact Htr|exact Est|exact Ea]|].
    assert (Ef : find (fun x => (gm_hash x =? gm_hash m)%N) done <> None).
    { unfold trie_add in Ea. cbn [fst] in Ea. rewrite (ti_sum _ _ (tries_inv _ _ Htr)), EM in Ea. unfold topic_of in Ea.
      destruct (find _ done); congruence. }
    intros h. rewrite EM. unfold topic_of. rewrite find_snoc. destruct (find (fun x => (gm_hash x =? h)%N) done) eqn:Ef2; [reflexivity|].
    destruct (N.eqb_spec (gm_hash m) h) as [E|]; [|reflexivity]. subst h. congruence.
Qed.

Lemma load_back c l n index data off : list_part c l n -> raws l -> forall X done tr,
  (forall q h o, In (q, h, o) X -> exists m, In m l /\ gm_seq m = q /\ gm_hash m = h /\ reads index data m /\
     ((o = off h /\ gm_raw m = own_raw m) \/ gm_raw m = [])) ->
  incl done l -> trie_part tr done off ->
  exists tr' done', load_trie index data X tr = Some tr' /\ incl done' l /\ trie_part tr' done' off /\
    (forall x, In x done' <-> In x done \/ (In x l /\ gm_raw x <> [] /\ exists h o, In (gm_seq x, h, o) X)).
Proof.
  intros Hl Hr. induction X as [|[[q h] o] X IH]; intros done tr HX Hd Htr; cbn [load_trie].
  - exists tr, done. split; [reflexivity|]. split; [exact Hd|]. split; [exact Htr|]. intros x. split; [auto|]. intros [Hx|(_ & _ & h & o & [])]. exact Hx.
  - destruct (HX q h o (or_introl eq_refl)) as (m & Hm & <- & <- & (ro & Hro & Hre & Hra) & Hcase).
    assert (Hok : gm_ok c m) by (pose proof (lp_ok _ _ _ Hl) as Ho; rewrite Forall_forall in Ho; auto).
    assert (HX' : forall q h o, In (q, h, o) X -> exists m, In m l /\ gm_seq m = q /\ gm_hash m = h /\ reads index data m /\
       ((o = off h /\ gm_raw m = own_raw m) \/ gm_raw m = [])) by (intros q h o' Hi; apply (HX q h o'); now right).
    rewrite Hre. cbn [x_topicSize].
    destruct Hcase as [[-> Er]|Er].
    + pose proof (own_raw_some m) as Hne. rewrite <- Er in Hne. destruct (N.eqb_spec (N.of_nat (length (gm_raw m))) 0); [lia|].
      pose proof (gm_body_len c m Hok) as Lb.
      destruct (read_parts data ro (gm_seq m) (gm_id m) (gm_raw m) (gm_val m)) as [_ Rt]; auto.
      { exact (gk_id _ _ Hok). } { pose proof (gk_raw _ _ Hok). lia. }
      { fold (gm_body m). rewrite Lb. pose proof (gk_raw _ _ Hok). pose proof (gk_len _ _ Hok). lia. }
      rewrite Rt. destruct (trie_load c l n tr done m off Hl Hd Hm Er Hok Htr) as (ps & depth & Eu & Htr'). rewrite Eu.
      destruct (IH (done ++ [m]) _ HX' ltac:(intros x Hx; apply in_app_iff in Hx as [Hx|[<-|[]]]; auto) Htr') as (tr' & done' & E & I1 & I2 & I3).
      exists tr', done'. split; [exact E|]. split; [exact I1|]. split; [exact I2|]. intros x. rewrite I3, in_app_iff. cbn [In]. split.
      * intros [[Hx|[<-|[]]]|(Hx & Hy & h & o & Hi)]; [auto| |right; eauto 10].
        right. split; [exact Hm|]. split; [intros E0; rewrite E0 in Hne; cbn in Hne; lia|]. eexists _, _. left. reflexivity.
      * intros [Hx|(Hx & Hy & h & o & [Hi|Hi])]; [auto| |right; eauto 10]. left. right. left. injection Hi as Hi _ _. eapply same_seq; eauto.
    + rewrite Er. cbn [length N.of_nat N.eqb]. destruct (IH done tr HX' Hd Htr) as (tr' & done' & E & I1 & I2 & I3).
      exists tr', done'. split; [exact E|]. split; [exact I1|]. split; [exact I2|]. intros x. rewrite I3. split.
      * intros [Hx|(Hx & Hy & h & o' & Hi)]; [auto|]. right. split; [exact Hx|]. split; [exact Hy|]. exists h, o'. now right.
      * intros [Hx|(Hx & Hy & h & o' & [Hi|Hi])]; [auto| |right; eauto 10]. exfalso. injection Hi as Hi _ _. apply Hy. rewrite <- Er. f_equal. eapply same_seq; eauto.
Qed.

Lemma has_lowest (P : gmsg -> bool) l : (exists m, In m l /\ P m = true) -> exists m, In m l /\ P m = true /\ forall m', In m' l -> P m' = true -> (gm_seq m <= gm_seq m')%N.
Proof.
  induction l as [|x r IH]; intros (m & Hm & Pm); [contradiction|].
  destruct (existsb P r) eqn:Er.
  - apply existsb_exists in Er as (y & Hy & Py). destruct (IH (ex_intro _ y (conj Hy Py))) as (z & Hz & Pz & Lz).
    destruct (P x) eqn:Px; [destruct (N.le_gt_cases (gm_seq x) (gm_seq z))|].
    + exists x. split; [now left|]. split; [exact Px|]. intros m' [<-|Hm'] Pm'; [lia|]. specialize (Lz m' Hm' Pm'). lia.
    + exists z. split; [now right|]. split; [exact Pz|]. intros m' [<-|Hm'] Pm'; [lia|]. now apply Lz.
    + exists z. split; [now right|]. split; [exact Pz|]. intros m' [<-|Hm'] Pm'; [congruence|]. now apply Lz.
  - assert (Hno : forall y, In y r -> P y = false) by (intros y Hy; destruct (P y) eqn:E; [|reflexivity]; rewrite <- not_true_iff_false in Er; exfalso; apply Er; apply existsb_exists; eauto).
    destruct Hm as [<-|Hm]; [|rewrite Hno in Pm by exact Hm; discriminate].
    exists x. split; [now left|]. split; [exact Pm|]. intros m' [<-|Hm'] Pm'; [lia|]. rewrite Hno in Pm' by exact Hm'. discriminate.
Qed.

(** The tree after Open: the topics of the messages on disk. *)
Lemma load_open c l n g off H first T f index data :
  list_part c l n -> raws l -> wrun (newWindowWriter f) off H first T -> owin (fview f) off H first -> (forall h, short (H h)) ->
  (forall h, Permutation (map fst (H h)) (map gm_we (filter (stored_of g h) l))) ->
  (forall m1 m2, In m1 l -> In m2 l -> in_store g m1 = true -> in_store g m2 = false -> (gm_seq m1 < gm_seq m2)%N) ->
  (forall m, In m l -> in_store g m = true -> reads index data m) ->
  exists tr, load_trie index data (blockIterator f) newTrie = Some tr /\
    trie_part tr (filter (in_store g) l) (fun h => if old_first first h then 0 else off h).
Proof.
  intros Hl Hr ((nb & R) & _) O Hs Hp Hord Hrd. pose proof (r_x _ _ _ _ _ _ R) as X. pose proof O as [O1 O2 O3].
  set (off2 := fun h => if old_first first h then 0 else off h).
  pose proof (x_file _ _ X) as Xf. change (ww_file (newWindowWriter f)) with f in Xf.
  assert (Hnb : Z.of_nat nb < 524288) by (pose proof (x_n _ _ X); pose proof (x_idx _ _ X); lia).
  assert (Hit : forall x, In x (blockIterator f) <-> exists i b, 0 <= i /\ fview f i = Some b /\ wb_entryIdx b <> 0%N /\ x = (seq0 b, wb_topicHash b, 4096 * i)).
  { assert (Hlen : fsize f = 4096 * Z.of_nat nb) by (unfold fsize; destruct Xf as [Xf _]; unfold blockBytes in Xf; lia).
    intros x. unfold blockIterator. rewrite Hlen. destruct (Z.ltb_spec 0 (4096 * Z.of_nat nb)).
    - replace (4096 * Z.of_nat nb / 4096) with (Z.of_nat nb) by lia. rewrite i32_id by lia. rewrite Nat2Z.id.
      apply (iter_spec f nb off H first Xf Hnb O Hs); lia.
    - split; [intros []|]. intros (i & b & Hi & Eb & _). rewrite (fview_out _ nb i Xf) in Eb by lia. discriminate. }
  assert (Hm : forall h x, In x (H h) -> exists m, In m l /\ in_store g m = true /\ gm_hash m = h /\ w_seq (fst x) = gm_seq m).
  { intros h x Hx. apply (in_map fst) in Hx. apply (Permutation_in _ (Hp h)) in Hx. apply in_map_iff in Hx as (m & E & Hm). apply filter_In in Hm as [Hm Hsm].
    apply andb_true_iff in Hsm as [E1 E2]. apply N.eqb_eq in E1. exists m. rewrite <- E. auto. }
  assert (Hm2 : forall m, In m l -> in_store g m = true -> exists x, In x (H (gm_hash m)) /\ w_seq (fst x) = gm_seq m).
  { intros m Hm0 Hs0. assert (Hi : In (gm_we m) (map fst (H (gm_hash m)))).
    { eapply Permutation_in; [symmetry; apply Hp|]. apply in_map. apply filter_In. split; [exact Hm0|]. unfold stored_of. now rewrite N.eqb_refl, Hs0. }
    apply in_map_iff in Hi as (x & E & Hx). exists x. split; [exact Hx|]. now rewrite E. }
  assert (Hlow : forall m, In m l -> in_store g m = true -> lowest (H (gm_hash m)) (gm_seq m) -> gm_raw m = own_raw m).
  { intros m Hm0 Hs0 Hlo. eapply raw_first; eauto. intros m' Hm' Eh. destruct (in_store g m') eqn:Es.
    - destruct (Hm2 m' Hm' Es) as (x & Hx & <-). rewrite Eh in Hx. now apply Hlo.
    - specialize (Hord m m' Hm0 Hm' Hs0 Es). lia. }
  destruct (load_back c l n index data off2 Hl Hr (blockIterator f) [] newTrie) as (tr & done & E & I1 & I2 & I3).
  - intros q h o Hi. apply Hit in Hi as (i & b & Hi & Eb & Hx & E). injection E as -> -> ->.
    destruct (O1 i b Hi Eb Hx (Hs _)) as (_ & (x & Hx1 & Hx2) & N1 & N2).
    destruct (Hm _ _ Hx1) as (m & Hm0 & Hs0 & Eh & Eq). exists m. split; [exact Hm0|]. split; [congruence|]. split; [exact Eh|]. split; [now apply Hrd|].
    unfold off2, old_first. destruct first as [h0|].
    + destruct (N.eqb_spec h0 (wb_topicHash b)) as [->|Hd].
      * specialize (N2 eq_refl). destruct (Z.eqb_spec i 0) as [->|Hi0].
        -- left. split; [reflexivity|]. apply Hlow; auto. rewrite Eh, <- Eq, Hx2. exact N2.
        -- right. destruct N2 as (y & Hy & Hlt). destruct (Hm _ _ Hy) as (m' & Hm' & Hs' & Eh' & Eq'). eapply raw_later; [exact Hl|exact Hr|exact Hm0|exact Hm'|congruence|]. lia.
      * left. destruct (N1 ltac:(congruence)) as [N3 N4]. split; [symmetry; exact N3|]. apply Hlow; auto. rewrite Eh, <- Eq, Hx2. exact N4.
    + left. destruct (N1 ltac:(congruence)) as [N3 N4]. split; [symmetry; exact N3|]. apply Hlow; auto. rewrite Eh, <- Eq, Hx2. exact N4.
  - intros x [].
  - exists (fun _ => None). split; [constructor|reflexivity].
  - exists tr. split; [exact E|]. eapply trie_same; [exact I2|]. intros h. unfold topic_of.
    assert (Hfi : forall a, match find (fun m => (gm_hash m =? h)%N) a with Some m => In m a /\ gm_hash m = h | None => forall m, In m a -> gm_hash m <> h end).
    { intros a. destruct (find _ a) as [m|] eqn:Ef; [apply find_some in Ef as [? Ef]; apply N.eqb_eq in Ef; auto|].
      intros m Hm0 Eh. apply (find_none _ _ Ef) in Hm0. cbv beta in Hm0. rewrite Eh, N.eqb_refl in Hm0. discriminate. }
    pose proof (Hfi done) as F1. pose proof (Hfi (filter (in_store g) l)) as F2.
    destruct (find _ done) as [m1|]; destruct (find _ (filter (in_store g) l)) as [m2|]; try reflexivity.
    + destruct F1 as [F1 E1], F2 as [F2 E2]. apply filter_In in F2 as [F2 _]. destruct (lp_clash _ _ _ Hl m1 m2 (I1 _ F1) F2 ltac:(congruence)) as [-> ->]. reflexivity.
    + exfalso. destruct F1 as [F1 E1]. apply I3 in F1 as [[]|(F1 & _ & h' & o & Hi)]. apply Hit in Hi as (i & b & Hi & Eb & Hx & E0). injection E0 as E0 -> ->.
      destruct (O1 i b Hi Eb Hx (Hs _)) as (_ & (x & Hx1 & Hx2) & _). destruct (Hm _ _ Hx1) as (m & Hm0 & Hs0 & Eh & Eq).
      assert (m = m1) as -> by (eapply same_seq; eauto; congruence). apply (F2 m1); [apply filter_In; auto|exact E1].
    + exfalso. destruct F2 as [F2 E2]. apply filter_In in F2 as [F2 S2].
      destruct (has_lowest (stored_of g h) l) as (m & Hm0 & Pm & Lm).
      { exists m2. split; [exact F2|]. unfold stored_of. now rewrite E2, N.eqb_refl, S2. }
      apply andb_true_iff in Pm as [P1 P2]. apply N.eqb_eq in P1.
      assert (Hlo : lowest (H h) (gm_seq m)).
      { intros x Hx. destruct (Hm _ _ Hx) as (m' & Hm' & Hs' & Eh' & ->). apply Lm; [exact Hm'|]. unfold stored_of. now rewrite Eh', N.eqb_refl, Hs'. }
      assert (Hne : H h <> []).
      { destruct (Hm2 m Hm0 P2) as (x & Hx & _). rewrite P1 in Hx. intros E0. rewrite E0 in Hx. exact Hx. }
      destruct (O2 h Hne (Hs h)) as (j & b & Hj & Eb & Ehb & Hxb & Hfb).
      destruct (O1 j b Hj Eb Hxb (Hs _)) as (_ & (x & Hx1 & Hx2) & N1 & N2). rewrite Ehb in *.
      assert (Elow : seq0 b = gm_seq m).
      { assert (Hlb : lowest (H h) (seq0 b)).
        { destruct first as [h0|]; [|now apply N1]. destruct (N.eq_dec h0 h) as [->|Hd]; [|now apply N1; congruence].
          destruct (Hfb eq_refl) as [-> _]. specialize (N2 eq_refl). exact N2. }
        destruct (Hm2 m Hm0 P2) as (y & Hy & Ey). rewrite P1 in Hy. specialize (Hlb y Hy). specialize (Hlo x Hx1). lia. }
      apply (F1 m); [|exact P1]. apply I3. right. split; [exact Hm0|]. split.
      * pose proof (own_raw_some m) as Ho. rewrite <- (Hlow m Hm0 P2) in Ho by (now rewrite P1). intros E0. rewrite E0 in Ho. cbn in Ho. lia.
      * exists h, (4096 * j). apply Hit. exists j, b. rewrite <- Elow, Ehb. auto.
Qed.
