(** Proofs about restarts: blocks moved to the files. *)
From Verif Require Import M_Bytes P_Bytes M_File M_Hash M_Bloom M_Entry P_Codec M_MsgId M_Mac P_Mac M_Topic M_Trie M_Query M_IndexBlock M_Lease
  M_BlockRange M_BlockStore M_WinBlock M_Wal M_MemDB M_Window M_Get M_DB S_Trie S_Window S_BlockStore S_MemDB S_Get S_DB S_Session S_Restart
  P_Topic P_Trie P_Trie2 P_Trie3 P_BlockStore4 P_Window2 P_Window3 P_Window4 P_WinOpen P_Get P_MemBlock P_MemDB P_MemGet P_MemLog P_MemWal P_MemKeep P_DB
  P_Session P_Session2 P_Session3 P_Session4 P_Restart.
From Coq Require Import Lia ZifyBool ZifyNat ZifyN Permutation Sorted.
Open Scope Z_scope.

Lemma free_inv c mem g t mem1 : ginv c mem g -> mem_free mem t = (mem1, MOk) -> ginv c mem1 (gfree g t).
Proof.
  intros G Ef. destruct (gstep c mem g (OFree t) mem1 (S_MemDB.ORes MOk) G I I) as (g' & Ha & Hg').
  { cbn [mstep]. now rewrite Ef. }
  inversion Ha; subst; assumption.
Qed.
Lemma apps_run now W wm W' : wapps now W wm W' -> wst_run W'.
Proof. induction 1; assumption. Qed.

Lemma apps_owin c l n g t0 now : list_part c l n ->
  (forall m1 m2, In m1 l -> In m2 l -> in_store g m1 = true -> held_t g t0 m2 = true -> (gm_seq m1 < gm_seq m2)%N) ->
  forall W wm W', wapps now W wm W' -> NoDup (map fst wm) ->
  (forall h es, In (h, es) wm -> es = map gm_we (filter (held_at g t0 h) l)) ->
  (forall h, In h (map fst wm) -> Permutation (map fst (wq_H W h)) (map gm_we (filter (stored_of g h) l))) ->
  owin (wview (wq_w W)) (wq_off W) (wq_H W) (wq_first W) ->
  owin (wview (wq_w W')) (wq_off W') (wq_H W') (wq_first W') /\
  forall h, map fst (wq_H W' h) = map fst (wq_H W h) ++ match afind N.eqb wm h with Some es => es | None => [] end.
Proof.
  intros Hl Hord. induction 1 as [W HW|w off H first T h es w1 o r W' Hr Hh Hne Hok HT Hsz Ea Happ IH]; intros Hn Hes Hp O.
  - split; [exact O|]. intros h. cbn [afind]. now rewrite app_nil_r.
  - cbn [wq_w wq_off wq_H wq_first] in *. cbn [map fst] in Hn. inversion Hn as [|? ? Hnh Hn']; subst.
    destruct Hr as ((nb & R) & Hz).
    assert (Eh : es = map gm_we (filter (held_at g t0 h) l)) by (apply Hes; now left).
    destruct IH as [O' E'].
    + exact Hn'.
    + intros h' es' Hi. apply Hes. now right.
    + intros h' Hi. unfold fset. destruct (N.eqb_spec h' h) as [->|Hd]; [contradiction|]. apply Hp. now right.
    + eapply append_owin; try eassumption.
      * intros x e Hx He. apply (in_map fst) in Hx. apply (Permutation_in _ (Hp h (or_introl eq_refl))) in Hx.
        apply in_map_iff in Hx as (m1 & E1 & Hm1). apply filter_In in Hm1 as [Hm1 Hs1]. apply andb_true_iff in Hs1 as [_ Hs1].
        rewrite Eh in He. apply in_map_iff in He as (m2 & E2 & Hm2). apply filter_In in Hm2 as [Hm2 Hs2]. rewrite held_at_t in Hs2. apply andb_true_iff in Hs2 as [_ Hs2].
        rewrite <- E1, <- E2. cbn [gm_we w_seq]. now apply Hord.
      * intros e0 e rr Ee He. rewrite Eh in Ee, He. pose proof (sorted_filter (held_at g t0 h) l (lp_sorted _ _ _ Hl)) as Hs.
        destruct (filter (held_at g t0 h) l) as [|m0 ms]; [discriminate|]. cbn [map] in Ee, He, Hs. injection Ee as <- _.
        destruct He as [<-|He]; [apply N.le_refl|]. apply in_map_iff in He as (m & <- & Hm). inversion Hs as [|? ? _ Hf]; subst. rewrite Forall_forall in Hf.
        specialize (Hf (gm_seq m) (in_map gm_seq _ _ Hm)). cbn [gm_we w_seq]. lia.
    + split; [exact O'|]. intros h'. rewrite E'. unfold fset. cbn [afind]. rewrite (N.eqb_sym h h'). destruct (N.eqb_spec h' h) as [->|Hd]; [|reflexivity].
      rewrite map_app, map_map. cbn [fst]. rewrite map_id.
      enough (afind N.eqb r h = None) as -> by (now rewrite app_nil_r).
      destruct (afind N.eqb r h) eqn:Er; [|reflexivity]. exfalso. apply Hnh. apply (afind_In _ Neqb_iff) in Er. apply (in_map fst) in Er. exact Er.
Qed.

(** What is kept while blocks are moved. *)
Record moving (c : dcfg) (l : list gmsg) (ts : list Z) (mem : mdb) (g : gstate) (W : wst) : Prop := {
  mo_inv : ginv (c_mem c) mem g;
  mo_mem : exists L, mkeep mem (g_slot g) L;
  mo_held : forall k t v, g_slot g k = Held t v -> exists m, In m l /\ gm_seq m = k;
  mo_known : forall m, In m l -> g_slot g (gm_seq m) <> Absent;
  mo_hist : forall h, Permutation (map fst (wq_H W h)) (map gm_we (filter (stored_of g h) l));
  mo_order : forall m1 m2, In m1 l -> In m2 l -> in_store g m1 = true -> in_store g m2 = false -> (gm_seq m1 < gm_seq m2)%N;
  mo_view : owin (wview (wq_w W)) (wq_off W) (wq_H W) (wq_first W);
  mo_file : owin (fview (ww_file (wq_w W))) (wq_off W) (wq_H W) (wq_first W);
  mo_sorted : StronglySorted Z.le ts;
  mo_rest : forall k u v, g_slot g k = Held u v -> In u ts \/ forall t, In t ts -> t <= u;
  mo_cur : forall t, In t ts -> t <> m_cur mem
}.

Lemma moving_free c l n now mem g W t ts mem1 W1 : list_part c l n -> moving c l (t :: ts) mem g W ->
  mem_free mem t = (mem1, MOk) -> written now l g t W W1 ->
  moving c l ts mem1 (gfree g t) W1 /\ pending mem1 = pending mem /\ m_cur mem1 = m_cur mem /\ m_queue mem1 = m_queue mem.
Proof.
  intros Hl [M1 (L & M2) M3 M3' M4 M5 M6 M7 M8 M9 M10] Ef (wm & Wa & w2 & Hn & Hes & Hno & Happ & Ew & ->).
  assert (Er : releaseLog mem t = Some mem1) by (unfold mem_free in Ef; destruct (releaseLog mem t); [congruence|discriminate]).
  destruct (keep_free mem (g_slot g) L t mem1 (gi_w _ _ _ M1) M2 (M10 t (or_introl eq_refl)) Er) as (K & Kp & Kc & Ki & Kr & Kq).
  inversion M8 as [|? ? M8' Fts]; subst. rewrite Forall_forall in Fts.
  assert (Hslot : forall k u v, g_slot (gfree g t) k = Held u v <-> g_slot g k = Held u v /\ u <> t) by (intros k u v; apply (slfree_held (g_slot g) t)).
  assert (Hlow : forall m1 m2, In m1 l -> In m2 l -> held_t g t m1 = true -> in_store g m2 = false -> held_t g t m2 = false -> (gm_seq m1 < gm_seq m2)%N).
  { intros m1 m2 H1 H2 E1 E2 E3. unfold held_t in E1, E3. unfold in_store in E2.
    destruct (g_slot g (gm_seq m1)) as [|u1 v1|] eqn:S1; try discriminate. apply Z.eqb_eq in E1. subst u1.
    destruct (g_slot g (gm_seq m2)) as [|u2 v2|] eqn:S2; try discriminate; [exfalso; exact (M3' m2 H2 S2)|].
    apply Z.eqb_neq in E3. destruct (N.lt_trichotomy (gm_seq m1) (gm_seq m2)) as [Hlt|[He|Hgt]]; [exact Hlt| |].
    - rewrite He in S1. rewrite S1 in S2. injection S2 as <- _. contradiction.
    - pose proof (od_time _ _ _ _ (kp_order _ _ _ M2) _ _ _ _ _ _ S2 S1 Hgt). exfalso.
      destruct (M9 _ _ _ S2) as [[Hi|Hi]|Hi]; [congruence|specialize (Fts _ Hi); lia|specialize (Hi t (or_introl eq_refl)); lia]. }
  assert (Hstore : forall m1 m2, In m1 l -> In m2 l -> in_store g m1 = true -> held_t g t m2 = true -> (gm_seq m1 < gm_seq m2)%N).
  { intros m1 m2 H1 H2 E1 E2. apply M5; auto. destruct (in_store g m2) eqn:E; [|reflexivity]. exfalso. exact (store_held g t m2 E E2). }
  destruct (apps_owin c l n g t now Hl Hstore W wm Wa Happ Hn Hes (fun h _ => M4 h) M6) as [O1 Eh].
  destruct (apps_run _ _ _ _ Happ) as ((nb & Rb) & _).
  destruct (write_owin _ _ _ _ _ _ _ Rb Ew O1) as [O2 O3].
  split; [|split; [exact Kp|split; [exact Kc|exact Kq]]].
  split.
  - exact (free_inv _ _ _ _ _ M1 Ef).
  - eexists. exact K.
  - intros k u v Hk. apply Hslot in Hk as [Hk _]. exact (M3 k u v Hk).
  - intros m Hm. unfold gfree; cbn [g_slot]. specialize (M3' m Hm). destruct (g_slot g (gm_seq m)) as [|u v|]; [congruence|destruct (u =? t); discriminate|discriminate].
  - intros h. cbn [wq_H]. rewrite Eh.
    assert (Efl : match afind N.eqb wm h with Some es => es | None => [] end = map gm_we (filter (held_at g t h) l)).
    { destruct (afind N.eqb wm h) as [es|] eqn:Ea.
      - apply (afind_In _ Neqb_iff) in Ea. now apply Hes.
      - rewrite Hno; [reflexivity|]. intros Hi. apply in_map_iff in Hi as ([h' es] & E1 & Hi). cbn in E1. subst h'. rewrite (in_afind _ _ _ Hn Hi) in Ea. discriminate. }
    etransitivity; [apply Permutation_app; [apply M4|apply eq_sub; exact Efl]|]. rewrite <- map_app. apply Permutation_map.
    rewrite split_filter.
    + apply eq_sub. apply filter_ext. intros m. unfold stored_of. rewrite in_store_free, held_at_t. unfold of_hash. destruct (gm_hash m =? h)%N; reflexivity.
    + intros m _ H1 H2. unfold stored_of in H1. apply andb_true_iff in H1 as [_ H1]. rewrite held_at_t in H2. apply andb_true_iff in H2 as [_ H2]. now apply (store_held g t m).
  - intros m1 m2 H1 H2. rewrite !in_store_free. intros E1 E2. apply orb_false_iff in E2 as [E2 E3]. apply orb_true_iff in E1 as [E1|E1]; [now apply M5|].
    now apply Hlow.
  - exact O2.
  - exact O3.
  - exact M8'.
  - intros k u v Hk. apply Hslot in Hk as [Hk Hu]. destruct (M9 _ _ _ Hk) as [[->|Hi]|Hi]; [congruence|now left|]. right. intros t' Ht'. apply Hi. now right.
  - intros t' Ht'. rewrite Kc. apply M10. now right.
Qed.

Lemma moving_all c l n now : list_part c l n -> forall mem g W ts mem' g' W', frees now l mem g W ts mem' g' W' -> moving c l ts mem g W ->
  moving c l [] mem' g' W' /\ pending mem' = pending mem /\ m_cur mem' = m_cur mem /\ m_queue mem' = m_queue mem /\
  (forall k u v, g_slot g' k = Held u v -> g_slot g k = Held u v /\ ~ In u ts).
Proof.
  intros Hl. induction 1 as [m g W|m g W t ts m' g' W' Hno Hf IH|m g W t ts m1 W1 m' g' W' Ef Hw Hf IH]; intros Hm.
  - split; [exact Hm|]. repeat (split; [reflexivity|]). auto.
  - destruct IH as (I1 & I2 & I3 & I4 & I5).
    { destruct Hm as [M1 M2 M3 M3' M4 M5 M6 M7 M8 M9 M10]. split; auto.
      - now inversion M8.
      - intros k u v Hk. destruct (M9 _ _ _ Hk) as [[->|Hi]|Hi]; [exfalso; exact (Hno _ _ Hk)|now left|]. right. intros t' Ht'. apply Hi. now right.
      - intros t' Ht'. apply M10. now right. }
    repeat (split; [assumption|]). intros k u v Hk. destruct (I5 k u v Hk) as [E1 E2]. split; [exact E1|]. intros [->|Hi]; [exact (Hno _ _ E1)|contradiction].
  - destruct (moving_free c l n now _ _ _ _ _ _ _ Hl Hm Ef Hw) as (N1 & N2 & N3 & N4).
    destruct (IH N1) as (I1 & I2 & I3 & I4 & I5). split; [exact I1|]. split; [congruence|]. split; [congruence|]. split; [congruence|].
    intros k u v Hk. destruct (I5 k u v Hk) as [E1 E2]. apply (slfree_held (g_slot g) t) in E1 as [E1 E3]. split; [exact E1|]. intros [->|Hi]; [congruence|contradiction].
Qed.

(** * Sync *)
Lemma refs_sorted l : StronglySorted Z.le (sort_asc l).
Proof.
  unfold sort_asc. induction l as [|x l0 IH]; cbn [fold_right]; [constructor|]. revert IH. generalize (fold_right insert_asc [] l0). intros l. induction l as [|y l IH]; intros Hs; cbn [insert_asc]; [repeat constructor|].
  destruct (x <=? y) eqn:E.
  - constructor; [exact Hs|]. inversion Hs as [|? ? Hs' Hf]; subst. constructor; [lia|]. eapply Forall_impl; [|exact Hf]. cbn. lia.
  - inversion Hs as [|? ? Hs' Hf]; subst. constructor; [auto|]. apply Forall_forall. intros z Hz. rewrite Forall_forall in Hf.
    assert (z = x \/ In z l) as [->|Hi]; [|lia|auto]. revert Hz. clear. induction l as [|a l IH]; cbn [insert_asc]; [intros [<-|[]]; auto|].
    destruct (x <=? a); cbn [In]; [intuition|]. intros [<-|Hz]; [auto|]. destruct (IH Hz); auto.
Qed.

Lemma kept_sync c s s' l g g' off off' H H' first first' M T T' e t now : inv c s l g off H first M T e t -> kept c s l g off H first t -> t <= now ->
  ((g' = g /\ d_mem s' = d_mem s /\ d_win s' = d_win s /\ off' = off /\ H' = H /\ first' = first) \/
     exists w', frees now l (d_mem s) g (mkW (newWindowWriter (d_win s)) off H first T) (timeRefs (d_mem s)) (d_mem s') g' (mkW w' off' H' first' T') /\ d_win s' = ww_file w') ->
  (forall f mi, d_lease s = newLease f mi -> d_lease s' = newLease f mi) ->
  kept c s' l g' off' H' first' now.
Proof.
  intros Hi K Ht Hf Hls. apply (kept_later _ _ _ _ _ _ _ _ now Ht) in K. destruct K as [(L & K1 & K3) K4 K5 K6 K7 K8 K9].
  destruct Hf as [(-> & Em & Ew & -> & -> & ->)|(w' & Hf & Ew)].
  { split; auto; [exists L; rewrite Em; auto|now rewrite Ew]. }
  pose proof Hi as [Icl Ienc Il Im Itw Iwin Ist Itr Icur IT]. pose proof (mp_inv _ _ _ _ Im) as G.
  assert (Hmo : moving c l (timeRefs (d_mem s)) (d_mem s) g (mkW (newWindowWriter (d_win s)) off H first T)).
  { split; cbn [wq_w wq_off wq_H wq_first].
    - exact G.
    - eexists. exact K1.
    - intros k u v Hk. destruct (mp_held _ _ _ _ Im _ _ _ Hk) as (m & Hm & E & _). eauto.
    - intros m Hm. destruct (mp_all _ _ _ _ Im m Hm) as [->|(u & ->)]; discriminate.
    - exact (wp_hist _ _ _ _ _ _ _ _ Iwin).
    - exact K7.
    - exact K9.
    - exact K9.
    - apply refs_sorted.
    - intros k u v Hk. unfold timeRefs.
      assert (Hcase : In u (m_released (d_mem s)) \/ In u (map snd (pending (d_mem s)))) by (destruct (mk_held _ _ _ (kp_marks _ _ _ K1) _ _ _ Hk) as [Hr|[_ Hr]]; auto).
      destruct Hcase as [Hr|Hr].
      + destruct (Z_lt_le_dec u (m_cur (d_mem s))) as [Hlt|Hge].
        * left. apply sort_asc_in. apply filter_In. split; [exact Hr|]. specialize (K6 _ _ _ Hk). lia.
        * right. intros t0 H0. apply (proj1 (sort_asc_in _ _)) in H0. apply filter_In in H0 as [_ H0]. lia.
      + right. intros t0 H0. apply (proj1 (sort_asc_in _ _)) in H0. apply filter_In in H0 as [H0 _]. exact (mk_le _ _ _ (kp_marks _ _ _ K1) _ _ H0 Hr).
    - intros t0 H0. unfold timeRefs in H0. apply (proj1 (sort_asc_in _ _)) in H0. apply filter_In in H0 as [_ H0]. lia. }
  destruct (moving_all c l (d_seq s) now Il _ _ _ _ _ _ _ Hf Hmo) as ([N1 (L' & N2) N3 N3' N4 N5 N6 N7 N8 N9 N10] & Ep & Ec & Eq & Hs).
  cbn [wq_w wq_off wq_H wq_first] in *.
  split; auto.
  - exists L'. split; [exact N2|]. now rewrite Ep.
  - rewrite <- (gi_cur _ _ _ N1), Ec, (gi_cur _ _ _ G). exact K5.
  - intros k u v Hk. apply Hs in Hk as [Hk _]. exact (K6 _ _ _ Hk).
  - now rewrite Ew.
Qed.
