(** Proofs about batches in sessions: the other steps, and whole runs. *)
From Verif Require Import M_Bytes P_Bytes M_File M_Hash M_Bloom M_Entry M_MsgId M_Mac M_Topic M_Trie M_Query M_IndexBlock M_Lease
  M_BlockStore M_WinBlock M_Wal M_MemDB M_Window M_Get M_DB S_Trie S_Window S_BlockStore S_MemDB S_Get S_DB S_Session S_Batches
  P_MemDB P_MemGet P_DB P_Session P_Session2 P_Session3 P_Session4 P_Session5 P_Batches P_Batches2.
From Coq Require Import Lia ZifyBool ZifyNat ZifyN Permutation Sorted.
Open Scope Z_scope.

Record binv (c : dcfg) (s : db) (l : list gmsg) (g : gstate) (off : offsets) (H : hist) (first : option N) (M : ghost) (T e t slot busy : Z) : Prop := {
  bi_inv : inv (fine c) (at_ (g_cur g) s) l g off H first M T e t;
  bi_slot : m_cur (d_mem s) = slot;
  bi_cur : slot <= g_cur g <= Z.max busy slot;
  bi_past : slot <= trunc t (c_dur (c_mem c))
}.

Lemma put_in_cur c m t k v m' r : put_in c m t k v = (m', r) -> m_cur m' = m_cur m.
Proof.
  unfold put_in. destruct (m_closed m); [congruence|]. destruct (live m t) as [p|]; [|congruence].
  unfold block_put. destruct (nth_error (m_blocks m) p) as [b|]; [|congruence]. destruct (nth_error (m_bufs m) (mb_buf b)) as [d|]; [|congruence].
  intros E. apply (f_equal fst) in E. cbn [fst] in E. rewrite <- E. unfold addTimeFilter.
  destruct (nth_error _ (c_bkey c k)); reflexivity.
Qed.
Lemma b_put c gens s l g off H first M T e t slot busy now k p payload expires encrypt : setting_ok c gens ->
  binv c s l g off H first M T e t slot busy -> t <= now -> (d_seq s + 1 <= 130000)%N -> put_ok c (map gm_sent l) k p payload expires -> busy <= slot ->
  exists s' ue m g', put_entry c s now (put_arg p payload expires k encrypt) = (s', ue, DOk) /\
    gm_sent m = mkSent (owner k) p expires payload /\ d_seq s' = (d_seq s + 1)%N /\ binv c s' (l ++ [m]) g' off H first M T e now slot busy.
Proof.
  intros Hset [Hi Hs Hc Hp] Ht Hq Hput Hb. pose proof (fine_later _ _ _ _ _ _ _ _ _ _ _ now Ht Hi) as Hi'.
  assert (Eg : g_cur g = m_cur (d_mem s)) by lia.
  destruct (set_entry_session (fine c) gens s l now k p payload expires encrypt (fine_setting _ _ Hset)
    (iv_enc _ _ _ _ _ _ _ _ _ _ _ Hi') Hq (fine_put _ _ _ _ _ _ Hput)) as (e' & m & Ese & Esent & Eseq & Eraw & Hok & _).
  change (set_entry (fine c) s now) with (set_entry c s now) in Ese.
  assert (E1 : u64 (d_seq s + 1) = (d_seq s + 1)%N) by (apply next_num; lia).
  assert (Hi2 : inv (fine c) (at_ (g_cur g) (next_seq s)) l g off H first M T e now).
  { unfold next_seq. change (at_ (g_cur g) (set_seq s (u64 (d_seq s + 1)))) with (set_seq (at_ (g_cur g) s) (u64 (d_seq s + 1))).
    apply inv_seq; [exact Hi'|]. change (d_seq (at_ (g_cur g) s)) with (d_seq s). lia. }
  destruct (entry_step (fine c) (at_ (g_cur g) (next_seq s)) l g off H first M T e now m Hi2) as (tr & mm & Etr & Ep & Hi3).
  { change (d_seq (at_ (g_cur g) (next_seq s))) with (u64 (d_seq s + 1)). rewrite E1. apply list_snoc; auto.
    - exact (iv_list _ _ _ _ _ _ _ _ _ _ _ Hi).
    - intros x Hin Eh. rewrite Esent. cbn [s_owner s_pattern]. destruct Hput as [_ _ _ _ _ _ Hclash]. apply Hclash; [now apply in_map|].
      unfold gm_hash in Eh. rewrite Eh, Esent. reflexivity. }
  { apply (raw_of_ok s l m off); [exact (iv_trie _ _ _ _ _ _ _ _ _ _ _ Hi)|now rewrite Esent]. }
  unfold put_entry. change (d_closed s) with (d_closed (at_ (g_cur g) s)). rewrite (iv_closed _ _ _ _ _ _ _ _ _ _ _ Hi).
  rewrite (check_ok _ _ _ _ _ _ _ Hput), Ese. change (d_mem (next_seq s)) with (d_mem s). change (e_seq (gm_entry m)) with (gm_seq m).
  unfold mem_put. rewrite <- Eg.
  change (d_mem (at_ (g_cur g) (next_seq s))) with (lg (g_cur g) (d_mem s)) in Ep. rewrite lg_put in Ep.
  assert (Ep2 : put_in (c_mem c) (d_mem s) (g_cur g) (gm_seq m) (gm_cache m) = put_in (c_mem (fine c)) (d_mem s) (g_cur g) (gm_seq m) (gm_cache m)) by reflexivity.
  rewrite Ep2. destruct (put_in (c_mem (fine c)) (d_mem s) (g_cur g) (gm_seq m) (gm_cache m)) as [mm0 r0] eqn:Ep0.
  cbn [fst snd] in Ep. injection Ep as <- ->.
  change (d_trie (at_ (g_cur g) (next_seq s))) with (d_trie s) in Etr. cbv zeta. cbn [set_tw set_mem d_trie d_tw].
  change (d_trie (next_seq s)) with (d_trie s). rewrite Etr.
  do 2 eexists. exists m, (gset g (gm_seq m) (Held (g_cur g) (gm_cache m))). split; [reflexivity|]. split; [exact Esent|]. split; [exact E1|].
  split.
  - exact Hi3.
  - cbn [set_trie set_tw set_mem d_mem]. rewrite <- Hs. rewrite (put_in_cur _ _ _ _ _ _ _ Ep0). reflexivity.
  - cbn [gset g_cur]. lia.
  - etransitivity; [exact Hp|]. apply trunc_mono; [exact (so_dur _ _ Hset)|exact Ht].
Qed.

Lemma b_later c gens s l g off H first M T e t slot busy t' : setting_ok c gens -> t <= t' ->
  binv c s l g off H first M T e t slot busy -> binv c s l g off H first M T e t' slot busy.
Proof.
  intros Hset Ht [Hi Hs Hc Hp]. split; auto; [now apply (fine_later c _ _ _ _ _ _ _ _ _ t)|].
  etransitivity; [exact Hp|]. apply trunc_mono; [exact (so_dur _ _ Hset)|exact Ht].
Qed.

Lemma b_get c s l g off H first M T e t slot busy now g0 k names limit x : binv c s l g off H first M T e t slot busy ->
  0 <= now < 2 ^ 32 * 1000000000 -> S_Session.get_ok c (map gm_sent l) g0 k names limit -> first_of first l x ->
  exists s' q' items, db_get c s now g0 (mkQ (text (static names)) k limit 0 []) = (s', q', QItems items) /\
    binv c s' l g off H first M T e t slot busy /\ d_seq s' = d_seq s /\
    incl items (map s_payload (filter (asked k names) (map gm_sent l))) /\
    (spared x k names = false -> items = expect now k names (map gm_sent l)).
Proof.
  intros [Hi Hs Hc Hp] Hn Hg Hf.
  destruct (get_step _ _ _ _ _ _ _ _ _ _ _ now g0 k names limit x Hi Hn (fine_get _ _ _ _ _ _ Hg) Hf) as (s' & q' & items & Eg & Hi' & Eq & _ & Hin & Hx).
  rewrite at_get in Eg. destruct (db_get c s now g0 (mkQ (text (static names)) k limit 0 [])) as [[s1 q1] r1] eqn:E1.
  assert (Es : at_ (g_cur g) s1 = s') by congruence. assert (Er : r1 = QItems items) by congruence. subst s' r1.
  exists s1, q1, items. split; [reflexivity|]. split; [|auto].
  split; [exact Hi'|rewrite (get_cur _ _ _ _ _ _ _ _ E1); exact Hs|exact Hc|exact Hp].
Qed.

Lemma mark_rel_alike m t : alike m (mark_release m t) /\ m_cur (mark_release m t) = m_cur m.
Proof. unfold mark_release. destruct (afind Z.eqb (m_marks m) t) as [r|]; [destruct (0 <? r - 1)|]; now repeat split. Qed.

Lemma b_tick c gens s l g off H first M T e t slot busy now : setting_ok c gens -> binv c s l g off H first M T e t slot busy -> t <= now ->
  exists g', binv c (set_mem s (mem_tick (c_mem c) (d_mem s) now None)) l g' off H first M T e now (trunc now (c_dur (c_mem c))) busy.
Proof.
  intros Hset [Hi Hs Hc Hp] Ht. pose proof (fine_cur _ _ _ _ _ _ _ _ _ _ _ Hi) as Hgc.
  pose proof (fine_later _ _ _ _ _ _ _ _ _ _ _ now Ht Hi) as Hi'. pose proof (mp_open _ _ _ _ (iv_mem _ _ _ _ _ _ _ _ _ _ _ Hi')) as Hop.
  pose proof (mp_inv _ _ _ _ (iv_mem _ _ _ _ _ _ _ _ _ _ _ Hi')) as Hg0. change (d_mem (at_ (g_cur g) s)) with (lg (g_cur g) (d_mem s)) in Hg0.
  set (t' := trunc now (c_dur (c_mem c))).
  assert (Hst : slot <= t') by (etransitivity; [exact Hp|]; apply trunc_mono; [exact (so_dur _ _ Hset)|exact Ht]).
  assert (Htn : t' <= now) by (unfold t', trunc; pose proof (so_dur _ _ Hset); pose proof (Z.mod_pos_bound now (c_dur (c_mem c))); lia).
  set (mm := mem_tick (c_mem c) (d_mem s) now None).
  assert (Hg1 : ginv (c_mem (fine c)) (addTimeBlock (lg (g_cur g) (d_mem s)) t' None) g) by now apply ginv_add.
  assert (Al : forall b, alike (addTimeBlock (lg (g_cur g) (d_mem s)) t' None) (lg b mm)).
  { intros b. unfold mm, mem_tick, newTinyLog. fold t'. rewrite lg_add. unfold addTimeBlock.
    change (live (set_log (d_mem s) (m_cur (d_mem s)) (m_curid (d_mem s)) (m_queue (d_mem s) ++ [(m_curid (d_mem s), m_cur (d_mem s))])) t') with (live (d_mem s) t').
    destruct (live (d_mem s) t'); now repeat split. }
  set (b := Z.max t' (g_cur g)). exists (mkG b true (g_slot g)). split; cbn [g_cur].
  - change (at_ b (set_mem s mm)) with (set_mem (at_ (g_cur g) s) (lg b mm)). apply inv_mem2; [exact Hi'| |].
    + eapply ginv_to; [exact Hg1|apply Al|lia| |reflexivity]. destruct (Z.max_spec t' (g_cur g)) as [[_ E]|[_ E]]; unfold b; rewrite E.
      * now apply (gi_open _ _ _ Hg1).
      * apply add_live.
    + cbn [fine c_mem c_dur]. rewrite trunc_one. lia.
  - reflexivity.
  - lia.
  - lia.
Qed.

Lemma b_commit c s l g off H first M T e t slot busy : binv c s l g off H first M T e t slot busy ->
  binv c (set_mem s (mem_commit (d_mem s))) l g off H first M T e t slot busy.
Proof.
  intros [Hi Hs Hc Hp]. unfold mem_commit. destruct (m_queue (d_mem s)) as [|[id t0] q] eqn:Eq.
  { split; auto. }
  pose proof (mp_open _ _ _ _ (iv_mem _ _ _ _ _ _ _ _ _ _ _ Hi)) as Hop.
  pose proof (mp_inv _ _ _ _ (iv_mem _ _ _ _ _ _ _ _ _ _ _ Hi)) as Hg0. change (d_mem (at_ (g_cur g) s)) with (lg (g_cur g) (d_mem s)) in Hg0.
  assert (Hg1 : ginv (c_mem (fine c)) (tinyWrite (lg (g_cur g) (d_mem s)) id t0) g) by now apply ginv_tiny.
  set (m1 := tinyWrite (set_log (d_mem s) (m_cur (d_mem s)) (m_curid (d_mem s)) q) id t0).
  destruct (mark_rel_alike m1 t0) as [Al Ac].
  assert (El : lg (g_cur g) m1 = tinyWrite (lg (g_cur g) (d_mem s)) id t0) by (unfold m1; now rewrite <- lg_tiny).
  assert (Eg : g = mkG (g_cur g) true (g_slot g)) by (destruct g; cbn in *; now subst).
  split; auto.
  - change (at_ (g_cur g) (set_mem s (mark_release m1 t0))) with (set_mem (at_ (g_cur g) s) (lg (g_cur g) (mark_release m1 t0))).
    rewrite Eg at 3. apply inv_mem2; [exact Hi| |exact (iv_cur _ _ _ _ _ _ _ _ _ _ _ Hi)].
    eapply ginv_to; [exact Hg1| |lia|now apply (gi_open _ _ _ Hg1)|reflexivity].
    rewrite <- El. destruct Al as (A1 & A2 & A3 & A4 & A5 & A6 & A7). now repeat split.
  - cbn [set_mem d_mem]. rewrite Ac. unfold m1. rewrite tiny_cur. exact Hs.
Qed.

Lemma b_sync c gens s l g off H first M T e t slot busy now ord : setting_ok c gens -> binv c s l g off H first M T e t slot busy ->
  t <= now -> 0 <= now < 2 ^ 32 * 1000000000 -> e <= 130000 -> (forall m, Permutation (ord m) m) ->
  exists s' g' off' H' first' M' T', db_sync now ord s = (s', DOk) /\
    binv c s' l g' off' H' first' M' T' (e + 1) now slot busy /\ d_seq s' = d_seq s /\ (first <> None -> first' = first).
Proof.
  intros Hset Hb Ht Hnow He Hord. pose proof (b_later _ _ _ _ _ _ _ _ _ _ _ _ _ _ now Hset Ht Hb) as [Hi2 _ _ Hp2].
  destruct Hb as [Hi Hs Hc Hp]. pose proof Hi as [Icl Ienc Il Im Itw Iwin Ist Itr Icur IT].
  destruct (sp_open _ _ _ _ _ _ Ist) as (b & Eb & Hb & Hbo).
  unfold db_sync, start_sync. destruct (N.eqb_spec (d_last s) (d_seq s)) as [Els|Els].
  { exists s, g, off, H, first, M, T. split; [reflexivity|]. split; [|auto]. split; auto.
    destruct Hi2 as [J1 J2 J3 J4 J5 [W1 W2 W3 W4] J7 J8 J9 J10]. constructor; auto. constructor; auto. lia. }
  change (d_index (at_ (g_cur g) s)) with (d_index s) in Eb. change (d_data (at_ (g_cur g) s)) with (d_data s) in Eb. change (d_lease (at_ (g_cur g) s)) with (d_lease s) in Eb.
  rewrite Eb. set (st := mkSS s (newWindowWriter (d_win s)) b 0 0 false).
  destruct (blocks_step (fine c) gens (tw_keys (d_tw s)) l e now ord (fine_setting _ _ Hset) Hnow He Hord (timeRefs (d_mem s)) (ats (g_cur g) st) g off H first M T t)
    as (st' & g' & off' & H' & first' & M' & T' & E & Sy & Q & F & _).
  - constructor; auto; cbn [st ats ss_set_db ss_db ss_ww ss_bw ss_err1 ss_upper]; try reflexivity.
    + constructor; auto. destruct Iwin as [W1 W2 W3 W4]. constructor; auto. lia.
    + exact (wp_run _ _ _ _ _ _ _ _ Iwin).
    + exact (wp_idx _ _ _ _ _ _ _ _ Iwin).
    + intros x Hx. exact Hx.
  - exact Ht.
  - apply Forall_forall. intros t0 H0. unfold timeRefs in H0. rewrite sort_asc_in in H0. apply filter_In in H0 as [_ H0]. lia.
  - rewrite at_blocks in E. destruct (sync_blocks (sync_block now ord (tw_keys (d_tw s))) st (timeRefs (d_mem s))) as [st0|st0|] eqn:E0; try discriminate.
    assert (Est : st' = ats (g_cur g) st0) by (cbn [ats_s] in E; congruence). subst st'.
    exists (ss_db st0), g', off', H', first', M', T'. split; [reflexivity|].
    pose proof (si_inv _ _ _ _ _ _ _ _ _ _ _ _ Sy) as Hi3.
    assert (Eg : g_cur g' = g_cur g) by (rewrite <- (gi_cur _ _ _ (mp_inv _ _ _ _ (iv_mem _ _ _ _ _ _ _ _ _ _ _ Hi3))); reflexivity).
    split; [|split; [exact Q|exact F]]. split.
    + rewrite Eg. exact Hi3.
    + rewrite (blocks_cur _ _ _ _ _ _ E0). exact Hs.
    + rewrite Eg. exact Hc.
    + exact Hp2.
Qed.

Lemma b_batch c gens s l g off H first M T e t slot busy now items now1 now2 : setting_ok c gens -> binv c s l g off H first M T e t slot busy ->
  t <= now -> items_ok c now (map gm_sent l) items now1 -> now1 <= now2 -> Z.of_N (d_seq s) + Z.of_nat (length items) <= 130000 ->
  exists s' l' g', db_batch_run c s now None (map as_bop items) false now1 now2 None None = Some s' /\
    binv c s' l' g' off H first M T e now2 slot now2 /\ map gm_sent l' = map gm_sent l ++ flat_map item_sends items /\ incl l l' /\
    Z.of_N (d_seq s') <= Z.of_N (d_seq s) + Z.of_nat (length items).
Proof.
  intros Hset Hb Ht Hok Hn Hq. pose proof Hb as [Hi Hs Hc Hp].
  assert (Hnn : now <= now1).
  { clear - Hok. revert now Hok. generalize (map gm_sent l). induction items as [|i r IH]; intros l0 now Hok; cbn [items_ok] in Hok; [exact Hok|].
    destruct i; [destruct Hok as (H1 & _ & H2)|destruct Hok as (H1 & H2)]; apply IH in H2; lia. }
  destruct (batch_whole c gens s l g off H first M T e t now items now1 now2 Hset Hi Ht Hok Hn Hq) as (s' & l' & g' & E & Hi' & El & Hin & Hq' & Ec & Hgc).
  exists s', l', g'. split; [exact E|]. split; [|auto]. pose proof (fine_cur _ _ _ _ _ _ _ _ _ _ _ Hi') as Hc'. split.
  - exact Hi'.
  - congruence.
  - lia.
  - etransitivity; [exact Hp|]. apply trunc_mono; [exact (so_dur _ _ Hset)|lia].
Qed.

(** * Whole runs *)
Lemma b_first c s l g off H first M T e t slot busy : binv c s l g off H first M T e t slot busy -> forall h, first = Some h -> exists m, In m l /\ gm_hash m = h.
Proof. intros [Hi _ _ _] h Hf. exact (wp_first _ _ _ _ _ _ _ _ (iv_win _ _ _ _ _ _ _ _ _ _ _ Hi) h Hf). Qed.
Lemma b_list c s l g off H first M T e t slot busy : binv c s l g off H first M T e t slot busy -> list_part (fine c) l (d_seq s).
Proof. intros [Hi _ _ _]. exact (iv_list _ _ _ _ _ _ _ _ _ _ _ Hi). Qed.

Lemma run_batches c gens : setting_ok c gens -> forall ops s l g off H first M T e t slot busy outs w,
  binv c s l g off H first M T e t slot busy -> batches_ok c t slot busy (map gm_sent l) ops ->
  e + Z.of_nat (all_steps ops) <= 130000 -> Z.of_N (d_seq s) + Z.of_nat (all_steps ops) <= 130000 ->
  0 <= t ->
  drun c (Up s) (map as_dop_b ops) = (w, outs) ->
  exists x, (first = None -> Forall (fun o => syncs_b o = false) ops -> x = None) /\
    (forall h m, first = Some h -> In m l -> gm_hash m = h -> x = Some (s_owner (gm_sent m), s_pattern (gm_sent m))) /\
    answered_b x (map gm_sent l) ops outs.
Proof.
  intros Hset. induction ops as [|o r IH]; intros s l g off H first M T e t slot busy outs w Hb Hok He Hq Ht E; cbn [map drun] in E.
  - injection E as <- <-. destruct first as [h|].
    + destruct (b_first _ _ _ _ _ _ _ _ _ _ _ _ _ Hb h eq_refl) as (m & Hm & Eh).
      exists (Some (s_owner (gm_sent m), s_pattern (gm_sent m))). split; [discriminate|]. split; [|exact I].
      intros h' m' [= <-] Hm' Eh'. destruct (lp_clash _ _ _ (b_list _ _ _ _ _ _ _ _ _ _ _ _ _ Hb) m' m Hm' Hm) as [-> ->]; [congruence|reflexivity].
    + exists None. split; [reflexivity|]. split; [discriminate|exact I].
  - unfold all_steps in He, Hq. cbn [map list_sum fold_right] in He, Hq. change (fold_right Nat.add 0%nat (map steps_b r)) with (all_steps r) in He, Hq.
    destruct (dstep c (Up s) (as_dop_b o)) as [w1 x1] eqn:Es. destruct (drun c w1 (map as_dop_b r)) as [w2 xs] eqn:Er. injection E as <- <-.
    destruct o as [o|now items now1 now2]; cbn [as_dop_b steps_b batches_ok] in *.
    2:{ destruct Hok as (Ht1 & Hit & Hn & Hrest). cbn [dstep] in Es.
        destruct (b_batch c gens s l g off H first M T e t slot busy now items now1 now2 Hset Hb Ht1 Hit (proj1 Hn) ltac:(lia)) as (s' & l' & g' & E1 & Hb' & El & Hin & Hq').
        rewrite E1 in Es. injection Es as <- <-.
        destruct (IH s' l' g' off H first M T e now2 slot now2 xs w2 Hb') as (x & X1 & X2 & X3); try assumption; try lia.
        { rewrite El. exact Hrest. }
        { assert (now <= now1); [|lia]. clear - Hit. revert now Hit. generalize (map gm_sent l). induction items as [|i r IH]; intros l0 now Hok; cbn [items_ok] in Hok; [exact Hok|].
          destruct i; [destruct Hok as (H1 & _ & H2)|destruct Hok as (H1 & H2)]; apply IH in H2; lia. }
        exists x. split; [intros Hf Hn'; inversion Hn'; subst; auto|]. split.
        - intros h m Hf Hm. apply (X2 h m Hf). auto.
        - cbn [answered_b sends_b]. split; [reflexivity|]. rewrite <- El. exact X3. }
    destruct Hok as ((Hclk & Hreq & _) & Hbusy & Hrest).
    destruct o as [now k p payload expires encrypt|now g0 k names limit|now| |now ord|now|]; cbn [as_dop dstep clock sends slot_after] in *; rewrite ?app_nil_r in Hrest.
    + (* put *)
      destruct (b_put c gens s l g off H first M T e t slot busy now k p payload expires encrypt Hset Hb (proj1 Hclk) ltac:(lia) Hreq Hbusy)
        as (s' & ue & m & g' & Ep & Em & Eq & Hb'). unfold put_arg in Ep. rewrite Ep in Es. injection Es as <- <-. cbn [alive] in Er.
      assert (El : map gm_sent (l ++ [m]) = map gm_sent l ++ [mkSent (owner k) p expires payload]) by (rewrite map_app; cbn [map]; now rewrite Em).
      destruct (IH s' (l ++ [m]) g' off H first M T e now slot busy xs w2 Hb') as (x & X1 & X2 & X3); try assumption; try lia.
      { rewrite El. exact Hrest. }
      exists x. split; [intros Hf Hn; inversion Hn; subst; auto|]. split.
      * intros h m' Hf Hm'. apply (X2 h m' Hf). apply in_app_iff. now left.
      * cbn [answered_b answered sends_b sends]. split; [split; [reflexivity|exact I]|]. rewrite <- El. exact X3.
    + (* get *)
      assert (Hg : exists s' q' items, db_get c s now g0 (mkQ (text (static names)) k limit 0 []) = (s', q', QItems items) /\
                binv c s' l g off H first M T e t slot busy /\ d_seq s' = d_seq s /\ incl items (map s_payload (filter (asked k names) (map gm_sent l))) /\
                forall x, first_of first l x -> spared x k names = false -> items = expect now k names (map gm_sent l)).
      { destruct (b_get c s l g off H first M T e t slot busy now g0 k names limit
                   (match first with None => None | Some h => match find (fun m => (gm_hash m =? h)%N) l with Some m => Some (s_owner (gm_sent m), s_pattern (gm_sent m)) | None => None end end) Hb ltac:(lia) Hreq) as (s' & q' & items & Eg & Hb' & Esq & Hin & Hx).
        - intros h ->. destruct (find (fun m => (gm_hash m =? h)%N) l) as [m|] eqn:Ef.
          + apply find_some in Ef as [Hm Eh]. apply N.eqb_eq in Eh. exists m. auto.
          + exfalso. destruct (b_first _ _ _ _ _ _ _ _ _ _ _ _ _ Hb h eq_refl) as (m & Hm & Eh).
            eapply find_none in Ef; [|exact Hm]. cbv beta in Ef. rewrite Eh, N.eqb_refl in Ef. discriminate.
        - exists s', q', items. split; [exact Eg|]. split; [exact Hb'|]. split; [exact Esq|]. split; [exact Hin|].
          intros x Hf Hsp. destruct first as [h|]; [|now apply Hx]. destruct (Hf h eq_refl) as (m & Hm & Eh & ->).
          destruct (find (fun m => (gm_hash m =? h)%N) l) as [m2|] eqn:Ef; [|now apply Hx].
          apply find_some in Ef as [Hm2 Eh2]. apply N.eqb_eq in Eh2.
          destruct (lp_clash _ _ _ (b_list _ _ _ _ _ _ _ _ _ _ _ _ _ Hb) m2 m Hm2 Hm) as [E1 E2]; [congruence|]. rewrite E1, E2 in Hx. now apply Hx. }
      destruct Hg as (s' & q' & items & Eg & Hb' & Esq & Hin & Hx). rewrite Eg in Es. injection Es as <- <-. cbn [alive_q] in Er.
      pose proof (b_later _ _ _ _ _ _ _ _ _ _ _ _ _ _ now Hset (proj1 Hclk) Hb') as Hb2.
      destruct (IH s' l g off H first M T e now slot busy xs w2 Hb2) as (x & X1 & X2 & X3); try assumption; try lia.
      exists x. split; [intros Hf Hn; inversion Hn; subst; auto|]. split; [exact X2|].
      cbn [answered_b answered sends_b sends]. rewrite app_nil_r. split; [|exact X3]. split; [|exact I]. exists items. split; [reflexivity|]. split; [exact Hin|].
      apply Hx. intros h Hf. destruct (b_first _ _ _ _ _ _ _ _ _ _ _ _ _ Hb h Hf) as (m & Hm & Eh). exists m. eauto.
    + (* tick *)
      injection Es as <- <-. destruct (b_tick c gens s l g off H first M T e t slot busy now Hset Hb (proj1 Hclk)) as (g' & Hb').
      destruct (IH _ l g' off H first M T e now _ busy xs w2 Hb') as (x & X1 & X2 & X3); try assumption; try lia.
      { cbn [set_mem d_seq]. lia. }
      exists x. split; [intros Hf Hn; inversion Hn; subst; auto|]. split; [exact X2|]. cbn [answered_b answered sends_b sends]. rewrite app_nil_r. auto.
    + (* commit *)
      injection Es as <- <-. pose proof (b_commit _ _ _ _ _ _ _ _ _ _ _ _ _ Hb) as Hb'.
      destruct (IH _ l g off H first M T e t slot busy xs w2 Hb') as (x & X1 & X2 & X3); try assumption; try lia.
      { cbn [set_mem d_seq]. lia. }
      exists x. split; [intros Hf Hn; inversion Hn; subst; auto|]. split; [exact X2|]. cbn [answered_b answered sends_b sends]. rewrite app_nil_r. auto.
    + (* sync *)
      destruct (b_sync c gens s l g off H first M T e t slot busy now ord Hset Hb (proj1 Hclk) ltac:(lia) ltac:(lia) Hreq)
        as (s' & g' & off' & H' & first' & M' & T' & Ey & Hb' & Eq & Hf'). rewrite Ey in Es. injection Es as <- <-. cbn [alive] in Er.
      destruct (IH s' l g' off' H' first' M' T' (e + 1) now slot busy xs w2 Hb') as (x & X1 & X2 & X3); try assumption; try lia.
      exists x. split; [intros Hf Hn; inversion Hn; discriminate|]. split.
      * intros h m Hf. apply X2. rewrite Hf'; [exact Hf|congruence].
      * cbn [answered_b answered sends_b sends]. rewrite app_nil_r. auto.
    + (* new id *)
      assert (E1 : u64 (d_seq s + 1) = (d_seq s + 1)%N) by (apply next_num; lia).
      assert (Hb1 : binv c (next_seq s) l g off H first M T e t slot busy).
      { destruct Hb as [B1 B2 B3 B4]. split; auto. unfold next_seq.
        change (at_ (g_cur g) (set_seq s (u64 (d_seq s + 1)))) with (set_seq (at_ (g_cur g) s) (u64 (d_seq s + 1))).
        apply inv_seq; [exact B1|]. change (d_seq (at_ (g_cur g) s)) with (d_seq s). lia. }
      unfold db_new_id in Es. injection Es as <- <-.
      pose proof (b_later _ _ _ _ _ _ _ _ _ _ _ _ _ _ now Hset (proj1 Hclk) Hb1) as Hb2.
      destruct (IH (next_seq s) l g off H first M T e now slot busy xs w2 Hb2) as (x & X1 & X2 & X3); try assumption; try lia.
      { change (d_seq (next_seq s)) with (u64 (d_seq s + 1)). lia. }
      exists x. split; [intros Hf Hn; inversion Hn; subst; auto|]. split; [exact X2|]. cbn [answered_b answered sends_b sends]. rewrite app_nil_r. auto.
    + (* count *)
      injection Es as <- <-.
      destruct (IH s l g off H first M T e t slot busy xs w2 Hb) as (x & X1 & X2 & X3); try assumption; try lia.
      exists x. split; [intros Hf Hn; inversion Hn; subst; auto|]. split; [exact X2|]. cbn [answered_b answered sends_b sends]. rewrite app_nil_r. auto.
Qed.

(** From Open on. *)
Lemma ginv_fine c m g : ginv (c_mem c) m g -> ginv (c_mem (fine c)) m g.
Proof. intros [W Fr H F C O Q]. constructor; [exact W|exact Fr|exact H|exact F|exact C|exact O|exact Q]. Qed.
Lemma open_batches c gens t ord immut enc : setting_ok c gens -> 0 <= t ->
  exists s, db_open c gens t ord immut enc no_files = Opened s /\ d_seq s = 0%N /\
    binv c s [] (gstart (c_mem c) t) (fun _ => 0) (fun _ => []) None (fun _ => None) 0 0 t (trunc t (c_dur (c_mem c))) 0.
Proof.
  intros Hset Ht. destruct (open_step c gens t ord immut enc Hset Ht) as (s & Eo & Eq & Hi & _). exists s. split; [exact Eo|]. split; [exact Eq|].
  pose proof (mp_inv _ _ _ _ (iv_mem _ _ _ _ _ _ _ _ _ _ _ Hi)) as Hg. pose proof (gi_cur _ _ _ Hg) as Ec. cbn [gstart g_cur] in Ec.
  pose proof (so_dur _ _ Hset) as Hd. pose proof (Z.mod_pos_bound t (c_dur (c_mem c)) Hd) as Hm.
  split.
  - destruct Hi as [J1 J2 J3 J4 J5 J6 J7 J8 J9 J10]. constructor; auto.
    + destruct J3 as [L1 L2 L3 L4]. constructor; auto.
    + destruct J4 as [M1 M2 M3 M4 M5]. constructor; auto. 
      apply ginv_fine. refine (ginv_to (c_mem c) (d_mem s) (lg (trunc t (c_dur (c_mem c))) (d_mem s)) (gstart (c_mem c) t) (trunc t (c_dur (c_mem c))) Hg _ _ _ eq_refl).
      * now repeat split.
      * cbn [gstart g_cur]. lia.
      * apply (gi_open _ _ _ Hg). reflexivity.
    + cbn [fine c_mem c_dur]. rewrite trunc_one. cbn [gstart g_cur]. unfold trunc. lia.
  - exact Ec.
  - cbn [gstart g_cur]. lia.
  - lia.
Qed.

Lemma batches c gens t ord immut enc ops : setting_ok c gens -> 0 <= t -> batches_ok c t (trunc t (c_dur (c_mem c))) 0 [] ops ->
  (N.of_nat (all_steps ops) <= 130000)%N ->
  exists first outs, snd (drun c (Down no_files) (DoOpen gens t ord immut enc :: map as_dop_b ops)) = OOpened true :: outs /\
    (Forall (fun o => syncs_b o = false) ops -> first = None) /\ answered_b first [] ops outs.
Proof.
  intros Hset Ht Hok Hn. destruct (open_batches c gens t ord immut enc Hset Ht) as (s & Eo & Eq & Hb).
  cbn [drun dstep]. rewrite Eo. destruct (drun c (Up s) (map as_dop_b ops)) as [w outs] eqn:Er. cbn [snd].
  destruct (run_batches c gens Hset ops s [] _ _ _ _ _ _ _ _ _ _ outs w Hb Hok ltac:(lia) ltac:(lia) Ht Er) as (x & X1 & _ & X3).
  exists x, outs. split; [reflexivity|]. split; [auto|exact X3].
Qed.
Lemma batches_unsynced c gens t ord immut enc ops : setting_ok c gens -> 0 <= t -> batches_ok c t (trunc t (c_dur (c_mem c))) 0 [] ops ->
  (N.of_nat (all_steps ops) <= 130000)%N -> Forall (fun o => syncs_b o = false) ops ->
  exists outs, snd (drun c (Down no_files) (DoOpen gens t ord immut enc :: map as_dop_b ops)) = OOpened true :: outs /\ answered_b None [] ops outs.
Proof.
  intros Hset Ht Hok Hn Hs. destruct (batches c gens t ord immut enc ops Hset Ht Hok Hn) as (x & outs & E & X & A). rewrite (X Hs) in A. eauto.
Qed.
