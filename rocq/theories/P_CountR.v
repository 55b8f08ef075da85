(** Proofs about what is written and what Count answers, over restarts. *)
From Verif Require Import M_Bytes P_Bytes M_File M_Hash M_Bloom M_Entry M_MsgId M_Mac M_Topic M_Trie M_Query M_IndexBlock M_Lease
  M_BlockStore M_WinBlock M_Wal M_MemDB M_Window M_Get M_DB M_DBInfo S_Trie S_Window S_BlockStore S_MemDB S_Get S_DB S_Session S_Restart S_Count S_CountR
  P_Codec P_Lease P_BlockStore2 P_BlockStore3 P_BlockStore4 P_Window4 P_MemBlock P_MemDB P_MemGet P_MemWal P_DB P_Session P_Session2 P_Session3 P_Session4 P_Session5 P_Count
  P_Restart P_Restart2 P_Restart3 P_Restart4 P_Restart5 P_Restart6.
From Coq Require Import Lia ZifyBool ZifyNat ZifyN Permutation Sorted.
Open Scope Z_scope.

Lemma booked_fresh c now s0 s l g g' b sl : booked c s0 l g b sl -> fresh c now s g' -> mem_part c (d_mem s) g' l -> m_queue (d_mem s) = [] ->
  (forall m, In m l -> in_store g' m = true) -> Z.of_N (d_count s) = nstored g' l -> 0 < trunc now (c_dur (c_mem c)) ->
  booked c s l g' (mkBook (now - now mod c_dur (c_mem c)) [] [] (map (fun x => (0, true, snd x)) (bk_all b))) (fun _ => 0).
Proof.
  intros B (F1 & F2 & F3 & F4 & F5) Im Hq Hall Hc Hp. fold (trunc now (c_dur (c_mem c))).
  assert (Hno : forall k u v, g_slot g' k <> Held u v).
  { intros k u v Hk. destruct (mp_held _ _ _ _ Im _ _ _ Hk) as (m & Hm & Eq & _). specialize (Hall m Hm). unfold in_store in Hall. rewrite Eq, Hk in Hall. discriminate. }
  constructor; cbn [bk_slot bk_wait bk_done bk_all]; auto.
  - now rewrite Hq.
  - rewrite (bi_all _ _ _ _ _ _ B), map_map. apply map_ext_in. intros m Hm. cbn [snd]. now rewrite (Hall m Hm).
  - intros m Hm Hs. rewrite (Hall m Hm) in Hs. discriminate.
  - lia.
  - intros m1 m2 _ H2 _ Hs. rewrite (Hall m2 H2) in Hs. discriminate.
  - lia.
  - intros m Hm Hs. rewrite (Hall m Hm) in Hs. discriminate.
  - split; [exact Hp|]. intros m Hm Hs. rewrite (Hall m Hm) in Hs. discriminate.
  - intros t [<-|[]]. now left.
  - intros t Ht. right. split; [rewrite F5; auto|]. intros k v. apply Hno.
  - intros t [].
  - repeat constructor.
  - intros t u [].
Qed.

Lemma run_rbook c gens0 : setting_ok c gens0 -> 0 < c_logint (c_mem c) -> forall ops s l g off H first M T e t b sl,
  inv c s l g off H first M T e t -> kept c s l g off H first t -> booked c s l g b sl -> restart_ok c t (map gm_sent l) ops ->
  e + Z.of_nat (length ops) <= 130000 -> Z.of_N (d_seq s) + Z.of_nat (length ops) <= 130000 ->
  0 <= t -> c_dur (c_mem c) <= t -> t < 2 ^ 32 * 1000000000 ->
  exists s' outs l' g' off' H' first' M' T' e' t' sl', drun c (Up s) (flat_map as_dops ops) = (Up s', outs) /\
    inv c s' l' g' off' H' first' M' T' e' t' /\ booked c s' l' g' (fold_left (keep_rbook (c_dur (c_mem c))) ops b) sl'.
Proof.
  intros Hset Hli. induction ops as [|o r IH]; intros s l g off H first M T e t b sl Hi K B Hok He Hq Ht Hdt Hbt; cbn [flat_map fold_left].
  - exists s, [], l, g, off, H, first, M, T, e, t, sl. auto.
  - cbn [length] in He, Hq.
    pose proof (gi_cur _ _ _ (mp_inv _ _ _ _ (iv_mem _ _ _ _ _ _ _ _ _ _ _ Hi))) as Hcur.
    pose proof (iv_list _ _ _ _ _ _ _ _ _ _ _ Hi) as Hl.
    destruct o as [o|gens now ord immut enc].
    + cbn [restart_ok session_ok] in Hok. destruct Hok as ((Hclk & Hreq & _) & Hmore & Hrest).
      assert (Hstep : exists s1 x l1 g1 off1 H1 first1 M1 T1 e1 sl1, dstep c (Up s) (as_dop o) = (Up s1, x) /\
        inv c s1 l1 g1 off1 H1 first1 M1 T1 e1 (clock t o) /\ kept c s1 l1 g1 off1 H1 first1 (clock t o) /\ booked c s1 l1 g1 (keep_book (c_dur (c_mem c)) b o) sl1 /\
        map gm_sent l1 = map gm_sent l ++ sends o /\ Z.of_N (d_seq s1) <= Z.of_N (d_seq s) + 1 /\ e1 <= e + 1 /\ t <= clock t o < 2 ^ 32 * 1000000000).
      { destruct o as [now k p payload expires encrypt|now g0 k names limit|now| |now ord|now|]; cbn [as_dop dstep clock sends] in *; rewrite ?app_nil_r in *.
        - destruct (put_step c gens0 s l g off H first M T e t now k p payload expires encrypt Hset Hi (proj1 Hclk) ltac:(lia) Hreq)
            as (s' & ue & m & g' & Ep & Em & Eq & Hi' & P1 & P2 & P3 & P4 & P5 & P6 & P7 & P8 & _).
          destruct (put_entry_count _ _ _ _ _ _ _ Ep) as [E1 E2].
          destruct (booked_put c s s' l g b sl m [mkSent (owner k) p expires payload] B Hl P1 P4 P6 E1 E2 ltac:(now rewrite Em)) as (sl' & B').
          unfold put_arg in Ep. rewrite Ep. cbn [alive].
          exists s', (S_DB.ORes DOk), (l ++ [m]), g', off, H, first, M, T, e, sl'. split; [reflexivity|]. split; [exact Hi'|]. split; [|split; [rewrite P5; exact B'|]].
          + eapply kept_later; [apply Hclk|]. rewrite P5. eapply kept_put; try eassumption; [rewrite Em; exact P2|]. unfold on_disk in P7. congruence.
          + split; [rewrite map_app; cbn [map]; now rewrite Em|]. lia.
        - destruct (get_step c s l g off H first M T e t now g0 k names limit
                     (match first with None => None | Some h => match find (fun m => (gm_hash m =? h)%N) l with Some m => Some (s_owner (gm_sent m), s_pattern (gm_sent m)) | None => None end end) Hi ltac:(lia) Hreq) as (s' & q' & items & Eg & Hi' & Esq & (qr & qf & qb & Es') & _).
          + intros h ->. destruct (find (fun m => (gm_hash m =? h)%N) l) as [m|] eqn:Ef.
            * apply find_some in Ef as [Hm Eh]. apply N.eqb_eq in Eh. exists m. auto.
            * exfalso. destruct (wp_first _ _ _ _ _ _ _ _ (iv_win _ _ _ _ _ _ _ _ _ _ _ Hi) h eq_refl) as (m & Hm & Eh).
              eapply find_none in Ef; [|exact Hm]. cbv beta in Ef. rewrite Eh, N.eqb_refl in Ef. discriminate.
          + rewrite Eg. cbn [alive_q]. exists s', (OGot (QItems items)), l, g, off, H, first, M, T, e, sl. split; [reflexivity|].
            split; [exact (inv_later _ _ _ _ _ _ _ _ _ _ _ now (so_dur _ _ Hset) (proj1 Hclk) Hi')|].
            split; [eapply kept_later; [apply Hclk|]; rewrite Es'; now apply kept_get|]. split; [|split; [reflexivity|lia]].
            rewrite Es'. now apply (booked_same c s).
        - destruct (tick_step c gens0 s l g off H first M T e t now Hset Hi (proj1 Hclk)) as (g' & Hi' & Eg').
          eexists _, _, l, g', off, H, first, M, T, e, sl. split; [reflexivity|]. split; [exact Hi'|].
          split; [exact (kept_tick c gens0 s l g g' off H first M T e t now Hset Hi K Hmore Hi' Eg' ltac:(lia))|].
          split; [|split; [reflexivity|cbn [set_mem d_seq]; lia]]. cbn [keep_book].
          apply (booked_tick c s l g g' b sl now (so_dur _ _ Hset) B Hcur); [|exact Eg'|].
          + pose proof (iv_cur _ _ _ _ _ _ _ _ _ _ _ Hi). pose proof (trunc_mono t now _ (so_dur _ _ Hset) (proj1 Hclk)). lia.
          + rewrite <- (gi_cur _ _ _ (mp_inv _ _ _ _ (iv_mem _ _ _ _ _ _ _ _ _ _ _ Hi'))). reflexivity.
        - pose proof (commit_step _ _ _ _ _ _ _ _ _ _ _ Hi) as Hi'.
          eexists _, _, l, g, off, H, first, M, T, e, sl. split; [reflexivity|]. split; [exact Hi'|].
          split; [exact (kept_commit c s l g off H first M T e t Hi K ltac:(lia) ltac:(lia))|].
          split; [now apply booked_commit|split; [reflexivity|cbn [set_mem d_seq]; lia]].
        - destruct (sync_step c gens0 s l g off H first M T e t now ord Hset Hi (proj1 Hclk) ltac:(lia) ltac:(lia) Hreq)
            as (s' & g' & off' & H' & first' & M' & T' & Ey & Hi' & Eq & Hf' & Hdis & Hls & Ht' & Hd). rewrite Ey. cbn [alive].
          exists s', (S_DB.ORes DOk), l, g', off', H', first', M', T', (e + 1), sl. split; [reflexivity|]. split; [exact Hi'|].
          split; [exact (kept_sync c s s' l g g' off off' H H' first first' M T T' e t now Hi K (proj1 Hclk) Hdis Hls)|].
          split; [|split; [reflexivity|lia]]. cbn [keep_book]. apply (booked_sync c s s' l g g' b sl B Hl Hcur Ht').
          + intros m Hm. pose proof (lp_ok _ _ _ Hl) as Hk. rewrite Forall_forall in Hk. pose proof (gk_seq _ _ (Hk m Hm)). lia.
          + destruct Hd as [Hd|(W & W' & Hd)]; [now left|right; eauto].
        - destruct (new_id_step c s l g off H first M T e t now Hi ltac:(lia)) as [Hi' Eq].
          assert (K' := kept_id c s l g off H first t now K).
          destruct (db_new_id s now) as [s' id] eqn:En. cbn [fst] in *.
          eexists s', _, l, g, off, H, first, M, T, e, sl. split; [reflexivity|].
          split; [exact (inv_later _ _ _ _ _ _ _ _ _ _ _ now (so_dur _ _ Hset) (proj1 Hclk) Hi')|].
          split; [exact (kept_later _ _ _ _ _ _ _ _ now (proj1 Hclk) K')|]. split; [|split; [reflexivity|lia]].
          unfold db_new_id in En. injection En as <- _. now apply (booked_same c s).
        - eexists _, _, l, g, off, H, first, M, T, e, sl. split; [reflexivity|]. split; [exact Hi|]. split; [exact K|]. split; [exact B|]. split; [reflexivity|lia]. }
      destruct Hstep as (s1 & x & l1 & g1 & off1 & H1 & first1 & M1 & T1 & e1 & sl1 & Es & Hi1 & K1 & B1 & El & Eq & Ee & Hc1 & Hc2).
      destruct (IH s1 l1 g1 off1 H1 first1 M1 T1 e1 (clock t o) _ sl1 Hi1 K1 B1) as (s' & outs & l' & g' & off' & H' & first' & M' & T' & e' & t' & sl' & Er & Hi' & B'); try lia.
      { rewrite El. exact Hrest. }
      exists s', (x :: outs), l', g', off', H', first', M', T', e', t', sl'. cbn [as_dops app drun]. rewrite Es, Er. auto.
    + (* restart *)
      cbn [restart_ok] in Hok. destruct Hok as (Hset' & Hnow & Hslot & Hfew & Htot & Hord & Hrest).
      rewrite <- !trunc_mul in Hslot.
      destruct (reopen_step c gens s l g off H first M T e t now ord immut enc Hset' Hi K Hli ltac:(lia) ltac:(lia) ltac:(lia) ltac:(lia) ltac:(lia) Hslot ltac:(lia) (few_topics _ Hfew) Hord)
        as (s0 & s1 & g1 & off1 & H1 & first1 & M1 & T1 & Ec & Eo & Eq & Hi1 & K1 & _ & Hall & Hqu & Hfr & Hct & _).
      specialize (Hct (bi_count _ _ _ _ _ _ B)).
      assert (B1 := booked_fresh c now s s1 l g g1 b sl B Hfr (iv_mem _ _ _ _ _ _ _ _ _ _ _ Hi1) Hqu Hall Hct (trunc_pos now _ (so_dur _ _ Hset) ltac:(lia))).
      destruct (IH s1 l g1 off1 H1 first1 M1 T1 (e + 1) now _ _ Hi1 K1 B1) as (s' & outs & l' & g' & off' & H' & first' & M' & T' & e' & t' & sl' & Er & Hi' & B'); try lia; auto.
      exists s', (ORes DOk :: OOpened true :: outs), l', g', off', H', first', M', T', e', t', sl'.
      cbn [as_dops app drun dstep]. rewrite Ec. cbn [dstep]. rewrite Eo, Er. auto.
Qed.

Lemma rbook_end c gens t ord immut enc ops : setting_ok c gens -> 0 < c_logint (c_mem c) -> 0 <= t < 2 ^ 32 * 1000000000 -> c_dur (c_mem c) <= t ->
  restart_ok c t [] ops -> (N.of_nat (length ops) <= 130000)%N ->
  exists s outs l g off H first M T e t' sl, drun c (Down no_files) (DoOpen gens t ord immut enc :: flat_map as_dops ops) = (Up s, OOpened true :: outs) /\
    inv c s l g off H first M T e t' /\ booked c s l g (rbook_of (c_dur (c_mem c)) t ops) sl.
Proof.
  intros Hset Hli Ht Hd Hok Hn. destruct (start_step c gens t ord immut enc Hset ltac:(lia) Hd Hli) as (s & Eo & Eq & Hi & K).
  destruct (open_step c gens t ord immut enc Hset ltac:(lia)) as (s2 & Eo2 & _ & _ & Em & Ec & El).
  assert (s2 = s) as -> by congruence.
  pose proof (booked_open c gens t s Hset Hd Em Ec El) as B.
  destruct (run_rbook c gens Hset Hli ops s [] _ _ _ _ _ _ _ _ _ _ Hi K B Hok ltac:(lia) ltac:(lia) ltac:(lia) Hd ltac:(lia)) as (s' & outs & l' & g' & off' & H' & first' & M' & T' & e' & t' & sl' & Er & Hi' & B').
  cbn [drun dstep]. rewrite Eo, Er. exists s', outs, l', g', off', H', first', M', T', e', t', sl'. auto.
Qed.

Lemma count_restarts c gens t ord immut enc ops : setting_ok c gens -> 0 < c_logint (c_mem c) -> 0 <= t < 2 ^ 32 * 1000000000 -> c_dur (c_mem c) <= t ->
  restart_ok c t [] ops -> (N.of_nat (length ops) <= 130000)%N ->
  exists outs, snd (drun c (Down no_files) (DoOpen gens t ord immut enc :: flat_map as_dops ops ++ [DoCount])) =
    outs ++ [OCount (N.of_nat (length (written_of (rbook_of (c_dur (c_mem c)) t ops))))].
Proof.
  intros Hset Hli Ht Hd Hok Hn. destruct (rbook_end c gens t ord immut enc ops Hset Hli Ht Hd Hok Hn) as (s & outs & l & g & off & H & first & M & T & e & t' & sl & E & Hi & B).
  exists (OOpened true :: outs). rewrite app_comm_cons, (drun_snoc _ _ _ _ _ _ E). cbn [snd dstep]. do 3 f_equal.
  rewrite (written_eq _ _ _ _ _ _ B), map_length. pose proof (bi_count _ _ _ _ _ _ B) as Hc. unfold nstored in Hc. lia.
Qed.

Lemma files_restarts c gens t ord immut enc ops : setting_ok c gens -> 0 < c_logint (c_mem c) -> 0 <= t < 2 ^ 32 * 1000000000 -> c_dur (c_mem c) <= t ->
  restart_ok c t [] ops -> (N.of_nat (length ops) <= 130000)%N ->
  exists s, fst (drun c (Down no_files) (DoOpen gens t ord immut enc :: flat_map as_dops ops)) = Up s /\
    exists qs, NoDup qs /\ Forall2 (on_file c (on_disk s)) qs (written_of (rbook_of (c_dur (c_mem c)) t ops)).
Proof.
  intros Hset Hli Ht Hd Hok Hn. destruct (rbook_end c gens t ord immut enc ops Hset Hli Ht Hd Hok Hn) as (s & outs & l & g & off & H & first & M & T & e & t' & sl & E & Hi & B).
  exists s. rewrite E. split; [reflexivity|]. eapply files_booked; eassumption.
Qed.
