(** Proofs about restarts: whole runs. *)
From Verif Require Import M_Bytes P_Bytes M_File M_Hash M_Bloom M_Entry P_Codec M_MsgId M_Mac P_Mac M_Topic M_Trie M_Query M_IndexBlock M_Lease
  M_BlockRange M_BlockStore M_WinBlock M_Wal M_MemDB M_Window M_Get M_DBInfo M_DB S_Trie S_Window S_BlockStore S_MemDB S_Get S_DB S_Session S_Restart
  P_Window2 P_Window4 P_WinOpen P_MemDB P_MemGet P_MemWal P_MemKeep P_MemReopen P_DB
  P_Session P_Session2 P_Session3 P_Session4 P_Session5 P_Restart P_Restart2 P_Restart3 P_Restart4 P_Restart5.
From Coq Require Import Lia ZifyBool ZifyNat ZifyN Permutation Sorted.
Open Scope Z_scope.

Lemma trunc_mul a d : trunc a d = d * (a / d).
Proof. unfold trunc. destruct (Z.eq_dec d 0) as [->|Hd]; [rewrite Zmod_0_r; lia|]. pose proof (Z.div_mod a d Hd). lia. Qed.

Lemma fresh_mem c gens now : cfg_ok c gens -> 0 < c_logint c ->
  exists s, mem_open c gens [] now = Some s /\ mkeep s (fun _ => Absent) [] /\ pending s = [(now, trunc now (c_dur c))].
Proof.
  intros Hc Hli. destruct (keep_open c gens [] [] now Hc Hli) as (s & sl & E & G & K & Eq & Ei & Hnf & Hsl & Hrel).
  - split; [reflexivity|intros x []|constructor|constructor].
  - constructor.
  - intros x r [].
  - intros x [].
  - exists s. split; [exact E|]. split.
    + cbn [map] in K. eapply keep_same; [exact K| |reflexivity..]. intros k t v. split; [discriminate|]. intros Hk. apply Hsl in Hk as (x & [] & _).
    + unfold pending. rewrite Eq, Ei, (gi_cur _ _ _ G). reflexivity.
Qed.

Lemma start_step c gens t ord immut enc : setting_ok c gens -> 0 <= t -> c_dur (c_mem c) <= t -> 0 < c_logint (c_mem c) ->
  exists s, db_open c gens t ord immut enc no_files = Opened s /\ d_seq s = 0%N /\
    inv c s [] (gstart (c_mem c) t) (fun _ => 0) (fun _ => []) None (fun _ => None) 0 0 t /\
    kept c s [] (gstart (c_mem c) t) (fun _ => 0) (fun _ => []) None t.
Proof.
  intros Hset Ht Hd Hli. destruct (open_step c gens t ord immut enc Hset Ht) as (s & E & Eq & Hi & _).
  exists s. split; [exact E|]. split; [exact Eq|]. split; [exact Hi|].
  destruct (fresh_mem (c_mem c) gens t (so_mem _ _ Hset) Hli) as (mm & Em & K & Hp).
  assert (Es : d_mem s = mm /\ d_lease s = newLease (c_find c) (c_min c) /\ d_win s = []).
  { assert (E1 : exists cnt lf info, db_open c gens t ord immut enc no_files =
      Opened (mkDB mm [] newTrie info [] [] [] lf (newLease (c_find c) (c_min c)) 0 cnt 1 0 immut false)).
    { unfold db_open, no_files. cbn [f_info f_wal f_index f_data f_win f_lease].
      unfold open_header. rewrite open_info_fresh. rewrite Em.
      exists 0%N, [], (info_marshal (mkInfo signature version 0 0 0)). destruct enc; reflexivity. }
    destruct E1 as (cnt & lf & info & E1). rewrite E1 in E. injection E as <-. auto. }
  destruct Es as (E1 & E2 & E3).
  split.
  - rewrite E1. exists []. split; [exact K|]. rewrite Hp. intros q [<-|[]]. cbn [fst]. lia.
  - exact E2.
  - cbn [gstart g_cur]. rewrite trunc_mul. pose proof (so_dur _ _ Hset) as H0. assert (1 <= t / c_dur (c_mem c)) by (apply Z.div_le_lower_bound; lia). nia.
  - cbn [gstart g_slot]. discriminate.
  - intros m1 m2 [].
  - intros a m b E0. destruct a; discriminate.
  - rewrite E3. split.
    + intros j b Hj Eb. exfalso. rewrite (fview_out [] 0 j) in Eb; [discriminate| |lia].
      split; [reflexivity|]. intros k Hk. lia.
    + intros h Hn. congruence.
    + intros h k E0 Hk. lia.
Qed.

Lemma few_topics l : few (map gm_sent l) -> forall h, (length (filter (of_hash h) l) <= entriesPerWindowBlock)%nat.
Proof.
  intros Hf h. destruct (existsb (of_hash h) l) eqn:E.
  - apply existsb_exists in E as (m & Hm & Eh). specialize (Hf (gm_sent m) (in_map gm_sent _ _ Hm)). change entriesPerWindowBlock with 335%nat.
    etransitivity; [|exact Hf]. apply N.eqb_eq in Eh. rewrite <- Eh. clear. induction l as [|x l IH]; [cbn; lia|]. cbn [filter map]. unfold of_hash at 1.
    change (number (gm_sent x)) with (gm_hash x). change (number (gm_sent m)) with (gm_hash m) in *. destruct (gm_hash x =? gm_hash m)%N; cbn [length]; lia.
  - rewrite filter_none; [cbn; lia|]. intros x Hx. destruct (of_hash h x) eqn:Ex; [|reflexivity]. rewrite <- not_true_iff_false in E. exfalso. apply E. apply existsb_exists. eauto.
Qed.

Lemma run_restarts c gens0 : setting_ok c gens0 -> 0 < c_logint (c_mem c) -> forall ops s l g off H first M T e t outs w,
  inv c s l g off H first M T e t -> kept c s l g off H first t -> restart_ok c t (map gm_sent l) ops ->
  e + Z.of_nat (length ops) <= 130000 -> Z.of_N (d_seq s) + Z.of_nat (length ops) <= 130000 ->
  0 <= t -> c_dur (c_mem c) <= t -> t < 2 ^ 32 * 1000000000 ->
  drun c (Up s) (flat_map as_dops ops) = (w, outs) ->
  exists x, (forall h m, first = Some h -> In m l -> gm_hash m = h -> x = Some (s_owner (gm_sent m), s_pattern (gm_sent m))) /\
    ranswered x (map gm_sent l) ops outs.
Proof.
  intros Hset Hli. induction ops as [|o r IH]; intros s l g off H first M T e t outs w Hi K Hok He Hq Ht Hdt Hbt E; cbn [flat_map] in E.
  - cbn [drun] in E. injection E as <- <-. destruct first as [h|].
    + destruct (wp_first _ _ _ _ _ _ _ _ (iv_win _ _ _ _ _ _ _ _ _ _ _ Hi) h eq_refl) as (m & Hm & Eh).
      exists (Some (s_owner (gm_sent m), s_pattern (gm_sent m))). split; [|reflexivity].
      intros h' m' [= <-] Hm' Eh'. destruct (lp_clash _ _ _ (iv_list _ _ _ _ _ _ _ _ _ _ _ Hi) m' m Hm' Hm) as [-> ->]; [congruence|reflexivity].
    + exists None. split; [discriminate|reflexivity].
  - cbn [length] in He, Hq. destruct o as [o|gens now ord immut enc].
    + cbn [restart_ok session_ok] in Hok. destruct Hok as ((Hclk & Hreq & _) & Hmore & Hrest).
      cbn [as_dops app drun] in E.
      destruct (dstep c (Up s) (as_dop o)) as [w1 x1] eqn:Es. destruct (drun c w1 (flat_map as_dops r)) as [w2 xs] eqn:Er. injection E as <- <-.
      destruct o as [now k p payload expires encrypt|now g0 k names limit|now| |now ord|now|]; cbn [as_dop dstep clock sends] in *; rewrite ?app_nil_r in Hrest.
      * (* put *)
        destruct (put_step c gens0 s l g off H first M T e t now k p payload expires encrypt Hset Hi (proj1 Hclk) ltac:(lia) Hreq)
          as (s' & ue & m & g' & Ep & Em & Eq & Hi' & P1 & P2 & P3 & P4 & P5 & P6 & P7 & P8 & _). unfold put_arg in Ep. rewrite Ep in Es. injection Es as <- <-. cbn [alive] in Er.
        assert (El : map gm_sent (l ++ [m]) = map gm_sent l ++ [mkSent (owner k) p expires payload]) by (rewrite map_app; cbn [map]; now rewrite Em).
        assert (K' : kept c s' (l ++ [m]) g' off H first now).
        { eapply kept_later; [apply Hclk|]. rewrite P5. eapply kept_put; try eassumption; [rewrite Em; exact P2|]. unfold on_disk in P7. congruence. }
        destruct (IH s' (l ++ [m]) g' off H first M T e now xs w2 Hi' K') as (x & X2 & X3); try assumption; try lia.
        { rewrite El. exact Hrest. }
        exists x. split.
        -- intros h m' Hf Hm'. apply (X2 h m' Hf). apply in_app_iff. now left.
        -- cbn [ranswered answered sends]. do 2 eexists. split; [reflexivity|]. split; [split; [reflexivity|exact I]|]. rewrite <- El. exact X3.
      * (* get *)
        assert (Hg : exists s' q' , exists items, db_get c s now g0 (mkQ (text (static names)) k limit 0 []) = (s', q', QItems items) /\
                  inv c s' l g off H first M T e t /\ d_seq s' = d_seq s /\ (exists qr qf qb, s' = set_mem s (set_query (d_mem s) qr qf qb)) /\ incl items (map s_payload (filter (asked k names) (map gm_sent l))) /\
                  forall x, first_of first l x -> spared x k names = false -> items = expect now k names (map gm_sent l)).
        { destruct (get_step c s l g off H first M T e t now g0 k names limit
                     (match first with None => None | Some h => match find (fun m => (gm_hash m =? h)%N) l with Some m => Some (s_owner (gm_sent m), s_pattern (gm_sent m)) | None => None end end) Hi ltac:(lia) Hreq) as (s' & q' & items & Eg & Hi' & Esq & Hqs & Hin & Hx).
          - intros h ->. destruct (find (fun m => (gm_hash m =? h)%N) l) as [m|] eqn:Ef.
            + apply find_some in Ef as [Hm Eh]. apply N.eqb_eq in Eh. exists m. auto.
            + exfalso. destruct (wp_first _ _ _ _ _ _ _ _ (iv_win _ _ _ _ _ _ _ _ _ _ _ Hi) h eq_refl) as (m & Hm & Eh).
              eapply find_none in Ef; [|exact Hm]. cbv beta in Ef. rewrite Eh, N.eqb_refl in Ef. discriminate.
          - exists s', q', items. split; [exact Eg|]. split; [exact Hi'|]. split; [exact Esq|]. split; [exact Hqs|]. split; [exact Hin|].
            intros x Hf Hsp. destruct first as [h|]; [|now apply Hx]. destruct (Hf h eq_refl) as (m & Hm & Eh & ->).
            destruct (find (fun m => (gm_hash m =? h)%N) l) as [m2|] eqn:Ef; [|now apply Hx].
            apply find_some in Ef as [Hm2 Eh2]. apply N.eqb_eq in Eh2.
            destruct (lp_clash _ _ _ (iv_list _ _ _ _ _ _ _ _ _ _ _ Hi) m2 m Hm2 Hm) as [E1 E2]; [congruence|]. rewrite E1, E2 in Hx. now apply Hx. }
        destruct Hg as (s' & q' & items & Eg & Hi' & Esq & (qr & qf & qb & Eqs) & Hin & Hx). rewrite Eg in Es. injection Es as <- <-. cbn [alive_q] in Er.
        pose proof (inv_later _ _ _ _ _ _ _ _ _ _ _ now (so_dur _ _ Hset) (proj1 Hclk) Hi') as Hi2.
        assert (K' : kept c s' l g off H first now) by (eapply kept_later; [apply Hclk|]; rewrite Eqs; now apply kept_get).
        destruct (IH s' l g off H first M T e now xs w2 Hi2 K') as (x & X2 & X3); try assumption; try lia.
        exists x. split; [exact X2|].
        cbn [ranswered answered sends]. do 2 eexists. split; [reflexivity|]. rewrite app_nil_r. split; [|exact X3]. split; [|exact I]. exists items. split; [reflexivity|]. split; [exact Hin|].
        apply Hx. intros h Hf. destruct (wp_first _ _ _ _ _ _ _ _ (iv_win _ _ _ _ _ _ _ _ _ _ _ Hi) h Hf) as (m & Hm & Eh). exists m. eauto.
      * (* tick *)
        injection Es as <- <-. destruct (tick_step c gens0 s l g off H first M T e t now Hset Hi (proj1 Hclk)) as (g' & Hi' & Eg').
        assert (K' := kept_tick c gens0 s l g g' off H first M T e t now Hset Hi K Hmore Hi' Eg' ltac:(lia)).
        destruct (IH _ l g' off H first M T e now xs w2 Hi' K') as (x & X2 & X3); try assumption; try lia.
        { cbn [set_mem d_seq]. lia. }
        exists x. split; [exact X2|]. cbn [ranswered answered sends]. rewrite app_nil_r. do 2 eexists. split; [reflexivity|]. split; [split; exact I|exact X3].
      * (* commit *)
        injection Es as <- <-. pose proof (commit_step _ _ _ _ _ _ _ _ _ _ _ Hi) as Hi'.
        assert (K' := kept_commit c s l g off H first M T e t Hi K ltac:(lia) ltac:(lia)).
        destruct (IH _ l g off H first M T e t xs w2 Hi' K') as (x & X2 & X3); try assumption; try lia.
        { cbn [set_mem d_seq]. lia. }
        exists x. split; [exact X2|]. cbn [ranswered answered sends]. rewrite app_nil_r. do 2 eexists. split; [reflexivity|]. split; [split; exact I|exact X3].
      * (* sync *)
        destruct (sync_step c gens0 s l g off H first M T e t now ord Hset Hi (proj1 Hclk) ltac:(lia) ltac:(lia) Hreq)
          as (s' & g' & off' & H' & first' & M' & T' & Ey & Hi' & Eq & Hf' & Hdis & Hls & _). rewrite Ey in Es. injection Es as <- <-. cbn [alive] in Er.
        assert (K' := kept_sync c s s' l g g' off off' H H' first first' M T T' e t now Hi K (proj1 Hclk) Hdis Hls).
        destruct (IH s' l g' off' H' first' M' T' (e + 1) now xs w2 Hi' K') as (x & X2 & X3); try assumption; try lia.
        exists x. split.
        -- intros h m Hf. apply X2. rewrite Hf'; [exact Hf|congruence].
        -- cbn [ranswered answered sends]. rewrite app_nil_r. do 2 eexists. split; [reflexivity|]. split; [split; [reflexivity|exact I]|exact X3].
      * (* new id *)
        destruct (new_id_step c s l g off H first M T e t now Hi ltac:(lia)) as [Hi' Eq].
        assert (K' := kept_id c s l g off H first t now K).
        destruct (db_new_id s now) as [s' id]. cbn [fst] in *. injection Es as <- <-.
        pose proof (inv_later _ _ _ _ _ _ _ _ _ _ _ now (so_dur _ _ Hset) (proj1 Hclk) Hi') as Hi2.
        apply (kept_later _ _ _ _ _ _ _ _ now (proj1 Hclk)) in K'.
        destruct (IH s' l g off H first M T e now xs w2 Hi2 K') as (x & X2 & X3); try assumption; try lia.
        exists x. split; [exact X2|]. cbn [ranswered answered sends]. rewrite app_nil_r. do 2 eexists. split; [reflexivity|]. split; [split; exact I|exact X3].
      * (* count *)
        injection Es as <- <-.
        destruct (IH s l g off H first M T e t xs w2 Hi K) as (x & X2 & X3); try assumption; try lia.
        exists x. split; [exact X2|]. cbn [ranswered answered sends]. rewrite app_nil_r. do 2 eexists. split; [reflexivity|]. split; [split; exact I|exact X3].
    + (* restart *)
      cbn [restart_ok] in Hok. destruct Hok as (Hset' & Hnow & Hslot & Hfew & Htot & Hord & Hrest).
      rewrite <- !trunc_mul in Hslot.
      destruct (reopen_step c gens s l g off H first M T e t now ord immut enc Hset' Hi K Hli ltac:(lia) ltac:(lia) ltac:(lia) ltac:(lia) ltac:(lia) Hslot ltac:(lia) (few_topics _ Hfew) Hord)
        as (s1 & s' & g' & off' & H' & first' & M' & T' & Ec & Eo & Eq & Hi' & K' & Hf' & _).
      cbn [as_dops app drun dstep] in E. rewrite Ec in E. cbn [dstep] in E. rewrite Eo in E.
      destruct (drun c (Up s') (flat_map as_dops r)) as [w2 xs] eqn:Er. injection E as <- <-.
      destruct (IH s' l g' off' H' first' M' T' (e + 1) now xs w2 Hi' K') as (x & X2 & X3); try assumption; try lia.
      exists x. split.
      * intros h m Hf. apply X2. rewrite Hf'; [exact Hf|congruence].
      * cbn [ranswered]. eexists. split; [reflexivity|exact X3].
Qed.

(** From the first Open on. *)
Lemma restarts c gens t ord immut enc ops : setting_ok c gens -> 0 < c_logint (c_mem c) -> 0 <= t < 2 ^ 32 * 1000000000 -> c_dur (c_mem c) <= t ->
  restart_ok c t [] ops -> (N.of_nat (length ops) <= 130000)%N ->
  exists first outs, snd (drun c (Down no_files) (DoOpen gens t ord immut enc :: flat_map as_dops ops)) = OOpened true :: outs /\ ranswered first [] ops outs.
Proof.
  intros Hset Hli Ht Hd Hok Hn. destruct (start_step c gens t ord immut enc Hset ltac:(lia) Hd Hli) as (s & Eo & Eq & Hi & K).
  cbn [drun dstep]. rewrite Eo. destruct (drun c (Up s) (flat_map as_dops ops)) as [w outs] eqn:Er. cbn [snd].
  destruct (run_restarts c gens Hset Hli ops s [] _ _ _ _ _ _ _ _ outs w Hi K Hok ltac:(lia) ltac:(lia) ltac:(lia) Hd ltac:(lia) Er) as (x & _ & X3).
  exists x, outs. split; [reflexivity|exact X3].
Qed.
