(** Proofs about sessions with restarts and queries for a span of time. *)
From Verif Require Import M_Bytes P_Bytes M_File M_Hash M_Bloom M_Entry P_Codec M_MsgId M_Mac P_Mac M_Topic M_Trie M_Query M_IndexBlock M_Lease
  M_BlockRange M_BlockStore M_WinBlock M_Wal M_MemDB M_Window M_Get M_DBInfo M_DB S_Trie S_Window S_BlockStore S_MemDB S_Get S_DB S_Session S_Restart S_Since S_SinceR
  P_Topic P_Trie P_Trie2 P_Trie3 P_BlockStore4 P_Window2 P_Window4 P_WindowEx P_WinOpen P_Get P_MemBlock P_MemDB P_MemGet P_MemWal P_MemKeep P_MemReopen P_DB
  P_Session P_Session2 P_Session3 P_Session4 P_Session5 P_Restart P_Restart2 P_Restart3 P_Restart4 P_Restart5 P_Restart6 P_Times P_Since.
From Coq Require Import Lia ZifyBool ZifyNat ZifyN Permutation Sorted.
Open Scope Z_scope.

(** A Get of any kind. *)
Definition a_get (o : lop) : bool := match o with LDo (SGet _ _ _ _ _) | LLast _ _ _ _ _ _ | LOpt _ _ _ _ _ _ => true | _ => false end.
Lemma get_lop c s l sl g off H first M T e t o : inv c s l g off H first M T e t -> aged l H -> timed l sl t -> 0 <= t -> a_get o = true -> span_ok c t sl [o] ->
  exists s' x, dstep c (Up s) (as_ldop c o) = (Up s', x) /\ inv c s' l g off H first M T e t /\ d_seq s' = d_seq s /\
    (exists qr qf qb, s' = set_mem s (set_query (d_mem s) qr qf qb)) /\ stamps o = [] /\ forall y, first_of first l y -> spanned c y sl [o] [x].
Proof.
  intros Hi Ha Hst Ht Hk Hok. cbn [span_ok] in Hok. destruct Hok as (Hclk & Hreq & _).
  destruct o as [[now k p payload expires encrypt|now g0 k names limit|now| |now ord|now|]|now g0 k names limit txt|now g0 k names limit txt];
    try discriminate Hk; cbn [as_ldop as_dop lclock clock] in *.
  - (* get *)
      pose proof Hreq as [_ (Hne & Hnm & _) Htl _ _ _ _ _].
      destruct (get_given c s l sl g off H first M T e t now g0 k names limit (mkQ (text (static names)) k limit 0 [])
                  (if limit =? 0 then c_def c else limit) 0 None Hi Ha Hst ltac:(lia) Hreq) as (s' & x & E & Hi' & Eq & Hqs & Hgv).
      { now apply static_ne. } { exact Htl. } { reflexivity. } { reflexivity. } { reflexivity. }
      { cbn [q_topic q_limit q_cutoff]. rewrite no_options; [reflexivity|now apply static_levels|now apply static_ne]. }
      { reflexivity. } { cbn. lia. }
      exists s', x. split; [exact E|]. split; [exact Hi'|]. split; [exact Eq|]. split; [exact Hqs|]. split; [reflexivity|]. intros y Hy. split; [now apply Hgv|exact I].
  - (* WithLast *)
      pose proof Hreq as [_ (Hne & Hnm & _) Htl _ _ _ _ _].
      set (lim := match c_pd c txt with Some _ => at_most defaultQueryLimit maxQueryLimit limit | None => limit end) in *.
      set (cut := match c_pd c txt with Some d => unix (now - d) | None => 0 end).
      assert (Eq0 : last_query c now k names limit txt = mkQ (text (static names)) k lim cut []).
      { unfold last_query, with_last, lim, cut. destruct (c_pd c txt) as [d|]; [|reflexivity]. unfold at_most.
        destruct (limit =? 0); [reflexivity|]. destruct (Z.ltb_spec maxQueryLimit limit); f_equal; lia. }
      rewrite Eq0.
      destruct (get_given c s l sl g off H first M T e t now g0 k names lim (mkQ (text (static names)) k lim cut [])
                  (if lim =? 0 then c_def c else lim) cut (back c now txt) Hi Ha Hst ltac:(lia) Hreq) as (s' & x & E & Hi' & Eq & Hqs & Hgv).
      { now apply static_ne. } { exact Htl. } { reflexivity. } { reflexivity. } { reflexivity. }
      { cbn [q_topic q_limit q_cutoff]. rewrite no_options; [reflexivity|now apply static_levels|now apply static_ne]. }
      { lia. } { unfold from_cut, back, cut. destruct (c_pd c txt); [reflexivity|lia]. }
      exists s', x. split; [exact E|]. split; [exact Hi'|]. split; [exact Eq|]. split; [exact Hqs|]. split; [reflexivity|]. intros y Hy. split; [now apply Hgv|exact I].
  - (* last in the topic *)
      destruct Hreq as (Hreq & Htl & Htn & Hts & Hti & Htd).
      pose proof Hreq as [_ (Hne & Hnm & _) _ Hlim _ _ _ _].
      destruct (c_pd c txt) as [d|] eqn:Ed; [|congruence].
      destruct (parse_limit (c_def c) (c_max c) limit 0 (Some (unix (now - d), 0))) as [L cut] eqn:Epl.
      destruct (get_given c s l sl g off H first M T e t now g0 k names (at_most (c_def c) (c_max c) limit) (mkQ (last_topic names txt) k limit 0 [])
                  L cut (back c now txt) Hi Ha Hst ltac:(lia) Hreq) as (s' & x & E & Hi' & Eq & Hqs & Hgv).
      { cbn [q_topic]. unfold last_topic. intros Ee. apply app_eq_nil in Ee as [Ee _]. now apply (static_ne names) in Ee. } { exact Htl. } { reflexivity. } { reflexivity. }
      { intros tr. cbn [q_topic]. now apply opt_find. }
      { cbn [q_topic q_limit q_cutoff]. rewrite opt_options by assumption. unfold topic_last, get_option.
        destruct (list_eq_dec N.eq_dec kLast kLast) as [_|]; [|congruence]. rewrite Hti. cbn [Z.ltb Z.compare]. unfold dur0. rewrite Ed. exact Epl. }
      { unfold parse_limit in Epl. injection Epl as EL Ec0. revert EL Hlim. unfold at_most. clear.
        destruct (Z.eqb_spec limit 0) as [->|Hl0]; cbn [andb].
        - destruct (Z.eqb_spec (c_def c) 0); lia.
        - destruct (Z.ltb_spec (c_max c) limit), (Z.ltb_spec (c_max c) 0), (Z.ltb_spec limit 0); cbn [orb]; intros EL Hlim; repeat match goal with H : context [?a =? 0] |- _ => destruct (Z.eqb_spec a 0) | |- context [?a =? 0] => destruct (Z.eqb_spec a 0) end; lia. }
      { unfold parse_limit in Epl. injection Epl as EL Ec0. unfold from_cut, back. rewrite Ed. now symmetry. }
      exists s', x. split; [exact E|]. split; [exact Hi'|]. split; [exact Eq|]. split; [exact Hqs|]. split; [reflexivity|]. intros y Hy. split; [now apply Hgv|exact I].
Qed.

Lemma run_rsince c gens0 : setting_ok c gens0 -> 0 < c_logint (c_mem c) -> forall ops s l sl g off H first M T e t outs w,
  inv c s l g off H first M T e t -> kept c s l g off H first t -> aged l H -> timed l sl t -> rspan_ok c t sl ops ->
  e + Z.of_nat (length ops) <= 130000 -> Z.of_N (d_seq s) + Z.of_nat (length ops) <= 130000 ->
  0 <= t -> c_dur (c_mem c) <= t -> t < 2 ^ 32 * 1000000000 ->
  drun c (Up s) (flat_map (as_ldops c) ops) = (w, outs) ->
  exists x, (forall h m, first = Some h -> In m l -> gm_hash m = h -> x = Some (s_owner (gm_sent m), s_pattern (gm_sent m))) /\
    rspanned c x sl ops outs.
Proof.
  intros Hset Hli. induction ops as [|o r IH]; intros s l sl g off H first M T e t outs w Hi K Ha Hst Hok He Hq Ht Hdt Hbt E; cbn [flat_map] in E.
  - cbn [drun] in E. injection E as <- <-. destruct first as [h|].
    + destruct (wp_first _ _ _ _ _ _ _ _ (iv_win _ _ _ _ _ _ _ _ _ _ _ Hi) h eq_refl) as (m & Hm & Eh).
      exists (Some (s_owner (gm_sent m), s_pattern (gm_sent m))). split; [|reflexivity].
      intros h' m' [= <-] Hm' Eh'. destruct (lp_clash _ _ _ (iv_list _ _ _ _ _ _ _ _ _ _ _ Hi) m' m Hm' Hm) as [-> ->]; [congruence|reflexivity].
    + exists None. split; [discriminate|reflexivity].
  - cbn [length] in He, Hq. destruct o as [o|gens now ord immut enc].
    + cbn [rspan_ok] in Hok. destruct Hok as (Hone & Hmore & Hrest). pose proof Hone as (Hclk & Hreq & _).
      cbn [as_ldops app drun] in E.
      destruct (dstep c (Up s) (as_ldop c o)) as [w1 x1] eqn:Es. destruct (drun c w1 (flat_map (as_ldops c) r)) as [w2 xs] eqn:Er. injection E as <- <-.
      destruct (a_get o) eqn:Eget.
      { destruct (get_lop c s l sl g off H first M T e t o Hi Ha Hst Ht Eget Hone) as (s' & x' & E' & Hi' & Eq & (qr & qf & qb & Eqs) & Est & Hsp).
        rewrite E' in Es. injection Es as <- <-. rewrite Est, app_nil_r in Hrest.
        pose proof (inv_later _ _ _ _ _ _ _ _ _ _ _ (lclock t o) (so_dur _ _ Hset) (proj1 Hclk) Hi') as Hi2.
        assert (K' : kept c s' l g off H first (lclock t o)) by (eapply kept_later; [apply Hclk|]; rewrite Eqs; now apply kept_get).
        destruct (IH s' l sl g off H first M T e (lclock t o) xs w2 Hi2 K' Ha (timed_later _ _ _ _ (proj1 Hclk) Hst) Hrest) as (x & X2 & X3); try assumption; try lia.
        exists x. split; [exact X2|]. cbn [rspanned]. rewrite Est, app_nil_r. do 2 eexists. split; [reflexivity|]. split; [|exact X3]. apply Hsp.
        intros h Hf. destruct (wp_first _ _ _ _ _ _ _ _ (iv_win _ _ _ _ _ _ _ _ _ _ _ Hi) h Hf) as (m & Hm & Eh). exists m. eauto. }
      destruct o as [[now k p payload expires encrypt|now g0 k names limit|now| |now ord|now|]|now g0 k names limit txt|now g0 k names limit txt];
        try discriminate Eget; cbn [as_ldop as_dop dstep lclock clock] in *; cbn [stamps sends map] in Hrest; rewrite ?app_nil_r in Hrest.
      * (* put *)
        destruct Hreq as [Hoff Hreq]. rewrite (timed_sent _ _ _ Hst) in Hreq.
        destruct (put_step c gens0 s l g off H first M T e t now k p payload expires encrypt Hset Hi (proj1 Hclk) ltac:(lia) Hreq)
          as (s' & ue & m & g' & Ep & Em & Eq & Hi' & P1 & P2 & P3 & P4 & P5 & P6 & P7 & P8 & Eid). unfold put_arg in Ep. rewrite Ep in Es. injection Es as <- <-. cbn [alive] in Er.
        assert (Hst' : timed (l ++ [m]) (sl ++ [(now, mkSent (owner k) p expires payload)]) now).
        { apply Forall2_app; [exact (timed_later _ _ _ _ (proj1 Hclk) Hst)|]. constructor; [|constructor]. cbn [fst snd]. split; [exact Em|]. split; [|lia].
          rewrite Eid. assert (Hk : (owner k < 2 ^ 32)%N) by (unfold owner; destruct (k =? 0)%N; [reflexivity|apply Hreq]).
          destruct (C09_fields (unix now) (d_seq s + 1) (owner k)) as (L16 & _ & _ & Et).
          - unfold unix. split; [apply Z.div_le_lower_bound; lia|]. unfold Offset. pose proof (unix_range now ltac:(lia)) as Hur. unfold unix in Hur. lia.
          - lia.
          - exact Hk.
          - etransitivity; [|exact Et]. clear Et. revert L16. generalize (id_setContract (newID (unix now) (d_seq s + 1)) (owner k)). intros id L16.
            do 8 (destruct id as [|? id]; [discriminate L16|]). reflexivity. }
        assert (K' : kept c s' (l ++ [m]) g' off H first now).
        { eapply kept_later; [apply Hclk|]. rewrite P5. eapply kept_put; try eassumption; [rewrite Em; exact P2|]. unfold on_disk in P7. congruence. }
        destruct (IH s' (l ++ [m]) _ g' off H first M T e now xs w2 Hi' K' (aged_put _ _ _ _ _ _ _ _ _ _ _ _ Hi P1 Ha) Hst') as (x & X2 & X3); try assumption; try lia.
        exists x. split.
        -- intros h m' Hf Hm'. apply (X2 h m' Hf). apply in_app_iff. now left.
        -- cbn [rspanned spanned stamps sends map clock]. do 2 eexists. split; [reflexivity|]. split; [split; [reflexivity|exact I]|]. exact X3.
      * (* tick *)
        injection Es as <- <-. destruct (tick_step c gens0 s l g off H first M T e t now Hset Hi (proj1 Hclk)) as (g' & Hi' & Eg').
        assert (K' := kept_tick c gens0 s l g g' off H first M T e t now Hset Hi K Hmore Hi' Eg' ltac:(lia)).
        destruct (IH _ l sl g' off H first M T e now xs w2 Hi' K' Ha (timed_later _ _ _ _ (proj1 Hclk) Hst)) as (x & X2 & X3); try assumption; try lia.
        { cbn [set_mem d_seq]. lia. }
        exists x. split; [exact X2|]. cbn [rspanned spanned stamps sends map]. rewrite app_nil_r. do 2 eexists. split; [reflexivity|]. split; [split; exact I|exact X3].
      * (* commit *)
        injection Es as <- <-. pose proof (commit_step _ _ _ _ _ _ _ _ _ _ _ Hi) as Hi'.
        rewrite (timed_sent _ _ _ Hst) in Hmore.
        assert (K' := kept_commit c s l g off H first M T e t Hi K ltac:(lia) ltac:(lia)).
        destruct (IH _ l sl g off H first M T e t xs w2 Hi' K' Ha Hst) as (x & X2 & X3); try assumption; try lia.
        { cbn [set_mem d_seq]. lia. }
        exists x. split; [exact X2|]. cbn [rspanned spanned stamps sends map]. rewrite app_nil_r. do 2 eexists. split; [reflexivity|]. split; [split; exact I|exact X3].
      * (* sync *)
        destruct (sync_step c gens0 s l g off H first M T e t now ord Hset Hi (proj1 Hclk) ltac:(lia) ltac:(lia) Hreq)
          as (s' & g' & off' & H' & first' & M' & T' & Ey & Hi' & Eq & Hf' & Hdis & Hls & _). rewrite Ey in Es. injection Es as <- <-. cbn [alive] in Er.
        assert (K' := kept_sync c s s' l g g' off off' H H' first first' M T T' e t now Hi K (proj1 Hclk) Hdis Hls).
        assert (Ha' : aged l H').
        { destruct Hdis as [(_ & _ & _ & _ & -> & _)|(w' & Hfr & _)]; [exact Ha|]. intros h x m Hx Hm Ew.
          destruct (frees_times _ _ _ _ _ _ _ _ _ Hfr h x Hx) as [Hx'|Hx']; [eapply Ha; eauto|]. rewrite Hx'.
          etransitivity; [exact (timed_le _ _ _ _ Hst Hm)|]. apply unix_mono. lia. }
        destruct (IH s' l sl g' off' H' first' M' T' (e + 1) now xs w2 Hi' K' Ha' (timed_later _ _ _ _ (proj1 Hclk) Hst)) as (x & X2 & X3); try assumption; try lia.
        exists x. split.
        -- intros h m Hf. apply X2. rewrite Hf'; [exact Hf|congruence].
        -- cbn [rspanned spanned stamps sends map]. rewrite app_nil_r. do 2 eexists. split; [reflexivity|]. split; [split; [reflexivity|exact I]|exact X3].
      * (* new id *)
        destruct (new_id_step c s l g off H first M T e t now Hi ltac:(lia)) as [Hi' Eq].
        assert (K' := kept_id c s l g off H first t now K).
        destruct (db_new_id s now) as [s' id]. cbn [fst] in *. injection Es as <- <-.
        pose proof (inv_later _ _ _ _ _ _ _ _ _ _ _ now (so_dur _ _ Hset) (proj1 Hclk) Hi') as Hi2.
        apply (kept_later _ _ _ _ _ _ _ _ now (proj1 Hclk)) in K'.
        destruct (IH s' l sl g off H first M T e now xs w2 Hi2 K' Ha (timed_later _ _ _ _ (proj1 Hclk) Hst)) as (x & X2 & X3); try assumption; try lia.
        exists x. split; [exact X2|]. cbn [rspanned spanned stamps sends map]. rewrite app_nil_r. do 2 eexists. split; [reflexivity|]. split; [split; exact I|exact X3].
      * (* count *)
        injection Es as <- <-.
        destruct (IH s l sl g off H first M T e t xs w2 Hi K Ha Hst) as (x & X2 & X3); try assumption; try lia.
        exists x. split; [exact X2|]. cbn [rspanned spanned stamps sends map]. rewrite app_nil_r. do 2 eexists. split; [reflexivity|]. split; [split; exact I|exact X3].
    + (* restart *)
      cbn [rspan_ok] in Hok. rewrite (timed_sent _ _ _ Hst) in Hok. destruct Hok as (Hset' & Hnow & Hslot & Hfew & Htot & Hord & Hrest).
      rewrite <- !trunc_mul in Hslot.
      destruct (reopen_step c gens s l g off H first M T e t now ord immut enc Hset' Hi K Hli ltac:(lia) ltac:(lia) ltac:(lia) ltac:(lia) ltac:(lia) Hslot ltac:(lia) (few_topics _ Hfew) Hord)
        as (s1 & s' & g' & off' & H' & first' & M' & T' & Ec & Eo & Eq & Hi' & K' & Hf' & _ & _ & _ & _ & Htm).
      cbn [as_ldops app drun dstep] in E. rewrite Ec in E. cbn [dstep] in E. rewrite Eo in E.
      destruct (drun c (Up s') (flat_map (as_ldops c) r)) as [w2 xs] eqn:Er. injection E as <- <-.
      assert (Ha' : aged l H').
      { intros h x m Hx Hm Ew. destruct (Htm h x Hx) as [Hx'|Hx']; [eapply Ha; eauto|]. rewrite Hx'.
        etransitivity; [exact (timed_le _ _ _ _ Hst Hm)|]. apply unix_mono. lia. }
      destruct (IH s' l sl g' off' H' first' M' T' (e + 1) now xs w2 Hi' K' Ha' (timed_later l sl t now ltac:(lia) Hst)) as (x & X2 & X3); try assumption; try lia.
      exists x. split.
      * intros h m Hf. apply X2. rewrite Hf'; [exact Hf|congruence].
      * cbn [rspanned]. eexists. split; [reflexivity|exact X3].
Qed.

(** From the first Open on. *)
Lemma since_restarts c gens t ord immut enc ops : setting_ok c gens -> 0 < c_logint (c_mem c) -> 0 <= t < 2 ^ 32 * 1000000000 -> c_dur (c_mem c) <= t ->
  rspan_ok c t [] ops -> (N.of_nat (length ops) <= 130000)%N ->
  exists first outs, snd (drun c (Down no_files) (DoOpen gens t ord immut enc :: flat_map (as_ldops c) ops)) = OOpened true :: outs /\ rspanned c first [] ops outs.
Proof.
  intros Hset Hli Ht Hd Hok Hn. destruct (start_step c gens t ord immut enc Hset ltac:(lia) Hd Hli) as (s & Eo & Eq & Hi & K).
  cbn [drun dstep]. rewrite Eo. destruct (drun c (Up s) (flat_map (as_ldops c) ops)) as [w outs] eqn:Er. cbn [snd].
  destruct (run_rsince c gens Hset Hli ops s [] [] _ _ _ _ _ _ _ _ outs w Hi K ltac:(intros h x m []) ltac:(constructor) Hok ltac:(lia) ltac:(lia) ltac:(lia) Hd ltac:(lia) Er) as (x & _ & X3).
  exists x, outs. split; [reflexivity|exact X3].
Qed.
