(** Proofs about sessions: Open, and whole runs. *)
From Verif Require Import M_Bytes P_Bytes M_File M_Hash M_Bloom M_Entry M_MsgId M_Mac M_Topic M_Trie M_Query M_IndexBlock M_Lease
  M_BlockStore M_WinBlock M_Wal M_MemDB M_Window M_Get M_DB M_DBInfo S_Trie S_Window S_BlockStore S_MemDB S_Get S_DB S_Session
  P_Codec P_Lease P_BlockStore2 P_BlockStore3 P_BlockStore4 P_Window4 P_MemDB P_MemGet P_DB P_Session P_Session2 P_Session3 P_Session4.
From Coq Require Import Lia ZifyBool ZifyNat ZifyN Permutation Sorted.
Open Scope Z_scope.

Lemma open_step c gens t ord immut enc : setting_ok c gens -> 0 <= t ->
  exists s, db_open c gens t ord immut enc no_files = Opened s /\ d_seq s = 0%N /\
    inv c s [] (gstart (c_mem c) t) (fun _ => 0) (fun _ => []) None (fun _ => None) 0 0 t /\
    mem_open (c_mem c) gens [] t = Some (d_mem s) /\ d_count s = 0%N /\ d_last s = 0%N.
Proof.
  intros Hset Ht. destruct (mem_open (c_mem c) gens [] t) as [mm|] eqn:Em.
  2:{ unfold mem_open in Em. cbn [replay all_ids flat_map map recover_logs fold_left] in Em. discriminate. }
  pose proof (ginv_empty _ _ _ _ (so_mem _ _ Hset) Em) as Hg.
  assert (E : exists lf info, db_open c gens t ord immut enc no_files =
    Opened (mkDB mm [] newTrie info [] [] [] lf (newLease (c_find c) (c_min c)) 0 0 1 0 immut false)).
  { unfold db_open, no_files. cbn [f_info f_wal f_index f_data f_win f_lease].
    unfold open_header. rewrite open_info_fresh. rewrite Em.
    exists [], (info_marshal (mkInfo signature version 0 0 0)). destruct enc; reflexivity. }
  destruct E as (lf & info & ->). eexists. split; [reflexivity|]. split; [reflexivity|]. split; [|auto].
  constructor; cbn [d_closed d_enc d_seq d_mem d_tw d_win d_index d_data d_lease d_trie]; try reflexivity.
  - constructor; [constructor|constructor|constructor|intros m1 m2 []].
  - constructor; [exact Hg|reflexivity|discriminate|intros m []|discriminate].
  - split; [constructor|]. intros t' h. reflexivity.
  - constructor; [exact (run_wrun _ _ _ _ _ wr_new)|cbn; lia|reflexivity|discriminate].
  - destruct (empty_spec (newLease (c_find c) (c_min c))) as (w & Ew & _ & _ & _ & _ & Eo & _).
    { apply newLease_ok. exact (so_find _ _ Hset). }
    { apply ranges_new. }
    constructor.
    + exists w. split; [exact Ew|]. split; [eapply st_new; [exact (so_find _ _ Hset)|exact Ew]|]. rewrite Eo. cbn. lia.
    + constructor; [intros m []|congruence].
    + intros m [].
  - exists (fun _ => None). split; [constructor|reflexivity].
  - unfold unix. apply Z.div_pos; lia.
Qed.

Lemma first_more first l l' x : (forall m, In m l -> In m l') -> first_of first l x -> first_of first l' x.
Proof. intros Hl Hf h Eh. destruct (Hf h Eh) as (m & Hm & E1 & E2). exists m. auto. Qed.
Lemma clash_first c l n first x m : list_part c l n -> first_of first l x -> forall h, first = Some h -> In m l -> gm_hash m = h ->
  x = Some (s_owner (gm_sent m), s_pattern (gm_sent m)).
Proof.
  intros Hl Hf h Eh Hm Ehm. destruct (Hf h Eh) as (m' & Hm' & E1 & ->). destruct (lp_clash _ _ _ Hl m' m Hm' Hm) as [-> ->]; [congruence|reflexivity].
Qed.

Lemma run_steps c gens : setting_ok c gens -> forall ops s l g off H first M T e t outs w,
  inv c s l g off H first M T e t -> session_ok c t (map gm_sent l) ops ->
  e + Z.of_nat (length ops) <= 130000 -> Z.of_N (d_seq s) + Z.of_nat (length ops) <= 130000 ->
  0 <= t ->
  drun c (Up s) (map as_dop ops) = (w, outs) ->
  exists x, (first = None -> Forall (fun o => syncs o = false) ops -> x = None) /\
    (forall h m, first = Some h -> In m l -> gm_hash m = h -> x = Some (s_owner (gm_sent m), s_pattern (gm_sent m))) /\
    answered x (map gm_sent l) ops outs.
Proof.
  intros Hset. induction ops as [|o r IH]; intros s l g off H first M T e t outs w Hi Hok He Hq Ht E; cbn [map drun] in E.
  - injection E as <- <-. destruct first as [h|].
    + destruct (wp_first _ _ _ _ _ _ _ _ (iv_win _ _ _ _ _ _ _ _ _ _ _ Hi) h eq_refl) as (m & Hm & Eh).
      exists (Some (s_owner (gm_sent m), s_pattern (gm_sent m))). split; [discriminate|]. split; [|exact I].
      intros h' m' [= <-] Hm' Eh'. destruct (lp_clash _ _ _ (iv_list _ _ _ _ _ _ _ _ _ _ _ Hi) m' m Hm' Hm) as [-> ->]; [congruence|reflexivity].
    + exists None. split; [reflexivity|]. split; [discriminate|exact I].
  - cbn [session_ok] in Hok. destruct Hok as (Hclk & Hreq & Hrest). cbn [length] in He, Hq.
    destruct (dstep c (Up s) (as_dop o)) as [w1 x1] eqn:Es. destruct (drun c w1 (map as_dop r)) as [w2 xs] eqn:Er. injection E as <- <-.
    destruct o as [now k p payload expires encrypt|now g0 k names limit|now| |now ord|now|]; cbn [as_dop dstep clock sends] in *; rewrite ?app_nil_r in Hrest.
    + (* put *)
      destruct (put_step c gens s l g off H first M T e t now k p payload expires encrypt Hset Hi (proj1 Hclk) ltac:(lia) Hreq)
        as (s' & ue & m & g' & Ep & Em & Eq & Hi' & _). unfold put_arg in Ep. rewrite Ep in Es. injection Es as <- <-. cbn [alive] in Er.
      assert (El : map gm_sent (l ++ [m]) = map gm_sent l ++ [mkSent (owner k) p expires payload]) by (rewrite map_app; cbn [map]; now rewrite Em).
      destruct (IH s' (l ++ [m]) g' off H first M T e now xs w2 Hi') as (x & X1 & X2 & X3); try assumption; try lia.
      { rewrite El. exact Hrest. }
      exists x. split; [|split].
      * intros Hf Hn. inversion Hn; subst. auto.
      * intros h m' Hf Hm'. apply (X2 h m' Hf). apply in_app_iff. now left.
      * cbn [answered sends]. split; [reflexivity|]. rewrite <- El. exact X3.
    + (* get *)
      assert (Hg : exists s' q' , exists items, db_get c s now g0 (mkQ (text (static names)) k limit 0 []) = (s', q', QItems items) /\
                inv c s' l g off H first M T e t /\ d_seq s' = d_seq s /\ incl items (map s_payload (filter (asked k names) (map gm_sent l))) /\
                forall x, first_of first l x -> spared x k names = false -> items = expect now k names (map gm_sent l)).
      { destruct (get_step c s l g off H first M T e t now g0 k names limit
                   (match first with None => None | Some h => match find (fun m => (gm_hash m =? h)%N) l with Some m => Some (s_owner (gm_sent m), s_pattern (gm_sent m)) | None => None end end) Hi ltac:(lia) Hreq) as (s' & q' & items & Eg & Hi' & Esq & _ & Hin & Hx).
        - intros h ->. destruct (find (fun m => (gm_hash m =? h)%N) l) as [m|] eqn:Ef.
          + apply find_some in Ef as [Hm Eh]. apply N.eqb_eq in Eh. exists m. auto.
          + exfalso. destruct (wp_first _ _ _ _ _ _ _ _ (iv_win _ _ _ _ _ _ _ _ _ _ _ Hi) h eq_refl) as (m & Hm & Eh).
            eapply find_none in Ef; [|exact Hm]. cbv beta in Ef. rewrite Eh, N.eqb_refl in Ef. discriminate.
        - exists s', q', items. split; [exact Eg|]. split; [exact Hi'|]. split; [exact Esq|]. split; [exact Hin|].
          intros x Hf Hsp. destruct first as [h|]; [|now apply Hx]. destruct (Hf h eq_refl) as (m & Hm & Eh & ->).
          destruct (find (fun m => (gm_hash m =? h)%N) l) as [m2|] eqn:Ef; [|now apply Hx].
          apply find_some in Ef as [Hm2 Eh2]. apply N.eqb_eq in Eh2.
          destruct (lp_clash _ _ _ (iv_list _ _ _ _ _ _ _ _ _ _ _ Hi) m2 m Hm2 Hm) as [E1 E2]; [congruence|]. rewrite E1, E2 in Hx. now apply Hx. }
      destruct Hg as (s' & q' & items & Eg & Hi' & Esq & Hin & Hx). rewrite Eg in Es. injection Es as <- <-. cbn [alive_q] in Er.
      pose proof (inv_later _ _ _ _ _ _ _ _ _ _ _ now (so_dur _ _ Hset) (proj1 Hclk) Hi') as Hi2.
      destruct (IH s' l g off H first M T e now xs w2 Hi2) as (x & X1 & X2 & X3); try assumption; try lia.
      exists x. split; [|split].
      * intros Hf Hn. inversion Hn; subst. auto.
      * exact X2.
      * cbn [answered sends]. rewrite app_nil_r. split; [|exact X3]. exists items. split; [reflexivity|]. split; [exact Hin|].
        apply Hx. intros h Hf. destruct (wp_first _ _ _ _ _ _ _ _ (iv_win _ _ _ _ _ _ _ _ _ _ _ Hi) h Hf) as (m & Hm & Eh). exists m. eauto.
    + (* tick *)
      injection Es as <- <-. destruct (tick_step c gens s l g off H first M T e t now Hset Hi (proj1 Hclk)) as (g' & Hi' & _).
      destruct (IH _ l g' off H first M T e now xs w2 Hi') as (x & X1 & X2 & X3); try assumption; try lia.
      { cbn [set_mem d_seq]. lia. }
      exists x. split; [intros Hf Hn; inversion Hn; subst; auto|]. split; [exact X2|]. cbn [answered sends]. rewrite app_nil_r. auto.
    + (* commit *)
      injection Es as <- <-. pose proof (commit_step _ _ _ _ _ _ _ _ _ _ _ Hi) as Hi'.
      destruct (IH _ l g off H first M T e t xs w2 Hi') as (x & X1 & X2 & X3); try assumption; try lia.
      { cbn [set_mem d_seq]. lia. }
      exists x. split; [intros Hf Hn; inversion Hn; subst; auto|]. split; [exact X2|]. cbn [answered sends]. rewrite app_nil_r. auto.
    + (* sync *)
      destruct (sync_step c gens s l g off H first M T e t now ord Hset Hi (proj1 Hclk) ltac:(lia) ltac:(lia) Hreq)
        as (s' & g' & off' & H' & first' & M' & T' & Ey & Hi' & Eq & Hf' & _). rewrite Ey in Es. injection Es as <- <-. cbn [alive] in Er.
      destruct (IH s' l g' off' H' first' M' T' (e + 1) now xs w2 Hi') as (x & X1 & X2 & X3); try assumption; try lia.
      exists x. split; [intros Hf Hn; inversion Hn; discriminate|]. split.
      * intros h m Hf. apply X2. rewrite Hf'; [exact Hf|congruence].
      * cbn [answered sends]. rewrite app_nil_r. auto.
    + (* new id *)
      destruct (new_id_step c s l g off H first M T e t now Hi ltac:(lia)) as [Hi' Eq].
      destruct (db_new_id s now) as [s' id]. cbn [fst] in *. injection Es as <- <-.
      pose proof (inv_later _ _ _ _ _ _ _ _ _ _ _ now (so_dur _ _ Hset) (proj1 Hclk) Hi') as Hi2.
      destruct (IH s' l g off H first M T e now xs w2 Hi2) as (x & X1 & X2 & X3); try assumption; try lia.
      exists x. split; [intros Hf Hn; inversion Hn; subst; auto|]. split; [exact X2|]. cbn [answered sends]. rewrite app_nil_r. auto.
    + (* count *)
      injection Es as <- <-.
      destruct (IH s l g off H first M T e t xs w2 Hi) as (x & X1 & X2 & X3); try assumption; try lia.
      exists x. split; [intros Hf Hn; inversion Hn; subst; auto|]. split; [exact X2|]. cbn [answered sends]. rewrite app_nil_r. auto.
Qed.

(** From Open on. *)
Lemma session c gens t ord immut enc ops : setting_ok c gens -> 0 <= t -> session_ok c t [] ops -> (N.of_nat (length ops) <= 130000)%N ->
  exists first outs, snd (drun c (Down no_files) (DoOpen gens t ord immut enc :: map as_dop ops)) = OOpened true :: outs /\
    (Forall (fun o => syncs o = false) ops -> first = None) /\ answered first [] ops outs.
Proof.
  intros Hset Ht Hok Hn. destruct (open_step c gens t ord immut enc Hset Ht) as (s & Eo & Eq & Hi & _).
  cbn [drun dstep]. rewrite Eo. destruct (drun c (Up s) (map as_dop ops)) as [w outs] eqn:Er. cbn [snd].
  destruct (run_steps c gens Hset ops s [] _ _ _ _ _ _ _ _ outs w Hi Hok ltac:(lia) ltac:(lia) Ht Er) as (x & X1 & _ & X3).
  exists x, outs. split; [reflexivity|]. split; [auto|exact X3].
Qed.
Lemma session_unsynced c gens t ord immut enc ops : setting_ok c gens -> 0 <= t -> session_ok c t [] ops -> (N.of_nat (length ops) <= 130000)%N ->
  Forall (fun o => syncs o = false) ops ->
  exists outs, snd (drun c (Down no_files) (DoOpen gens t ord immut enc :: map as_dop ops)) = OOpened true :: outs /\ answered None [] ops outs.
Proof.
  intros Hset Ht Hok Hn Hs. destruct (session c gens t ord immut enc ops Hset Ht Hok Hn) as (x & outs & E & X & A). rewrite (X Hs) in A. eauto.
Qed.
