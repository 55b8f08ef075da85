(** Proofs about sessions with queries for a span of time. *)
From Verif Require Import M_Bytes P_Bytes M_File M_Hash M_Bloom M_Entry P_Codec M_MsgId M_Mac P_Mac M_Topic M_Trie M_Query M_IndexBlock M_Lease
  M_BlockStore M_WinBlock M_Wal M_MemDB M_Window M_Get M_DB S_Trie S_Window S_BlockStore S_MemDB S_Get S_DB S_Session S_Since
  P_Topic P_Trie P_Trie2 P_Trie3 P_BlockStore4 P_Window4 P_WindowEx P_Get P_MemBlock P_MemDB P_MemGet P_DB
  P_Session P_Session2 P_Session3 P_Session4 P_Session5 P_Times.
From Coq Require Import Lia ZifyBool ZifyNat ZifyN Permutation Sorted.
Open Scope Z_scope.

(** * The age of a message *)
Definition fresh (cut : Z) (m : gmsg) : bool := cut <=? uid_time (gm_id m).
Definition aged (l : list gmsg) (H : hist) : Prop :=
  forall h x m, In x (H h) -> In m l -> gm_we m = fst x -> uid_time (gm_id m) <= snd x.
Definition timed (l : list gmsg) (sl : list (Z * sent)) (t : Z) : Prop :=
  Forall2 (fun m x => gm_sent m = snd x /\ uid_time (gm_id m) = unix (fst x) /\ fst x <= t) l sl.

Lemma uid_pos id : 0 < uid_time id.
Proof. unfold uid_time, Offset. lia. Qed.
Lemma prefix_fresh m k cut : id_contract (gm_id m) = k -> evalPrefix (gm_id m) k cut = fresh cut m.
Proof.
  intros <-. unfold evalPrefix, fresh. rewrite N.eqb_refl, uid_time_slice, andb_true_r. pose proof (uid_pos (gm_id m)).
  destruct (Z.ltb_spec 0 cut); [reflexivity|]. lia.
Qed.
Lemma decode_since c cut m : gm_ok c m ->
  decode c (s_owner (gm_sent m)) cut (gm_id m) (gm_val m) = if fresh cut m then OItem (s_payload (gm_sent m)) else OSkip.
Proof.
  intros H. unfold decode. rewrite (prefix_fresh m _ cut (gk_owner c m H)). destruct (fresh cut m); [|reflexivity]. cbn [negb].
  rewrite (gk_crypt c m H), N.eqb_refl. destruct (gk_val c m H) as (z & -> & ->). reflexivity.
Qed.

Lemma read_since c s0 l g M s m cut : list_part c l (d_seq s0) ->
  (forall m, In m l -> g_slot g (gm_seq m) = Freed \/ exists t, g_slot g (gm_seq m) = Held t (gm_cache m)) ->
  store_part (d_index s0) (d_data s0) (d_lease s0) g l M ->
  mine s0 c g s -> In m l ->
  exists s', read_one c (s_owner (gm_sent m)) cut s (gm_seq m) = (s', if fresh cut m then OItem (s_payload (gm_sent m)) else OSkip) /\ mine s0 c g s'.
Proof.
  intros Hl Hall Hst (mm & -> & Hg & qr & qf & qb & Eq0) Hm.
  assert (Hok : gm_ok c m) by (pose proof (lp_ok _ _ _ Hl) as H; rewrite Forall_forall in H; auto).
  destruct (mem_get (c_mem c) mm (gm_seq m)) as [mm' r] eqn:Eg.
  assert (Hk : (gm_seq m < 2 ^ 64)%N) by (pose proof (gk_seq _ _ Hok); lia).
  destruct (gstep (c_mem c) mm g (OGet (gm_seq m)) mm' (OVal r) Hg I Hk) as (g' & Ha & Hg').
  { cbn [mstep]. now rewrite Eg. }
  assert (mine s0 c g (set_mem s0 mm')) as Hmine.
  { exists mm'. split; [reflexivity|]. split; [inversion Ha; subst; assumption|]. unfold mem_get in Eg. apply mem_get_same in Eg as (qr' & qf' & qb' & ->). rewrite Eq0. now exists qr', qf', qb'. }
  destruct (Hall m Hm) as [Hf|(t & Hh)].
  - assert (r = GNotExist \/ r = GErr) as Hr.
    { inversion Ha; subst; try congruence. }
    destruct (sp_read _ _ _ _ _ _ Hst m Hm) as (off & Ho & Hre & Hra); [unfold in_store; now rewrite Hf|].
    pose proof (gm_body_len c m Hok) as Lb.
    destruct (read_parts (d_data s0) off (gm_seq m) (gm_id m) (gm_raw m) (gm_val m)) as [Rm _]; auto.
    + exact (gk_id _ _ Hok).
    + pose proof (gk_raw _ _ Hok). lia.
    + fold (gm_body m). rewrite Lb. pose proof (gk_raw _ _ Hok). pose proof (gk_len _ _ Hok). lia.
    + unfold read_one. cbn [set_mem d_mem]. rewrite Eg.
      exists (set_mem s0 mm'). split; [|exact Hmine].
      destruct Hr as [-> | ->]; cbn [set_mem d_index d_data]; rewrite Hre, Rm, (decode_since c cut m Hok); reflexivity.
  - assert (r = GOk (gm_cache m)) as ->.
    { inversion Ha; subst; try congruence. }
    unfold read_one. cbn [set_mem d_mem]. rewrite Eg, (gm_unmarshal c m Hok), gm_skip, (gm_message c m Hok), (decode_since c cut m Hok).
    exists (set_mem s0 mm'). split; [reflexivity|exact Hmine].
Qed.

Lemma selection_since c s0 l g M k sel cap L cut : list_part c l (d_seq s0) -> mem_part c (d_mem s0) g l ->
  store_part (d_index s0) (d_data s0) (d_lease s0) g l M ->
  incl sel l -> Forall (fun m => s_owner (gm_sent m) = k) sel -> StronglySorted N.ge (map gm_seq sel) ->
  Z.of_nat (length sel) <= cap -> Z.of_nat (length sel) <= L ->
  exists s', get_entries (read_one c k cut) s0 (map gm_seq sel) cap L = (s', GotItems (map (fun m => s_payload (gm_sent m)) (filter (fresh cut) sel))) /\ mine s0 c g s'.
Proof.
  intros Hl Hmem Hst Hin Hk Hs Hcap HL.
  set (val := fun q => match by_seq sel q with Some m => if fresh cut m then Some (s_payload (gm_sent m)) else None | None => None end).
  set (rd' := fun s q => match by_seq sel q with Some m => read_one c k cut s q | None => (s, OSkip) end).
  assert (Hsel : forall m, In m sel -> by_seq sel (gm_seq m) = Some m).
  { intros m Hm. unfold by_seq. destruct (find _ sel) as [m'|] eqn:Ef.
    - apply find_some in Ef as [Hi E]. apply N.eqb_eq in E. f_equal. eapply (same_seq c l); eauto.
    - eapply find_none in Ef; [|exact Hm]. cbn in Ef. rewrite N.eqb_refl in Ef. discriminate. }
  assert (Hsteady : steady rd' (mine s0 c g) val).
  { intros s q Hs0 Hq. unfold rd', val. destruct (by_seq sel q) as [m|] eqn:Eb; [|exists s; auto].
    unfold by_seq in Eb. apply find_some in Eb as [Hi E]. apply N.eqb_eq in E. subst q.
    assert (s_owner (gm_sent m) = k) as <- by (rewrite Forall_forall in Hk; auto).
    destruct (read_since c s0 l g M s m cut Hl (mp_all _ _ _ _ Hmem) Hst Hs0 (Hin m Hi)) as (s' & -> & Hm'). exists s'. split; [|exact Hm']. now destruct (fresh cut m). }
  rewrite (get_entries_ext _ rd').
  2:{ intros s q Hq. unfold rd'. apply in_map_iff in Hq as (m & <- & Hm). now rewrite (Hsel m Hm). }
  destruct (get_steady rd' (mine s0 c g) val Hsteady s0 (map gm_seq sel) cap L) as (s' & Hi & [E|(H1 & H2 & _)]).
  - exists (d_mem s0). split; [now destruct s0|]. split; [exact (mp_inv _ _ _ _ Hmem)|]. exists (m_qrec (d_mem s0)), (m_qfilters (d_mem s0)), (m_qblocks (d_mem s0)). now destruct (d_mem s0).
  - lia.
  - now rewrite map_length.
  - exact Hs.
  - apply Forall_forall. intros q Hq. apply in_map_iff in Hq as (m & <- & Hm). pose proof (lp_ok _ _ _ Hl) as Ho. rewrite Forall_forall in Ho.
    pose proof (gk_seq _ _ (Ho m (Hin m Hm))). lia.
  - exists s'. split; [|exact Hi]. rewrite E. f_equal. f_equal.
    assert (Ep : payloads val (map gm_seq sel) = map (fun m => s_payload (gm_sent m)) (filter (fresh cut) sel)).
    { unfold payloads. rewrite flat_map_concat_map, map_map. transitivity (concat (map (fun m => if fresh cut m then [s_payload (gm_sent m)] else []) sel)).
      - f_equal. apply map_ext_in. intros m Hm. unfold val. rewrite (Hsel m Hm). now destruct (fresh cut m).
      - clear. induction sel as [|m r IH]; [reflexivity|]. cbn [map concat filter]. rewrite IH. now destruct (fresh cut m). }
    rewrite Ep. apply firstn_all2. rewrite map_length. pose proof (filter_length_le (fresh cut) sel). lia.
  - rewrite map_length in H2. lia.
Qed.

(** * Lookup *)
Definition fresh_q (cut : Z) (l : list gmsg) (q : N) : bool := match by_seq l q with Some m => fresh cut m | None => false end.

Lemma topic_since c s l g off H first M T e t now g0 h limit cut : inv c s l g off H first M T e t -> aged l H ->
  0 <= now < 2 ^ 32 * 1000000000 -> (forall x, Permutation (g_walk g0 x) x) ->
  Z.of_nat (length (filter (of_hash h) l)) <= limit ->
  exists es, tw_lookup now (g_walk g0 (tw_lists (d_tw s) h)) (d_win s) h (off h) cut limit = Some es /\
    (length es <= length (filter (of_hash h) l))%nat /\
    (forall x, In x es -> exists m, In m l /\ gm_hash m = h /\ x = gm_we m) /\
    (first <> Some h -> Permutation (filter (fresh_q cut l) (map w_seq es))
       (map gm_seq (filter (fun m => (of_hash h m && in_time now (gm_sent m) && fresh cut m)%bool) l))).
Proof.
  intros Hi Hag Hnow Hw Hlim. set (ls := g_walk g0 (tw_lists (d_tw s) h)).
  pose proof (iv_list _ _ _ _ _ _ _ _ _ _ _ Hi) as Hl.
  assert (Hls : Permutation (concat ls) (map gm_we (filter (held_of g h) l))).
  { rewrite <- (tw_lists_perm _ _ _ h (iv_tw _ _ _ _ _ _ _ _ _ _ _ Hi)). apply concat_perm, Hw. }
  pose proof (iv_win _ _ _ _ _ _ _ _ _ _ _ Hi) as [Hr _ Hh _]. specialize (Hh h).
  assert (Hsplit : Permutation (filter (held_of g h) l ++ filter (stored_of g h) l) (filter (of_hash h) l)).
  { rewrite split_filter.
    - match goal with |- Permutation ?a ?b => enough (a = b) as -> by reflexivity end. apply filter_ext_in. intros m Hm. unfold held_of, stored_of, of_hash, in_store.
      destruct (gm_hash m =? h)%N; [|reflexivity]. destruct (mp_all _ _ _ _ (iv_mem _ _ _ _ _ _ _ _ _ _ _ Hi) m Hm) as [->|(t' & ->)]; reflexivity.
    - intros m Hm H1 H2. unfold held_of, stored_of, in_store in *. destruct (g_slot g (gm_seq m)); rewrite ?andb_false_r in *; discriminate. }
  assert (Htot : Z.of_nat (total ls + length (H h)) <= limit).
  { unfold total. rewrite (Permutation_length Hls), map_length.
    pose proof (Permutation_length Hh) as L. rewrite !map_length in L. rewrite L. rewrite <- app_length, (Permutation_length Hsplit). exact Hlim. }
  destruct (wlookup_all _ off H first T _ h now cut limit ls Hr (fresh_write _) Htot) as (lost & old & kept & EH & Hlo & Hold & EL).
  change (ww_file (newWindowWriter (d_win s))) with (d_win s) in EL.
  assert (Hfull : Permutation (concat ls ++ map fst (H h)) (map gm_we (filter (of_hash h) l))).
  { rewrite Hls, Hh, <- map_app. now apply Permutation_map. }
  eexists. split; [exact EL|].
  assert (Hp : Permutation (live_lists now ls ++ live_desc now kept) (filter (we_live now) (concat ls ++ map fst kept))).
  { rewrite filter_app. apply Permutation_app; [apply live_lists_perm|]. unfold live_desc. rewrite filter_rev'. symmetry. apply Permutation_rev. }
  split; [|split].
  - rewrite (Permutation_length Hp). etransitivity; [apply filter_length_le|].
    pose proof (Permutation_length Hfull) as L. rewrite map_length in L. rewrite <- L, !app_length, !map_length, EH, !app_length. lia.
  - intros x Hx. apply (Permutation_in _ Hp) in Hx. apply filter_In in Hx as [Hx _].
    assert (In x (concat ls ++ map fst (H h))) as Hx'.
    { apply in_app_iff in Hx as [Hx|Hx]; apply in_app_iff; [now left|right]. rewrite EH, !map_app, !in_app_iff. auto. }
    apply (Permutation_in _ Hfull) in Hx'. apply in_map_iff in Hx' as (m & <- & Hm). apply filter_In in Hm as [Hm Eh].
    exists m. split; [exact Hm|]. split; [now apply N.eqb_eq|reflexivity].
  - intros Hf. destruct Hlo as [->|]; [|contradiction]. cbn [app] in EH.
    assert (Hnone : filter (fun x => fresh_q cut l (w_seq x)) (map fst old) = []).
    { apply filter_none. intros x Hx. apply in_map_iff in Hx as (y & <- & Hy).
      assert (In y (H h)) as Hy' by (rewrite EH; apply in_app_iff; now left).
      assert (In (fst y) (map gm_we (filter (stored_of g h) l))) as Hin by (apply (Permutation_in _ Hh); now apply in_map).
      apply in_map_iff in Hin as (m & Em & Hm). apply filter_In in Hm as [Hm _].
      rewrite <- Em. cbn [gm_we w_seq]. unfold fresh_q. rewrite (by_seq_in c l _ m Hl Hm). unfold fresh.
      rewrite Forall_forall in Hold. specialize (Hold y Hy). pose proof (Hag h y m Hy' Hm Em). lia. }
    rewrite filter_map. rewrite (Permutation_map w_seq (filter_perm _ _ _ Hp)).
    assert (Hp2 : Permutation (filter (fun x => fresh_q cut l (w_seq x)) (filter (we_live now) (concat ls ++ map fst kept)))
                              (filter (fun x => (we_live now x && fresh_q cut l (w_seq x))%bool) (concat ls ++ map fst (H h)))).
    { rewrite filter_filter. rewrite !filter_app. apply Permutation_app_head. rewrite EH, map_app, filter_app.
      assert (E0 : filter (fun x => (we_live now x && fresh_q cut l (w_seq x))%bool) (map fst old) = []).
      { apply filter_none. intros x Hx. destruct (fresh_q cut l (w_seq x)) eqn:Ef; [|apply andb_false_r].
        exfalso. assert (In x []) as []. rewrite <- Hnone. apply filter_In. auto. }
      rewrite E0. reflexivity. }
    rewrite (Permutation_map w_seq Hp2), (Permutation_map w_seq (filter_perm _ _ _ Hfull)), filter_map, map_map, filter_filter.
    cbn [gm_we w_seq]. apply Permutation_map.
    match goal with |- Permutation ?a ?b => enough (a = b) as -> by reflexivity end. apply filter_ext_in. intros m Hm.
    rewrite live_in_time by exact Hnow. unfold fresh_q. rewrite (by_seq_in c l _ m Hl Hm). now rewrite andb_assoc.
Qed.

Lemma topics_since c s l g off H first M T e t now g0 L cut : inv c s l g off H first M T e t -> aged l H ->
  0 <= now < 2 ^ 32 * 1000000000 -> (forall x, Permutation (g_walk g0 x) x) ->
  forall tops acc, NoDup (map fst tops) -> Forall (fun x => snd x = off (fst x)) tops ->
  Z.of_nat (length acc + length (filter (of_any (map fst tops)) l)) <= L ->
  exists res, lookup_topics s now g0 L cut tops acc = Some (acc ++ res) /\
    (length res <= length (filter (of_any (map fst tops)) l))%nat /\
    (forall q, In q res -> exists m, In m l /\ of_any (map fst tops) m = true /\ q = gm_seq m) /\
    ((forall h, first = Some h -> ~ In h (map fst tops)) ->
     Permutation (filter (fresh_q cut l) res) (map gm_seq (filter (fun m => (of_any (map fst tops) m && in_time now (gm_sent m) && fresh cut m)%bool) l))).
Proof.
  intros Hi Hag Hnow Hw. induction tops as [|[h o] r IH]; intros acc Hn Ho Hlim; cbn [lookup_topics].
  - exists []. rewrite app_nil_r. cbn [map of_any existsb andb]. split; [reflexivity|]. split; [cbn; lia|]. split; [intros ? []|].
    intros _. cbn [filter]. now rewrite filter_none.
  - cbn [map fst snd] in *. inversion Hn as [|? ? Hni Hnr]; subst. inversion Ho as [|? ? Eo Hor]; subst. cbn [fst snd] in Eo. subst o.
    assert (Hsp : Permutation (filter (of_hash h) l ++ filter (of_any (map fst r)) l) (filter (of_any (h :: map fst r)) l)).
    { apply split_filter. intros m _ H1 H2. apply existsb_exists in H2 as (h2 & Hh2 & H2). now rewrite (of_hash_inj _ _ _ H1 H2) in Hni. }
    pose proof (Permutation_length Hsp) as Hlen. rewrite app_length in Hlen.
    destruct (Z.ltb_spec L (Z.of_nat (length acc))); [lia|].
    destruct (topic_since c s l g off H first M T e t now g0 h (L - Z.of_nat (length acc)) cut Hi Hag Hnow Hw) as (es & -> & Hle & Hin & Hp); [lia|].
    destruct (IH (acc ++ map w_seq es) Hnr Hor) as (res & -> & Hle2 & Hin2 & Hp2).
    { rewrite app_length, map_length. lia. }
    exists (map w_seq es ++ res). rewrite app_assoc. split; [reflexivity|]. split; [rewrite app_length, map_length; lia|]. split.
    + intros q Hq. apply in_app_iff in Hq as [Hq|Hq].
      * apply in_map_iff in Hq as (x & <- & Hx). destruct (Hin x Hx) as (m & Hm & Eh & ->). exists m. split; [exact Hm|]. split; [|reflexivity].
        cbn [of_any existsb]. unfold of_hash. now rewrite Eh, N.eqb_refl.
      * destruct (Hin2 q Hq) as (m & Hm & Ea & ->). exists m. split; [exact Hm|]. split; [|reflexivity]. cbn [of_any existsb]. unfold of_any in Ea. now rewrite Ea, orb_true_r.
    + intros Hf. rewrite filter_app. rewrite Hp by (intros E; apply (Hf h E); now left). rewrite Hp2 by (intros h' E Hi'; apply (Hf h' E); now right).
      rewrite <- map_app. apply Permutation_map. rewrite split_filter.
      * match goal with |- Permutation ?a ?b => enough (a = b) as -> by reflexivity end. apply filter_ext. intros m. cbn [of_any existsb]. unfold of_any.
        destruct (of_hash h m), (existsb (fun h0 => of_hash h0 m) (map fst r)), (in_time now (gm_sent m)), (fresh cut m); reflexivity.
      * intros m _ H1 H2. apply andb_true_iff in H1 as [H1 _]. apply andb_true_iff in H2 as [H2 _]. apply andb_true_iff in H1 as [H1 _]. apply andb_true_iff in H2 as [H2 _].
        apply existsb_exists in H2 as (h2 & Hh2 & H2). now rewrite (of_hash_inj _ _ _ H1 H2) in Hni.
Qed.

(** * Get *)
Lemma get_since c s l g off H first M T e t now g0 k names limit q L cut : inv c s l g off H first M T e t -> aged l H ->
  0 <= now < 2 ^ 32 * 1000000000 -> S_Session.get_ok c (map gm_sent l) g0 k names limit ->
  q_topic q <> [] -> (N.of_nat (length (q_topic q)) <= maxTopicLength)%N -> q_contract q = k -> q_win q = [] ->
  (forall tr, find_topics tr (owner k) (q_topic q) = find_topics tr (owner k) (text (static names))) ->
  parse_limit (c_def c) (c_max c) (q_limit q) (q_cutoff q) (topic_last (c_pd c) now (t_options (parse_topic (owner k) (q_topic q)))) = (L, cut) ->
  (if limit =? 0 then c_def c else limit) <= L ->
  exists s' q' items, db_get c s now g0 q = (s', q', QItems items) /\
    inv c s' l g off H first M T e t /\ d_seq s' = d_seq s /\ (exists qr qf qb, s' = set_mem s (set_query (d_mem s) qr qf qb)) /\
    incl items (map (fun m => s_payload (gm_sent m)) (filter (fun m => (asked k names (gm_sent m) && fresh cut m)%bool) l)) /\
    (forall x, first_of first l x -> spared x k names = false ->
      items = rev (map (fun m => s_payload (gm_sent m)) (filter (fun m => (asked k names (gm_sent m) && in_time now (gm_sent m) && fresh cut m)%bool) l))).
Proof.
  intros Hi Hag Hnow Hg Hqne Hqlen Hqk Hqw Hft Hpl HL. pose proof (iv_list _ _ _ _ _ _ _ _ _ _ _ Hi) as Hl.
  destruct (query_topics _ _ _ _ _ _ _ _ _ _ _ k names g0 limit Hi Hg) as (Hoff & Hany & Htm).
  pose proof (find_topics_nodup (d_trie s) (owner k) (text (static names))) as Hnd.
  specialize (Hft (d_trie s)).
  set (tops := find_topics (d_trie s) (owner k) (text (static names))) in *.
  pose proof Hg as [Hc (Hne & Hok & Hlen) Htop Hlim Hclash Hgt Hgw Hgc].
  unfold db_get. rewrite (iv_closed _ _ _ _ _ _ _ _ _ _ _ Hi).
  destruct (Nat.eqb_spec (length (q_topic q)) 0) as [E0|_]; [apply length_zero_iff_nil in E0; contradiction|].
  destruct (N.ltb_spec maxTopicLength (N.of_nat (length (q_topic q)))); [lia|].
  rewrite Hqk. fold (owner k). cbv zeta. rewrite Hpl, Hqw.
  change (trie_lookup (d_trie s) (t_parts (add_contract (owner k) (parse_topic (owner k) (q_topic q))))
            (t_depth (add_contract (owner k) (parse_topic (owner k) (q_topic q))))
            (t_type (add_contract (owner k) (parse_topic (owner k) (q_topic q))))) with (find_topics (d_trie s) (owner k) (q_topic q)).
  rewrite Hft.
  assert (Hpt : Permutation (map fst (g_topics g0 tops)) (map fst tops)) by apply Permutation_map, Hgt.
  assert (Hany2 : forall m, In m l -> of_any (map fst (g_topics g0 tops)) m = asked k names (gm_sent m)).
  { intros m Hm. rewrite <- Hany by exact Hm. unfold of_any. apply eq_true_iff_eq. rewrite !existsb_exists. split; intros (h & Hh & E); exists h; (split; [|exact E]).
    - now apply (Permutation_in _ Hpt).
    - now apply (Permutation_in _ (Permutation_sym Hpt)). }
  assert (Hcount : length (filter (of_any (map fst (g_topics g0 tops))) l) = length (filter (asked k names) (map gm_sent l))).
  { rewrite filter_map, map_length. f_equal. apply filter_ext_in. exact Hany2. }
  destruct (topics_since c s l g off H first M T e t now g0 L cut Hi Hag Hnow Hgw (g_topics g0 tops) []) as (res & -> & Hlr & Hin & Hp).
  { now apply (Permutation_NoDup (Permutation_sym Hpt)). }
  { apply Forall_forall. intros y Hy. rewrite Forall_forall in Hoff. apply Hoff. now apply (Permutation_in _ (Hgt tops)). }
  { cbn [length]. lia. }
  cbn [app]. destruct (choose_seqs l (seq_desc res)) with (P := fun m => asked k names (gm_sent m) = true) as (sel & Esel & Hsin & Hsa).
  { intros q0 Hq. apply (Permutation_in _ (seq_desc_perm res)) in Hq. destruct (Hin q0 Hq) as (m & Hm & _ & ->). eauto. }
  { intros q0 Hq. apply (Permutation_in _ (seq_desc_perm res)) in Hq. destruct (Hin q0 Hq) as (m & Hm & Ha & ->). exists m. split; [exact Hm|]. split; [|reflexivity].
    now rewrite Hany2 in Ha by exact Hm. }
  assert (Hso : Forall (fun m => s_owner (gm_sent m) = owner k) sel).
  { eapply Forall_impl; [|exact Hsa]. cbv beta. intros m Ha. unfold asked in Ha. apply andb_true_iff in Ha as [Ha _]. now apply N.eqb_eq. }
  assert (Lsel : length sel = length res) by (rewrite <- (Permutation_length (seq_desc_perm res)), <- Esel, map_length; reflexivity).
  rewrite <- Esel.
  destruct (selection_since c s l g M (owner k) sel (g_cap g0 (map gm_seq sel)) L cut Hl (iv_mem _ _ _ _ _ _ _ _ _ _ _ Hi) (iv_store _ _ _ _ _ _ _ _ _ _ _ Hi) Hsin Hso) as (s' & -> & Hmine).
  { rewrite Esel. apply seq_desc_sorted. }
  { etransitivity; [|apply Hgc]. now rewrite map_length. }
  { lia. }
  do 3 eexists. split; [reflexivity|]. destruct Hmine as (mm & -> & Hg0 & qr & qf & qb & Eqq).
  split; [eapply inv_mem; eauto|]. split; [reflexivity|]. split; [exists qr, qf, qb; now rewrite Eqq|]. split.
  { intros v Hv. apply in_map_iff in Hv as (m & <- & Hm). apply filter_In in Hm as [Hm Hfr]. apply in_map_iff. exists m. split; [reflexivity|]. apply filter_In. split; [now apply Hsin|].
    rewrite Forall_forall in Hsa. rewrite (Hsa m Hm). exact Hfr. }
  intros x Hf Hsp.
  set (want := filter (fun m => (asked k names (gm_sent m) && in_time now (gm_sent m) && fresh cut m)%bool) l).
  assert (Hres : Permutation (filter (fresh_q cut l) res) (map gm_seq want)).
  { rewrite Hp.
    - unfold want. apply Permutation_map. match goal with |- Permutation ?a ?b => enough (a = b) as -> by reflexivity end. apply filter_ext_in.
      intros m Hm. now rewrite Hany2.
    - intros h Ef Hh. apply (Permutation_in _ Hpt) in Hh. destruct (Htm h Hh) as (m & Hm & Eh & Ha).
      destruct (Hf h Ef) as (m' & Hm' & Eh' & ->). destruct (lp_clash _ _ _ Hl m' m Hm' Hm) as [E1 E2]; [congruence|].
      unfold spared in Hsp. unfold asked in Ha. rewrite E1, E2 in Hsp. rewrite Hsp in Ha. discriminate. }
  assert (E : filter (fresh cut) sel = rev want).
  { assert (Es0 : map gm_seq (filter (fresh cut) sel) = filter (fresh_q cut l) (seq_desc res)).
    { rewrite <- Esel, filter_map. f_equal. apply filter_ext_in. intros m Hm. unfold fresh_q. now rewrite (by_seq_in c l _ m Hl (Hsin m Hm)). }
    assert (Es : map gm_seq (filter (fresh cut) sel) = map gm_seq (rev want)).
    { rewrite Es0, map_rev. apply sorted_perm_eq.
      - rewrite <- Es0. assert (Hss : StronglySorted N.ge (map gm_seq sel)) by (rewrite Esel; apply seq_desc_sorted). clear - Hss.
        induction sel as [|m r IH]; cbn [map filter] in *; [constructor|]. inversion Hss as [|? ? Hr Hfo]; subst. destruct (fresh cut m); [|auto]. cbn [map].
        constructor; [auto|]. rewrite Forall_forall in *. intros y Hy. apply Hfo. apply in_map_iff in Hy as (z & <- & Hz). apply filter_In in Hz as [Hz _]. now apply in_map.
      - apply sorted_rev. apply sorted_filter. exact (lp_sorted _ _ _ Hl).
      - rewrite (filter_perm _ _ _ (seq_desc_perm res)), Hres. apply Permutation_rev. }
    assert (Hw : incl (rev want) l).
    { intros m Hm. apply in_rev in Hm. unfold want in Hm. now apply filter_In in Hm. }
    eapply map_seq_inj; [exact Hl| |exact Hw|exact Es]. intros m Hm. apply filter_In in Hm as [Hm _]. auto. }
  rewrite E, map_rev. reflexivity.
Qed.

(** * The ages along a session *)
Lemma aged_put c s l g off H first M T e t m : inv c s l g off H first M T e t -> gm_seq m = (d_seq s + 1)%N -> aged l H -> aged (l ++ [m]) H.
Proof.
  intros Hi Em Ha h x m' Hx Hm' Ew. apply in_app_iff in Hm' as [Hm'|[<-|[]]]; [eauto|]. exfalso.
  pose proof (wp_hist _ _ _ _ _ _ _ _ (iv_win _ _ _ _ _ _ _ _ _ _ _ Hi) h) as Hp.
  assert (In (fst x) (map gm_we (filter (stored_of g h) l))) as Hin by (apply (Permutation_in _ Hp); now apply in_map).
  apply in_map_iff in Hin as (m0 & E0 & Hm0). apply filter_In in Hm0 as [Hm0 _].
  pose proof (lp_below _ _ _ (iv_list _ _ _ _ _ _ _ _ _ _ _ Hi)) as Hb. rewrite Forall_forall in Hb. specialize (Hb m0 Hm0).
  rewrite <- Ew in E0. apply (f_equal w_seq) in E0. cbn [gm_we w_seq] in E0. lia.
Qed.
Lemma timed_later l sl t t' : t <= t' -> timed l sl t -> timed l sl t'.
Proof.
  intros Ht. unfold timed. induction 1 as [|m x l sl (A & B & C) _ IH]; constructor; [|exact IH]. repeat split; auto. lia.
Qed.
Lemma timed_sent l sl t : timed l sl t -> map snd sl = map gm_sent l.
Proof. induction 1 as [|m x l sl (A & _) _ IH]; [reflexivity|]. cbn [map]. now rewrite A, IH. Qed.
Lemma timed_le l sl t m : timed l sl t -> In m l -> uid_time (gm_id m) <= unix t.
Proof.
  induction 1 as [|m' x l sl (_ & B & C) _ IH]; intros Hm; [contradiction|]. destruct Hm as [<-|Hm]; [|auto]. rewrite B. now apply unix_mono.
Qed.
Lemma timed_filter l sl t (f : gmsg -> bool) (f' : Z * sent -> bool) : timed l sl t ->
  (forall m x, gm_sent m = snd x -> uid_time (gm_id m) = unix (fst x) -> f m = f' x) ->
  map (fun m => s_payload (gm_sent m)) (filter f l) = map (fun x => s_payload (snd x)) (filter f' sl).
Proof.
  intros H Hf. induction H as [|m x l sl (A & B & _) _ IH]; [reflexivity|]. cbn [filter]. rewrite (Hf m x A B).
  destruct (f' x); [cbn [map]; now rewrite A, IH|exact IH].
Qed.

(** * Queries of the two kinds *)
Lemma static_levels names : Forall name_ok names -> Forall level_ok (pt_levels (static names)).
Proof. intros H. cbn. rewrite Forall_map. exact H. Qed.
Lemma static_ne names : names <> [] -> Forall name_ok names -> text (static names) <> [].
Proof.
  intros Hne Hok. unfold text, static. cbn [pt_levels pt_multi]. rewrite app_nil_r, map_map. cbn [level_text]. rewrite map_id. destruct names as [|n r]; [contradiction|].
  inversion Hok as [|? ? [Hn _] _]; subst. destruct r; cbn [join]; [exact Hn|]. destruct n; [contradiction|discriminate].
Qed.
Lemma opt_key names txt : names <> [] -> Forall name_ok names -> txt <> [] -> Forall no_sign txt ->
  parse_key (last_topic names txt) = (text (static names), [108; 97; 115; 116; 61]%N ++ txt).
Proof.
  intros Hne Hok Ht Hn. unfold parse_key, last_topic. change ([63; 108; 97; 115; 116; 61]%N ++ txt) with (cQuest :: [108; 97; 115; 116; 61]%N ++ txt).
  rewrite fields_two; [|now apply static_ne|now apply text_noquest, static_levels].
  rewrite fields_one; [reflexivity|discriminate|]. apply Forall_app. split; [repeat constructor; discriminate|].
  eapply Forall_impl; [|exact Hn]. intros b (Hb & _). exact Hb.
Qed.
Lemma opt_find names txt tr k : names <> [] -> Forall name_ok names -> txt <> [] -> Forall no_sign txt ->
  find_topics tr k (last_topic names txt) = find_topics tr k (text (static names)).
Proof.
  intros Hne Hok Ht Hn. unfold find_topics, filed. unfold add_contract, parse_topic.
  rewrite (opt_key names txt Hne Hok Ht Hn).
  assert (E : parse_key (text (static names)) = (text (static names), [])).
  { unfold parse_key. rewrite fields_one; [reflexivity|now apply static_ne|now apply text_noquest, static_levels]. }
  rewrite E. reflexivity.
Qed.
Lemma opt_options names txt k : names <> [] -> Forall name_ok names -> txt <> [] -> Forall no_sign txt ->
  t_options (parse_topic k (last_topic names txt)) = [(kLast, txt)].
Proof.
  intros Hne Hok Ht Hn. unfold parse_topic. rewrite (opt_key names txt Hne Hok Ht Hn). cbn [t_options]. unfold parse_options.
  rewrite fields_one; [|discriminate|].
  2:{ apply Forall_app. split; [repeat constructor; discriminate|]. eapply Forall_impl; [|exact Hn]. intros b (_ & Hb & _). exact Hb. }
  cbn [flat_map]. change ([108; 97; 115; 116; 61]%N ++ txt) with (kLast ++ cEq :: txt).
  rewrite fields_two; [|discriminate|repeat constructor; discriminate].
  rewrite fields_one; [reflexivity|exact Ht|]. eapply Forall_impl; [|exact Hn]. intros b (_ & _ & Hb). exact Hb.
Qed.

(** Seen from the stamped messages. *)
Definition from_cut (from : option Z) (cut : Z) : Prop := match from with Some b => cut = unix b | None => cut <= 0 end.
Lemma recent_fresh from cut m x : from_cut from cut -> uid_time (gm_id m) = unix (fst x) -> fresh cut m = recent from x.
Proof.
  intros Hc E. unfold fresh, recent. destruct from as [b|]; cbn [from_cut] in Hc.
  - rewrite Hc, E. reflexivity.
  - pose proof (uid_pos (gm_id m)). lia.
Qed.
Lemma get_given c s l sl g off H first M T e t now g0 k names limit q L cut from : inv c s l g off H first M T e t -> aged l H -> timed l sl t ->
  0 <= now < 2 ^ 32 * 1000000000 -> S_Session.get_ok c (map snd sl) g0 k names limit ->
  q_topic q <> [] -> (N.of_nat (length (q_topic q)) <= maxTopicLength)%N -> q_contract q = k -> q_win q = [] ->
  (forall tr, find_topics tr (owner k) (q_topic q) = find_topics tr (owner k) (text (static names))) ->
  parse_limit (c_def c) (c_max c) (q_limit q) (q_cutoff q) (topic_last (c_pd c) now (t_options (parse_topic (owner k) (q_topic q)))) = (L, cut) ->
  (if limit =? 0 then c_def c else limit) <= L -> from_cut from cut ->
  exists s' x, dstep c (Up s) (DoGet now g0 q) = (Up s', x) /\
    inv c s' l g off H first M T e t /\ d_seq s' = d_seq s /\ (exists qr qf qb, s' = set_mem s (set_query (d_mem s) qr qf qb)) /\ forall y, first_of first l y -> given y now k names from sl x.
Proof.
  intros Hi Ha Ht Hnow Hg H1 H2 H3 H4 H5 H6 H7 Hc. rewrite (timed_sent _ _ _ Ht) in Hg.
  destruct (get_since c s l g off H first M T e t now g0 k names limit q L cut Hi Ha Hnow Hg H1 H2 H3 H4 H5 H6 H7) as (s' & q' & items & E & Hi' & Eq & Hqs & Hin & Hx).
  exists s', (OGot (QItems items)). cbn [dstep]. rewrite E. cbn [alive_q]. split; [reflexivity|]. split; [exact Hi'|]. split; [exact Eq|]. split; [exact Hqs|].
  intros y Hy. exists items. split; [reflexivity|]. split.
  - rewrite (timed_filter l sl t _ (fun x => asked k names (snd x) && recent from x)%bool Ht) in Hin; [exact Hin|].
    intros m x E1 E2. now rewrite E1, (recent_fresh from cut m x Hc E2).
  - intros Hs. rewrite (Hx y Hy Hs). unfold expect_since. f_equal. apply (timed_filter l sl t); [exact Ht|].
    intros m x E1 E2. now rewrite E1, (recent_fresh from cut m x Hc E2).
Qed.

(** * Whole sessions *)
Lemma run_since c gens : setting_ok c gens -> forall ops s l sl g off H first M T e t outs w,
  inv c s l g off H first M T e t -> aged l H -> timed l sl t -> span_ok c t sl ops ->
  e + Z.of_nat (length ops) <= 130000 -> Z.of_N (d_seq s) + Z.of_nat (length ops) <= 130000 ->
  0 <= t ->
  drun c (Up s) (map (as_ldop c) ops) = (w, outs) ->
  exists x, (first = None -> Forall (fun o => lsyncs o = false) ops -> x = None) /\
    (forall h m, first = Some h -> In m l -> gm_hash m = h -> x = Some (s_owner (gm_sent m), s_pattern (gm_sent m))) /\
    spanned c x sl ops outs.
Proof.
  intros Hset. induction ops as [|o r IH]; intros s l sl g off H first M T e t outs w Hi Ha Hst Hok He Hq Ht E; cbn [map drun] in E.
  - injection E as <- <-. destruct first as [h|].
    + destruct (wp_first _ _ _ _ _ _ _ _ (iv_win _ _ _ _ _ _ _ _ _ _ _ Hi) h eq_refl) as (m & Hm & Eh).
      exists (Some (s_owner (gm_sent m), s_pattern (gm_sent m))). split; [discriminate|]. split; [|exact I].
      intros h' m' [= <-] Hm' Eh'. destruct (lp_clash _ _ _ (iv_list _ _ _ _ _ _ _ _ _ _ _ Hi) m' m Hm' Hm) as [-> ->]; [congruence|reflexivity].
    + exists None. split; [reflexivity|]. split; [discriminate|exact I].
  - cbn [span_ok] in Hok. destruct Hok as (Hclk & Hreq & Hrest). cbn [length] in He, Hq.
    destruct (dstep c (Up s) (as_ldop c o)) as [w1 x1] eqn:Es. destruct (drun c w1 (map (as_ldop c) r)) as [w2 xs] eqn:Er. injection E as <- <-.
    (* a Get of any kind *)
    assert (Hget : forall now k names from s', w1 = Up s' -> lclock t o = now -> stamps o = [] -> lsyncs o = false ->
      inv c s' l g off H first M T e t -> d_seq s' = d_seq s -> (forall y, first_of first l y -> given y now k names from sl x1) ->
      (forall y, spanned c y sl (o :: r) (x1 :: xs) = (given y now k names from sl x1 /\ spanned c y (sl ++ stamps o) r xs)) ->
      exists x, (first = None -> Forall (fun o => lsyncs o = false) (o :: r) -> x = None) /\
        (forall h m, first = Some h -> In m l -> gm_hash m = h -> x = Some (s_owner (gm_sent m), s_pattern (gm_sent m))) /\
        spanned c x sl (o :: r) (x1 :: xs)).
    { intros now k names from s' -> Ec Est Els Hi' Esq Hgv Hsp. rewrite Ec, Est, app_nil_r in *.
      pose proof (inv_later _ _ _ _ _ _ _ _ _ _ _ now (so_dur _ _ Hset) (proj1 Hclk) Hi') as Hi2.
      destruct (IH s' l sl g off H first M T e now xs w2 Hi2 Ha (timed_later _ _ _ _ (proj1 Hclk) Hst) Hrest) as (x & X1 & X2 & X3); try assumption; try lia.
      exists x. split; [|split].
      - intros Hf Hn. inversion Hn; subst. auto.
      - exact X2.
      - rewrite Hsp. split; [|exact X3]. apply Hgv. intros h Hf.
        destruct (wp_first _ _ _ _ _ _ _ _ (iv_win _ _ _ _ _ _ _ _ _ _ _ Hi) h Hf) as (m & Hm & Eh). exists m. eauto. }
    destruct o as [[now k p payload expires encrypt|now g0 k names limit|now| |now ord|now|]|now g0 k names limit txt|now g0 k names limit txt];
      cbn [as_ldop as_dop lclock clock] in *.
    + (* put *)
      destruct Hreq as [Hoff Hreq]. rewrite (timed_sent _ _ _ Hst) in Hreq. cbn [dstep] in Es.
      destruct (put_step c gens s l g off H first M T e t now k p payload expires encrypt Hset Hi (proj1 Hclk) ltac:(lia) Hreq)
        as (s' & ue & m & g' & Ep & Em & Eq & Hi' & Esq & _ & _ & _ & _ & _ & _ & _ & Eid). unfold put_arg in Ep. rewrite Ep in Es. injection Es as <- <-. cbn [alive] in Er.
      assert (Hst' : timed (l ++ [m]) (sl ++ [(now, mkSent (owner k) p expires payload)]) now).
      { apply Forall2_app; [exact (timed_later _ _ _ _ (proj1 Hclk) Hst)|]. constructor; [|constructor]. cbn [fst snd]. split; [exact Em|]. split; [|lia].
        rewrite Eid. assert (Hk : (owner k < 2 ^ 32)%N) by (unfold owner; destruct (k =? 0)%N; [reflexivity|apply Hreq]).
        destruct (C09_fields (unix now) (d_seq s + 1) (owner k)) as (L16 & _ & _ & Et).
        - unfold unix. split; [apply Z.div_le_lower_bound; lia|]. unfold Offset. pose proof (unix_range now ltac:(lia)) as Hur. unfold unix in Hur. lia.
        - lia.
        - exact Hk.
        - etransitivity; [|exact Et]. clear Et. revert L16. generalize (id_setContract (newID (unix now) (d_seq s + 1)) (owner k)). intros id L16.
          do 8 (destruct id as [|? id]; [discriminate L16|]). reflexivity. }
      destruct (IH s' (l ++ [m]) _ g' off H first M T e now xs w2 Hi' (aged_put _ _ _ _ _ _ _ _ _ _ _ _ Hi Esq Ha) Hst') as (x & X1 & X2 & X3); try assumption; try lia.
      exists x. split; [|split].
      * intros Hf Hn. inversion Hn; subst. auto.
      * intros h m' Hf Hm'. apply (X2 h m' Hf). apply in_app_iff. now left.
      * cbn [spanned stamps]. split; [reflexivity|]. exact X3.
    + (* get *)
      pose proof Hreq as [_ (Hne & Hnm & _) Htl _ _ _ _ _].
      destruct (get_given c s l sl g off H first M T e t now g0 k names limit (mkQ (text (static names)) k limit 0 [])
                  (if limit =? 0 then c_def c else limit) 0 None Hi Ha Hst ltac:(lia) Hreq) as (s' & x & E & Hi' & Eq & _ & Hgv).
      { now apply static_ne. } { exact Htl. } { reflexivity. } { reflexivity. } { reflexivity. }
      { cbn [q_topic q_limit q_cutoff]. rewrite no_options; [reflexivity|now apply static_levels|now apply static_ne]. }
      { reflexivity. } { cbn. lia. }
      rewrite E in Es. injection Es as <- <-. eapply (Hget now k names None s'); eauto.
    + (* tick *)
      cbn [dstep] in Es. injection Es as <- <-. cbn [stamps sends map] in Hrest. rewrite app_nil_r in Hrest. destruct (tick_step c gens s l g off H first M T e t now Hset Hi (proj1 Hclk)) as (g' & Hi' & _).
      destruct (IH _ l sl g' off H first M T e now xs w2 Hi' Ha (timed_later _ _ _ _ (proj1 Hclk) Hst) Hrest) as (x & X1 & X2 & X3); try assumption; try lia.
      { cbn [set_mem d_seq]. lia. }
      exists x. split; [intros Hf Hn; inversion Hn; subst; auto|]. split; [exact X2|]. cbn [spanned stamps sends map]. rewrite app_nil_r. auto.
    + (* commit *)
      cbn [dstep] in Es. injection Es as <- <-. cbn [stamps sends map] in Hrest. rewrite app_nil_r in Hrest. pose proof (commit_step _ _ _ _ _ _ _ _ _ _ _ Hi) as Hi'.
      destruct (IH _ l sl g off H first M T e t xs w2 Hi' Ha Hst Hrest) as (x & X1 & X2 & X3); try assumption; try lia.
      { cbn [set_mem d_seq]. lia. }
      exists x. split; [intros Hf Hn; inversion Hn; subst; auto|]. split; [exact X2|]. cbn [spanned stamps sends map]. rewrite app_nil_r. auto.
    + (* sync *)
      cbn [dstep] in Es. cbn [stamps sends map] in Hrest. rewrite app_nil_r in Hrest.
      destruct (sync_step c gens s l g off H first M T e t now ord Hset Hi (proj1 Hclk) ltac:(lia) ltac:(lia) Hreq)
        as (s' & g' & off' & H' & first' & M' & T' & Ey & Hi' & Eq & Hf' & Hfr & _). rewrite Ey in Es. injection Es as <- <-. cbn [alive] in Er.
      assert (Ha' : aged l H').
      { destruct Hfr as [(_ & _ & _ & _ & -> & _)|(w' & Hfr & _)]; [exact Ha|]. intros h x m Hx Hm Ew.
        destruct (frees_times _ _ _ _ _ _ _ _ _ Hfr h x Hx) as [Hx'|Hx']; [eapply Ha; eauto|]. rewrite Hx'.
        etransitivity; [exact (timed_le _ _ _ _ Hst Hm)|]. apply unix_mono. lia. }
      destruct (IH s' l sl g' off' H' first' M' T' (e + 1) now xs w2 Hi' Ha' (timed_later _ _ _ _ (proj1 Hclk) Hst) Hrest) as (x & X1 & X2 & X3); try assumption; try lia.
      exists x. split; [intros Hf Hn; inversion Hn; discriminate|]. split.
      * intros h m Hf. apply X2. rewrite Hf'; [exact Hf|congruence].
      * cbn [spanned stamps sends map]. rewrite app_nil_r. auto.
    + (* new id *)
      cbn [dstep] in Es. cbn [stamps sends map] in Hrest. rewrite app_nil_r in Hrest.
      destruct (new_id_step c s l g off H first M T e t now Hi ltac:(lia)) as [Hi' Eq].
      destruct (db_new_id s now) as [s' id]. cbn [fst] in *. injection Es as <- <-.
      pose proof (inv_later _ _ _ _ _ _ _ _ _ _ _ now (so_dur _ _ Hset) (proj1 Hclk) Hi') as Hi2.
      destruct (IH s' l sl g off H first M T e now xs w2 Hi2 Ha (timed_later _ _ _ _ (proj1 Hclk) Hst) Hrest) as (x & X1 & X2 & X3); try assumption; try lia.
      exists x. split; [intros Hf Hn; inversion Hn; subst; auto|]. split; [exact X2|]. cbn [spanned stamps sends map]. rewrite app_nil_r. auto.
    + (* count *)
      cbn [dstep] in Es. injection Es as <- <-. cbn [stamps sends map] in Hrest. rewrite app_nil_r in Hrest.
      destruct (IH s l sl g off H first M T e t xs w2 Hi Ha Hst Hrest) as (x & X1 & X2 & X3); try assumption; try lia.
      exists x. split; [intros Hf Hn; inversion Hn; subst; auto|]. split; [exact X2|]. cbn [spanned stamps sends map]. rewrite app_nil_r. auto.
    + (* WithLast *)
      pose proof Hreq as [_ (Hne & Hnm & _) Htl _ _ _ _ _].
      set (lim := match c_pd c txt with Some _ => at_most defaultQueryLimit maxQueryLimit limit | None => limit end) in *.
      set (cut := match c_pd c txt with Some d => unix (now - d) | None => 0 end).
      assert (Eq0 : last_query c now k names limit txt = mkQ (text (static names)) k lim cut []).
      { unfold last_query, with_last, lim, cut. destruct (c_pd c txt) as [d|]; [|reflexivity]. unfold at_most.
        destruct (limit =? 0); [reflexivity|]. destruct (Z.ltb_spec maxQueryLimit limit); f_equal; lia. }
      rewrite Eq0 in Es.
      destruct (get_given c s l sl g off H first M T e t now g0 k names lim (mkQ (text (static names)) k lim cut [])
                  (if lim =? 0 then c_def c else lim) cut (back c now txt) Hi Ha Hst ltac:(lia) Hreq) as (s' & x & E & Hi' & Eq & _ & Hgv).
      { now apply static_ne. } { exact Htl. } { reflexivity. } { reflexivity. } { reflexivity. }
      { cbn [q_topic q_limit q_cutoff]. rewrite no_options; [reflexivity|now apply static_levels|now apply static_ne]. }
      { lia. } { unfold from_cut, back, cut. destruct (c_pd c txt); [reflexivity|lia]. }
      rewrite E in Es. injection Es as <- <-. eapply (Hget now k names (back c now txt) s'); eauto.
    + (* last in the topic *)
      destruct Hreq as (Hreq & Htl & Htn & Hts & Hti & Htd).
      pose proof Hreq as [_ (Hne & Hnm & _) _ Hlim _ _ _ _].
      destruct (c_pd c txt) as [d|] eqn:Ed; [|congruence].
      destruct (parse_limit (c_def c) (c_max c) limit 0 (Some (unix (now - d), 0))) as [L cut] eqn:Epl.
      destruct (get_given c s l sl g off H first M T e t now g0 k names (at_most (c_def c) (c_max c) limit) (mkQ (last_topic names txt) k limit 0 [])
                  L cut (back c now txt) Hi Ha Hst ltac:(lia) Hreq) as (s' & x & E & Hi' & Eq & _ & Hgv).
      { cbn [q_topic]. unfold last_topic. intros Ee. apply app_eq_nil in Ee as [Ee _]. now apply (static_ne names) in Ee. } { exact Htl. } { reflexivity. } { reflexivity. }
      { intros tr. cbn [q_topic]. now apply opt_find. }
      { cbn [q_topic q_limit q_cutoff]. rewrite opt_options by assumption. unfold topic_last, get_option.
        destruct (list_eq_dec N.eq_dec kLast kLast) as [_|]; [|congruence]. rewrite Hti. cbn [Z.ltb Z.compare]. unfold dur0. rewrite Ed. exact Epl. }
      { unfold parse_limit in Epl. injection Epl as EL Ec0. revert EL Hlim. unfold at_most. clear.
        destruct (Z.eqb_spec limit 0) as [->|Hl0]; cbn [andb].
        - destruct (Z.eqb_spec (c_def c) 0); lia.
        - destruct (Z.ltb_spec (c_max c) limit), (Z.ltb_spec (c_max c) 0), (Z.ltb_spec limit 0); cbn [orb]; intros EL Hlim; repeat match goal with H : context [?a =? 0] |- _ => destruct (Z.eqb_spec a 0) | |- context [?a =? 0] => destruct (Z.eqb_spec a 0) end; lia. }
      { unfold parse_limit in Epl. injection Epl as EL Ec0. unfold from_cut, back. rewrite Ed. now symmetry. }
      rewrite E in Es. injection Es as <- <-. eapply (Hget now k names (back c now txt) s'); eauto.
Qed.

Lemma session_since c gens t ord immut enc ops : setting_ok c gens -> 0 <= t -> span_ok c t [] ops -> (N.of_nat (length ops) <= 130000)%N ->
  exists first outs, snd (drun c (Down no_files) (DoOpen gens t ord immut enc :: map (as_ldop c) ops)) = OOpened true :: outs /\
    (Forall (fun o => lsyncs o = false) ops -> first = None) /\ spanned c first [] ops outs.
Proof.
  intros Hset Ht Hok Hn. destruct (open_step c gens t ord immut enc Hset Ht) as (s & Eo & Eq & Hi & _).
  cbn [drun dstep]. rewrite Eo. destruct (drun c (Up s) (map (as_ldop c) ops)) as [w outs] eqn:Er. cbn [snd].
  destruct (run_since c gens Hset ops s [] [] _ _ _ _ _ _ _ _ outs w Hi ltac:(intros h x m []) ltac:(constructor) Hok ltac:(lia) ltac:(lia) Ht Er) as (x & X1 & _ & X3).
  exists x, outs. split; [reflexivity|]. split; [auto|exact X3].
Qed.
