(** Proofs about restarts: Close and Open. *)
From Verif Require Import M_Bytes P_Bytes M_File M_Hash M_Bloom M_Entry P_Codec M_MsgId M_Mac P_Mac M_Topic M_Trie M_Query M_IndexBlock M_Lease
  M_BlockRange M_BlockStore M_WinBlock M_Wal M_MemDB M_Window M_Get M_DBInfo M_DB S_Trie S_Window S_BlockStore S_MemDB S_Get S_DB S_Session S_Restart
  P_Topic P_Trie P_Trie2 P_Trie3 P_BlockStore2 P_BlockStore3 P_BlockStore4 P_Window2 P_Window3 P_Window4 P_WindowEx P_WinOpen P_Get P_MemBlock P_MemDB P_MemGet P_MemLog P_MemWal P_MemKeep P_MemReopen P_DB
  P_Session P_Session2 P_Session3 P_Session4 P_Restart P_Restart2 P_Restart3 P_Restart4 P_Count P_Times.
From Coq Require Import Lia ZifyBool ZifyNat ZifyN Permutation Sorted.
Open Scope Z_scope.

Lemma rec_blocks c gens l e now ord : setting_ok c gens -> 0 <= now < 2 ^ 32 * 1000000000 -> e <= 130000 ->
  (forall m, Permutation (ord m) m) -> forall ts st done g off H first M T t,
  recovering c st l done g off H first M T e t -> moving c l ts (d_mem (ss_db st)) g (mkW (ss_ww st) off H first T) ->
  t <= now -> Forall (fun t0 => t0 < g_cur g) ts ->
  exists st' done' g' off' H' first' M' T', recover_blocks now ord (st, []) ts = Some (st', [], true) /\
    recovering c st' l done' g' off' H' first' M' T' e now /\ d_seq (ss_db st') = d_seq (ss_db st) /\ g_cur g' = g_cur g /\
    (first <> None -> first' = first) /\
    frees now l (d_mem (ss_db st)) g (mkW (ss_ww st) off H first T) ts (d_mem (ss_db st')) g' (mkW (ss_ww st') off' H' first' T') /\
    (forall f mi, w_lease (ss_bw st) = newLease f mi -> d_lease (ss_db st) = newLease f mi -> d_lease (ss_db st') = newLease f mi) /\
    (ss_count st = 0%N -> Z.of_N (d_count (ss_db st)) = nstored g l -> Z.of_N (d_count (ss_db st')) = nstored g' l).
Proof.
  intros Hset Hnow He Hord. induction ts as [|t0 ts IH]; intros st done g off H first M T t Hr Hm Ht Hts; cbn [recover_blocks].
  - exists st, done, g, off, H, first, M, T. split; [reflexivity|]. split; [|split; [reflexivity|split; [reflexivity|split; [auto|split; [constructor|split; auto]]]]].
    destruct Hr as [S1 S2 S3 S4 S5 S6 S7 S8 S9 S10 S11 S12 S13 S14 S15 S16 S17 S18 S19]. constructor; auto.
    + etransitivity; [exact S11|]. apply trunc_mono; [exact (so_dur _ _ Hset)|exact Ht].
    + etransitivity; [exact S12|]. now apply unix_mono.
  - inversion Hts as [|? ? Ht0 Hts']; subst.
    destruct (rec_block c gens st l done ts g off H first M T e t now ord t0 Hset Hr Hm Ht Hnow Ht0 He Hord)
      as (st1 & done1 & g1 & off1 & H1 & first1 & M1 & T1 & E1 & S1 & C1 & Q1 & F1 & G1 & X1 & L1 & N1). rewrite E1.
    destruct (IH st1 done1 g1 off1 H1 first1 M1 T1 now S1 G1 (Z.le_refl _)) as (st2 & done2 & g2 & off2 & H2 & first2 & M2 & T2 & E2 & S2 & Q2 & C2 & X2 & F2 & L2 & N2).
    { rewrite C1. exact Hts'. }
    exists st2, done2, g2, off2, H2, first2, M2, T2. split; [exact E2|]. split; [exact S2|]. split; [congruence|]. split; [congruence|]. split; [|split; [|split]].
    + intros Hf. rewrite X2; [now apply X1|]. rewrite X1 by exact Hf. exact Hf.
    + eapply frees_one; eassumption.
    + intros f mi Hf1 Hf2. destruct (L1 f mi Hf1 Hf2). now apply L2.
    + intros Hc1 Hc2. destruct (N1 Hc1 Hc2). now apply N2.
Qed.

(** When nothing is left in memory. *)
Lemma recovered c gens s st l done g off H first M T e now immut info lf cnt q : setting_ok c gens -> list_part c l q -> 0 <= now -> c_dur (c_mem c) <= now ->
  recovering c st l done g off H first M T e now -> moving c l [] (d_mem (ss_db st)) g (mkW (ss_ww st) off H first T) ->
  d_lease (ss_db st) = newLease (c_find c) (c_min c) -> (forall k u v, g_slot g k <> Held u v) -> g_cur g = trunc now (c_dur (c_mem c)) ->
  pending (d_mem (ss_db st)) = [(now, trunc now (c_dur (c_mem c)))] ->
  s = mkDB (d_mem (ss_db st)) (d_tw (ss_db st)) (d_trie (ss_db st)) info (d_win (ss_db st)) (d_index (ss_db st)) (d_data (ss_db st)) lf (d_lease (ss_db st)) q cnt (d_enc (ss_db st)) 0 immut false ->
  inv c s l g off H first M T (e + 1) now /\ kept c s l g off H first now.
Proof.
  intros Hset S3 Hnow Hdur [S1 S2 _ S4 [(rest & El) Hd] S6 S7 S8 S9 S10 S11 S12 S13 S14 S15 S16 S17 S18 S19] [M1 M2 M3 M3' M4 M5 M6 M7 M8 M9 M10] Hls Hno Hcur Hp ->.
  assert (Hall : forall m, In m l -> in_store g m = true).
  { intros m Hm. unfold in_store. destruct (mp_all _ _ _ _ S6 m Hm) as [->|(u & E)]; [reflexivity|]. exfalso. exact (Hno _ _ _ E). }
  assert (rest = []) as ->.
  { destruct rest as [|x rest]; [reflexivity|]. exfalso. pose proof (sorted_nodup _ (lp_sorted _ _ _ S3)) as Hn. apply NoDup_map_inv in Hn. rewrite El in Hn.
    apply (NoDup_remove_2 _ _ _ Hn). apply in_app_iff. left. apply Hd. assert (Hx : In x l) by (rewrite El; apply in_app_iff; right; now left). split; [exact Hx|auto]. }
  rewrite app_nil_r in El. subst done.
  split.
  - constructor; cbn [d_closed d_enc d_seq d_mem d_tw d_win d_index d_data d_lease d_trie]; auto.
    rewrite S7. split; [constructor|]. intros t h. cbn [afind]. apply filter_none. intros m Hm. unfold held_at.
    destruct (g_slot g (gm_seq m)) as [|u v|] eqn:E; rewrite ?andb_false_r; try reflexivity. exfalso. exact (Hno _ _ _ E).
  - constructor; cbn [d_closed d_enc d_seq d_mem d_tw d_win d_index d_data d_lease d_trie]; auto.
    + destruct M2 as (L & M2). exists L. split; [exact M2|]. rewrite Hp. intros q0 [<-|[]]. cbn [fst]. lia.
    + rewrite Hcur. pose proof (so_dur _ _ Hset) as Hd0. unfold trunc. assert (1 <= now / c_dur (c_mem c)); [|nia]. apply Z.div_le_lower_bound; lia.
    + intros k u v Hk. exfalso. exact (Hno _ _ _ Hk).
    + rewrite S19. exact M7.
Qed.

Lemma split_sorted (P : gmsg -> bool) l : StronglySorted N.lt (map gm_seq l) ->
  (forall a b, In a l -> In b l -> P a = true -> P b = false -> (gm_seq a < gm_seq b)%N) -> l = filter P l ++ filter (fun x => negb (P x)) l.
Proof.
  induction l as [|x l IH]; cbn [map filter]; intros Hs Ho; [reflexivity|]. inversion Hs as [|? ? Hs' Hf]; subst.
  assert (IH' := IH Hs' (fun a b Ha Hb => Ho a b (or_intror Ha) (or_intror Hb))).
  destruct (P x) eqn:E; cbn [negb app]; [now f_equal|].
  assert (En : filter P l = []).
  { apply filter_none. intros y Hy. destruct (P y) eqn:Ey; [|reflexivity]. exfalso. specialize (Ho y x (or_intror Hy) (or_introl eq_refl) Ey E).
    rewrite Forall_forall in Hf. specialize (Hf (gm_seq y) (in_map gm_seq _ _ Hy)). lia. }
  rewrite En in *. cbn [app] in *. now f_equal.
Qed.

(** * What is waiting to be released, and the count, after Open *)
Definition ones (m : mdb) : Prop := forall t v, afind Z.eqb (m_marks m) t = Some v -> v = 1.
Lemma add_ones m t : ones m -> ones (mark_add m t) /\ afind Z.eqb (m_marks (mark_add m t)) t = Some 1.
Proof.
  intros H. cbn [mark_add set_marks m_marks]. split; [|now rewrite (afind_aset_same _ Zeqb_iff)].
  intros u v. cbn [mark_add set_marks m_marks]. destruct (Z.eq_dec t u) as [<-|Hn]; [rewrite (afind_aset_same _ Zeqb_iff); congruence|].
  rewrite (afind_aset_other _ Zeqb_iff) by exact Hn. apply H.
Qed.
Lemma release_ones m t : ones m -> ones (mark_release m t).
Proof.
  intros H. unfold mark_release. destruct (afind Z.eqb (m_marks m) t) as [r|] eqn:E; [|exact H]. rewrite (H t r E). change (0 <? 1 - 1) with false. cbv iota.
  intros u v. cbn [set_marks m_marks]. destruct (Z.eq_dec t u) as [<-|Hn].
  - rewrite (afind_adel_same Z.eqb). discriminate.
  - rewrite (afind_adel_other Z.eqb Zeqb_iff) by exact Hn. apply H.
Qed.
Lemma ones_same m m' : m_marks m' = m_marks m -> ones m -> ones m'.
Proof. unfold ones. now intros ->. Qed.
Lemma block_put_marks m p k v m' : block_put m p k v = Some m' -> m_marks m' = m_marks m.
Proof.
  unfold block_put. destruct (nth_error (m_blocks m) p) as [b|]; [|discriminate]. destruct (nth_error (m_bufs m) (mb_buf b)); [|discriminate].
  intros [= <-]. reflexivity.
Qed.
Lemma add_filter_marks c m t k : m_marks (addTimeFilter c m t k) = m_marks m.
Proof. unfold addTimeFilter. destruct (nth_error (m_filters m) (c_bkey c k)); reflexivity. Qed.
Lemma puts_marks c t p : forall log m m', fold_left (fun s e => match s with
    | None => None
    | Some s => match block_put s p (false, fst e) (snd e) with None => None | Some s' => Some (addTimeFilter c s' t (fst e)) end end) log (Some m) = Some m' ->
  m_marks m' = m_marks m.
Proof.
  induction log as [|e r IH]; intros m m'; cbn [fold_left]; [congruence|]. destruct (block_put m p (false, fst e) (snd e)) as [m1|] eqn:E.
  - intros H. rewrite (IH _ _ H), add_filter_marks. now apply block_put_marks in E.
  - intros H. exfalso. clear - H. induction r as [|x r IH]; cbn [fold_left] in H; [discriminate|auto].
Qed.
Lemma put_log_ones c m t id log m' : ones m -> recover_put c m t id log = Some m' -> ones m'.
Proof.
  intros H. unfold recover_put. destruct (M_MemDB.live _ t) as [p|]; [|discriminate].
  match goal with |- match ?x with _ => _ end = _ -> _ => destruct x as [m1|] eqn:E; [|discriminate] end.
  destruct (nth_error (m_blocks m1) p); [|discriminate]. intros [= <-]. apply release_ones. apply puts_marks in E.
  destruct (add_fields (mark_add m t) t None) as (_ & _ & _ & _ & _ & Ea).
  apply (ones_same (mark_add m t)); [|now apply add_ones]. cbn [set_block m_marks]. congruence.
Qed.
Lemma log_ones c t id : forall rs m log dels m' dels', ones m -> recover_log c m t id rs log dels = Some (m', dels') -> ones m'.
Proof.
  induction rs as [|r rs IH]; intros m log dels m' dels' H; cbn [recover_log]; [intros [= <- _]; exact H|].
  destruct (parse_log _ r) as [es|]; [|discriminate]. destruct (split_log es log dels) as [[log1 dels1]|]; [|discriminate].
  destruct (recover_put c m t id log1) as [m1|] eqn:E; [|discriminate]. apply IH. eapply put_log_ones; eassumption.
Qed.
Lemma logs_ones c : forall l m dels m' dels', ones m -> recover_logs c m l dels = Some (m', dels') -> ones m'.
Proof.
  induction l as [|[id [rs e]] l IH]; intros m dels m' dels' H; cbn [recover_logs]; [intros [= <- _]; exact H|].
  destruct (recover_log c m _ id rs [] dels) as [[m1 d1]|] eqn:E; [|discriminate]. apply log_ones in E; [|exact H]. destruct e; [now apply IH|intros [= <- _]; exact E|discriminate].
Qed.
Lemma forget_marks m t p k : m_marks (forget m t p k) = m_marks m.
Proof. unfold forget. destruct (nth_error (m_blocks m) p); [|reflexivity]. cbv zeta. cbn [mb_recs]. destruct (adel _ _ _); reflexivity. Qed.
Lemma dels_marks c : forall l m, m_marks (fold_left (recover_dels c) l m) = m_marks m.
Proof.
  assert (Hf : forall A (f : mdb -> A -> mdb) l m, (forall m x, m_marks (f m x) = m_marks m) -> m_marks (fold_left f l m) = m_marks m).
  { intros A f l. induction l as [|x l IH]; intros m H; cbn [fold_left]; [reflexivity|]. now rewrite IH, H. }
  intros l m. apply Hf. intros m0 d. unfold recover_dels. destruct (M_MemDB.live m0 (fst d)); apply Hf; intros m1 k.
  - destruct (rec_off m1 n (false, k)); [apply forget_marks|reflexivity].
  - destruct (newest c m1 k) as [[t p]|]; [apply forget_marks|reflexivity].
Qed.
Lemma open_ones c gens W now m : mem_open c gens W now = Some m -> ones m /\ afind Z.eqb (m_marks m) (trunc now (c_dur c)) = Some 1.
Proof.
  unfold mem_open. destruct (recover_logs c (mem_empty gens W) (replay W) []) as [[m1 d1]|] eqn:E; [|discriminate]. intros [= <-].
  apply logs_ones in E; [|intros t v; discriminate]. unfold newTinyLog. cbv zeta. set (m2 := fold_left (recover_dels c) d1 m1).
  assert (H2 : ones (addTimeBlock m2 (trunc now (c_dur c)) None)).
  { destruct (add_fields m2 (trunc now (c_dur c)) None) as (_ & _ & _ & _ & _ & Ea). apply (ones_same m1); [|exact E]. rewrite Ea. apply dels_marks. }
  destruct (add_ones _ (trunc now (c_dur c)) H2) as [H3 H4]. split; [exact H3|exact H4].
Qed.

(** The database right after Open: all slots but the new one are done with. *)
Definition fresh (c : dcfg) (now : Z) (s : db) (g : gstate) : Prop :=
  ones (d_mem s) /\ afind Z.eqb (m_marks (d_mem s)) (trunc now (c_dur (c_mem c))) = Some 1 /\
  (forall u, In u (m_released (d_mem s)) -> u < trunc now (c_dur (c_mem c))) /\ d_last s = 0%N /\ g_cur g = trunc now (c_dur (c_mem c)).

(** Open, whatever the info file says, of files that hold the messages [l]. *)
Lemma reopen_files c gens l n g off H first M T e now ord immut enc W L1 win index data f1 lf n0 cnt : setting_ok c gens ->
  list_part c l n -> raws l -> win_part win g l off H first T e -> owin (fview win) off H first ->
  store_part index data (newLease (c_find c) (c_min c)) g l M ->
  (forall k u v, g_slot g k = Held u v -> exists m, In m l /\ gm_seq m = k /\ v = gm_cache m) ->
  (forall m, In m l -> g_slot g (gm_seq m) = Freed \/ exists u, g_slot g (gm_seq m) = Held u (gm_cache m)) ->
  (forall k, g_slot g k = Freed -> exists m, In m l /\ gm_seq m = k) ->
  (forall m1 m2, In m1 l -> In m2 l -> in_store g m1 = true -> in_store g m2 = false -> (gm_seq m1 < gm_seq m2)%N) ->
  dwal W [] L1 -> StronglySorted N.lt (map rkey (logged L1)) ->
  (forall k t v, g_slot g k = Held t v <-> exists x, In x L1 /\ l_t x = t /\ In ((false, k), v) (l_recs x)) ->
  (forall x r, In x L1 -> In r (l_recs x) -> fst (fst r) = false /\ rec_ok r) ->
  (forall x, In x L1 -> l_id x < now /\ trunc (l_id x) (c_logint (c_mem c)) < trunc now (c_dur (c_mem c))) ->
  0 < c_logint (c_mem c) -> c_dur (c_mem c) <= now -> 0 <= now < 2 ^ 32 * 1000000000 -> T <= unix now -> e <= 130000 ->
  (forall h, (length (filter (of_hash h) l) <= entriesPerWindowBlock)%nat) -> (forall m, Permutation (ord m) m) ->
  open_header enc (match f1 with [] => None | b0 :: b => Some (b0 :: b) end) = OpenOk (mkInfo signature version 1 n0 cnt) ->
  lease_read (newLease (c_find c) (c_min c)) lf = RdOk (newLease (c_find c) (c_min c)) ->
  (n0 = 0%N -> l = []) ->
  exists s' g' off' H' first' M' T', db_open c gens now ord immut enc (mkF f1 win index data lf W) = Opened s' /\ d_seq s' = n0 /\
    inv c (set_seq s' n) l g' off' H' first' M' T' (e + 1) now /\ kept c (set_seq s' n) l g' off' H' first' now /\ (first <> None -> first' = first) /\
    (forall m, In m l -> in_store g' m = true) /\ m_queue (d_mem s') = [] /\ fresh c now s' g' /\
    (Z.of_N cnt = nstored g l -> Z.of_N (d_count s') = nstored g' l) /\
    (forall h x, In x (H' h) -> In x (H h) \/ snd x = unix now).
Proof.
  intros Hset Il K8 Iwin K9 Ist Ih Ia Ifr K7 D1 D2 D4 D5 Hnow1 Hli Hdur Hnow IT He Hsh Hord Ehd Elr Hz.
  destruct (keep_open (c_mem c) gens W L1 now (so_mem _ _ Hset) Hli D1 D2 D5 Hnow1)
    as (mm & sl & Em & Gm & Km & Eq & Eid & Hnf & Hsl & Hrel).
  assert (Hold : forall k u v, sl k = Held u v -> exists t' , g_slot g k = Held t' v).
  { intros k u v Hk. apply Hsl in Hk as (x & Hx & _ & Hr). exists (l_t x). apply D4. exists x. auto. }
  assert (Hnew : forall k u v, g_slot g k = Held u v -> exists t', sl k = Held t' v).
  { intros k u v Hk. apply D4 in Hk as (x & Hx & _ & Hr). eexists. apply Hsl. exists x. split; [exact Hx|]. split; [reflexivity|exact Hr]. }
  assert (Hold' : forall k u v, sl k = Held u v -> exists t' v', g_slot g k = Held t' v') by (intros k u v Hk; destruct (Hold _ _ _ Hk) as (t' & E); eauto).
  set (G1 := mkG (trunc now (c_dur (c_mem c))) true (refreed (g_slot g) sl)).
  pose proof (ginv_refreed _ _ _ _ _ _ Gm Hnf Hold') as Ginv. fold G1 in Ginv.
  pose proof (refreed_held _ _ Hold') as Hre.
  assert (Hin : forall m, in_store G1 m = in_store g m).
  { intros m. unfold in_store, G1, refreed; cbn [g_slot]. destruct (g_slot g (gm_seq m)); try reflexivity; destruct (sl (gm_seq m)) eqn:E; try reflexivity; exfalso; exact (Hnf _ E). }
  assert (Hso : forall h m, stored_of G1 h m = stored_of g h m) by (intros h m; unfold stored_of; now rewrite Hin).
  assert (Hns : nstored G1 l = nstored g l) by (unfold nstored; now rewrite (filter_ext _ _ Hin)).
  assert (Hshort : forall h, short (H h)).
  { intros h. unfold short. rewrite <- (map_length fst), (Permutation_length (wp_hist _ _ _ _ _ _ _ _ Iwin h)), map_length.
    etransitivity; [|apply (Hsh h)]. clear. induction l as [|x l IH]; [cbn; lia|]. cbn [filter]. unfold stored_of at 1, of_hash at 1.
    destruct (gm_hash x =? h)%N; cbn [andb]; [destruct (in_store g x); cbn [length]; lia|exact IH]. }
  destruct (load_open c l n g off H first T win index data Il K8 (wp_run _ _ _ _ _ _ _ _ Iwin) K9 Hshort
    (wp_hist _ _ _ _ _ _ _ _ Iwin) K7 (sp_read _ _ _ _ _ _ Ist)) as (tr & Etr & Htr1).
  destruct (open_owin win off H first T (wp_run _ _ _ _ _ _ _ _ Iwin) K9 Hshort) as (H2 & O1 & O2 & O3). cbv zeta in O1, O2.
  set (off2 := fun h => if old_first first h then 0 else off h) in *.
  set (info := match f1 with [] => info_marshal (mkInfo signature version 0 0 0) | b0 :: b => b0 :: b end).
  set (s0 := mkDB mm [] tr info win index data lf (newLease (c_find c) (c_min c)) n0 cnt 1 0 immut false).
  assert (Eopen : db_open c gens now ord immut enc (mkF f1 win index data lf W) = match recover now ord s0 with None => OpenPanic
    | Some s => Opened (mkDB (d_mem s) (d_tw s) (d_trie s) (d_info s) (d_win s) (d_index s) (d_data s) (d_lfile s) (d_lease s) (d_seq s) (d_count s) (d_enc s) 0 immut false) end).
  { unfold db_open. cbn [f_info f_wal f_index f_data f_win f_lease]. rewrite Ehd. cbn [i_sequence i_count i_encryption].
    rewrite Em, Etr, Elr. fold info. reflexivity. }
  assert (Hrec : forall b, newBlockWriter index data (newLease (c_find c) (c_min c)) = Some b -> store b M -> w_offset b <= 2 ^ 32 * nstored g l ->
    recovering c (mkSS s0 (newWindowWriter win) b 0 0 false) l (filter (in_store g) l) G1 off2 H2 first M T e now).
  { intros b Eb Hb Hbo. constructor; cbn [ss_db ss_ww ss_bw ss_upper ss_count ss_err1 s0 d_closed d_enc d_seq d_mem d_tw d_win d_index d_data d_lease d_trie]; auto.
    - now exists n.
    - split; [eexists; apply (split_sorted (in_store g)); [exact (lp_sorted _ _ _ Il)|exact K7]|]. intros x. rewrite filter_In, Hin. reflexivity.
    - split.
      + exact Ginv.
      + reflexivity.
      + intros k u v Hk. apply Hre in Hk. apply Hold in Hk as (u' & Hk). exact (Ih _ _ _ Hk).
      + intros m Hm. destruct (Ia m Hm) as [E|(u & E)]; [left; unfold G1, refreed; cbn [g_slot]; now rewrite E|].
        right. destruct (Hnew _ _ _ E) as (u' & E'). exists u'. now apply Hre.
      + intros k Hk. unfold G1, refreed in Hk. cbn [g_slot] in Hk. destruct (g_slot g k) eqn:E; [exfalso; exact (Hnf _ Hk)|exfalso; exact (Hnf _ Hk)|]. exact (Ifr _ E).
    - destruct Iwin as [W1 W2 W3 W4]. split; auto.
      + rewrite Hns. lia.
      + intros h. rewrite (filter_ext _ _ (Hso h)), <- (W3 h). apply Permutation_map, O3.
    - split.
      + exists b. split; [exact Eb|]. split; [exact Hb|]. now rewrite Hns.
      + destruct (sp_ghost _ _ _ _ _ _ Ist) as [X1 X2]. split.
        * intros m Hm. rewrite Hin. now apply X1.
        * intros k Hk. unfold G1, refreed; cbn [g_slot]. now rewrite (X2 k Hk).
      + intros m Hm. rewrite Hin. exact (sp_read _ _ _ _ _ _ Ist m Hm).
    - cbn [G1 g_cur]. lia.
    - now rewrite Hns.
    - rewrite Hns. exact (wp_idx _ _ _ _ _ _ _ _ Iwin). }
  assert (Hmov : moving c l (allRefs mm) mm G1 (mkW (newWindowWriter win) off2 H2 first T)).
  { split; cbn [wq_w wq_off wq_H wq_first].
    - exact Ginv.
    - eexists. eapply keep_same; [exact Km|exact Hre|reflexivity..].
    - intros k u v Hk. apply Hre in Hk. apply Hold in Hk as (u' & Hk). destruct (Ih _ _ _ Hk) as (m & Hm & E & _). eauto.
    - intros m Hm. destruct (Ia m Hm) as [E|(u & E)]; unfold G1, refreed; cbn [g_slot]; rewrite E; [discriminate|].
      destruct (Hnew _ _ _ E) as (u' & ->). discriminate.
    - intros h. rewrite (filter_ext _ _ (Hso h)), <- (wp_hist _ _ _ _ _ _ _ _ Iwin h). apply Permutation_map, O3.
    - intros m1 m2 H1 H3. rewrite !Hin. now apply K7.
    - exact O2.
    - exact O2.
    - apply refs_sorted.
    - intros k u v Hk. left. unfold allRefs. apply sort_asc_in. apply Hre in Hk. apply Hsl in Hk as (x & Hx & E & _). apply Hrel. eauto.
    - intros u Hu. unfold allRefs in Hu. apply (proj1 (sort_asc_in _ _)) in Hu. apply Hrel in Hu as (x & Hx & ->). rewrite (gi_cur _ _ _ Ginv). cbn [G1 g_cur].
      destruct (Hnow1 x Hx). lia. }
  assert (Hpend : pending mm = [(now, trunc now (c_dur (c_mem c)))]) by (unfold pending; rewrite Eq, Eid, (gi_cur _ _ _ Ginv); reflexivity).
  destruct (sp_open _ _ _ _ _ _ Ist) as (b & Eb & Hb & Hbo).
  specialize (Hrec b Eb Hb Hbo).
  destruct (N.eq_dec n0 0) as [E0|E0].
  - (* nothing was ever put *)
    pose proof (Hz E0) as El0.
    assert (Hno : forall k u v, g_slot G1 k <> Held u v).
    { intros k u v Hk. apply Hre in Hk. apply Hold in Hk as (u' & Hk). destruct (Ih _ _ _ Hk) as (m & Hm & _). rewrite El0 in Hm. exact Hm. }
    assert (Er : recover now ord s0 = Some s0) by (unfold recover, start_sync; cbn [s0 d_seq]; rewrite E0; reflexivity).
    rewrite Er in Eopen. eexists _, G1, off2, H2, first, M, T. split; [exact Eopen|]. split; [reflexivity|]. unfold set_seq; cbn [d_mem d_tw d_trie d_info d_win d_index d_data d_lfile d_lease d_seq d_count d_enc d_last d_immut d_closed].
    destruct (recovered c gens (mkDB (d_mem s0) (d_tw s0) (d_trie s0) (d_info s0) (d_win s0) (d_index s0) (d_data s0) (d_lfile s0) (d_lease s0) n (d_count s0) (d_enc s0) 0 immut false)
      _ l _ G1 off2 H2 first M T e now immut (d_info s0) (d_lfile s0) (d_count s0) n Hset Il ltac:(lia) Hdur Hrec) as [F1 F2]; auto.
    { destruct Hmov as [N1 N2 N3 N3' N4 N5 N6 N7 N8 N9 N10]. split; auto; [constructor|]. intros k u v Hk. exfalso. exact (Hno _ _ _ Hk). }
    split; [exact F1|]. split; [exact F2|]. split; [auto|]. split; [rewrite El0; intros m []|]. split; [exact Eq|].
    split; [|split; [cbn [s0 d_count]; now rewrite Hns|intros h x Hx; left; exact (Permutation_in _ (O3 h) Hx)]]. destruct (open_ones _ _ _ _ _ Em) as [O4 O5]. repeat split; auto.
    intros u Hu. cbn [s0 d_mem] in Hu. apply Hrel in Hu as (x & Hx & ->). now apply Hnow1.
  - assert (Es : start_sync s0 0 = Some (mkSS s0 (newWindowWriter win) b 0 0 false)).
    { unfold start_sync. cbn [s0 d_seq d_index d_data d_lease d_win]. destruct (N.eqb_spec 0 n0); [congruence|]. now rewrite Eb. }
    destruct (rec_blocks c gens l e now ord Hset ltac:(lia) He Hord (allRefs mm) _ _ _ _ _ _ _ _ _ Hrec Hmov (Z.le_refl _))
      as (st' & done' & g' & off' & H' & first' & M' & T' & R1 & R2 & R3 & R4 & R5 & R6 & R7 & R8).
    { apply Forall_forall. intros u Hu. unfold allRefs in Hu. apply (proj1 (sort_asc_in _ _)) in Hu. apply Hrel in Hu as (x & Hx & ->). cbn [G1 g_cur]. destruct (Hnow1 x Hx). lia. }
    cbn [ss_db ss_ww ss_bw] in R6, R7. change (d_mem s0) with mm in R6. change (d_seq (ss_db (mkSS s0 (newWindowWriter win) b 0 0 false))) with n0 in R3.
    destruct (moving_all c l n now Il _ _ _ _ _ _ _ R6 Hmov) as (N & Np & Nc & Nq & Nh).
    assert (Hno : forall k u v, g_slot g' k <> Held u v).
    { intros k u v Hk. apply Nh in Hk as [Hk Hn]. apply Hn. destruct Hmov as [_ _ _ _ _ _ _ _ _ N9 _]. unfold allRefs. apply sort_asc_in. apply Hre in Hk. apply Hsl in Hk as (x & Hx & E & _). apply Hrel. eauto. }
    assert (Eord : ord [] = []) by (apply Permutation_nil; symmetry; apply Hord).
    assert (Er : recover now ord s0 = Some (ss_db st')).
    { unfold recover. rewrite Es. change (d_mem s0) with mm. rewrite R1, Eord. cbn [block_windows]. unfold sync_write. rewrite (rc_up _ _ _ _ _ _ _ _ _ _ _ _ R2). reflexivity. }
    rewrite Er in Eopen. eexists _, g', off', H', first', M', T'. split; [exact Eopen|]. split; [exact R3|]. unfold set_seq; cbn [d_mem d_tw d_trie d_info d_win d_index d_data d_lfile d_lease d_seq d_count d_enc d_last d_immut d_closed].
    assert (Hls : d_lease (ss_db st') = newLease (c_find c) (c_min c)).
    { apply R7; [|reflexivity]. exact (writer_lease _ _ _ _ Eb). }
    destruct (recovered c gens (mkDB (d_mem (ss_db st')) (d_tw (ss_db st')) (d_trie (ss_db st')) (d_info (ss_db st')) (d_win (ss_db st')) (d_index (ss_db st')) (d_data (ss_db st')) (d_lfile (ss_db st')) (d_lease (ss_db st')) n (d_count (ss_db st')) (d_enc (ss_db st')) 0 immut false) st' l done' g' off' H' first' M' T' e now immut (d_info (ss_db st')) (d_lfile (ss_db st')) (d_count (ss_db st')) n Hset Il ltac:(lia) Hdur R2 N Hls Hno) as [F1 F2]; auto.
    { congruence. }
    split; [exact F1|]. split; [exact F2|]. split; [exact R5|]. split; [|split; [cbn [d_mem]; congruence|split; [|split]]].
    2:{ destruct (open_ones _ _ _ _ _ Em) as [O4 O5]. destruct (frees_slots _ _ _ _ _ _ _ _ _ R6) as (X1 & _ & _ & _ & X2 & _).
        split; [eapply ones_same; [exact X1|exact O4]|]. split; [cbn [d_mem]; rewrite X1; exact O5|]. split; [|split; [reflexivity|rewrite R4; reflexivity]].
        intros u Hu. cbn [d_mem] in Hu. apply X2, Hrel in Hu as (x & Hx & ->). now apply Hnow1. }
    2:{ intros Hc. cbn [d_count]. apply R8; [reflexivity|]. cbn [ss_db s0 d_count]. now rewrite Hns. }
    2:{ intros h x Hx. destruct (frees_times _ _ _ _ _ _ _ _ _ R6 h x Hx) as [Hx'|Hx']; [left; exact (Permutation_in _ (O3 h) Hx')|now right]. }
    intros m Hm. unfold in_store.
    destruct (mp_all _ _ _ _ (rc_mem _ _ _ _ _ _ _ _ _ _ _ _ R2) m Hm) as [->|(u & E)]; [reflexivity|]. exfalso. exact (Hno _ _ _ E).
Qed.

Lemma reopen_step c gens s l g off H first M T e t now ord immut enc : setting_ok c gens -> inv c s l g off H first M T e t -> kept c s l g off H first t ->
  0 < c_logint (c_mem c) -> c_dur (c_mem c) <= now -> (total c (map gm_sent l) + 4 < 2 ^ 32)%N -> (d_seq s < 2 ^ 64)%N ->
  0 <= t < now -> now < 2 ^ 32 * 1000000000 -> trunc t (c_logint (c_mem c)) < trunc now (c_dur (c_mem c)) -> e <= 130000 ->
  (forall h, (length (filter (of_hash h) l) <= entriesPerWindowBlock)%nat) -> (forall m, Permutation (ord m) m) ->
  exists s1 s' g' off' H' first' M' T', db_close s = (s1, DOk) /\ db_open c gens now ord immut enc (on_disk s1) = Opened s' /\ d_seq s' = d_seq s /\
    inv c s' l g' off' H' first' M' T' (e + 1) now /\ kept c s' l g' off' H' first' now /\ (first <> None -> first' = first) /\
    (forall m, In m l -> in_store g' m = true) /\ m_queue (d_mem s') = [] /\ fresh c now s' g' /\
    (Z.of_N (d_count s) = nstored g l -> Z.of_N (d_count s') = nstored g' l) /\
    (forall h x, In x (H' h) -> In x (H h) \/ snd x = unix now).
Proof.
  intros Hset Hi K Hli Hdur Hw Hq Ht Hnow Htr He Hsh Hord. pose proof (kept_fits _ _ _ _ _ _ _ _ _ _ _ Hi K Hw) as Hf.
  destruct K as [(L & K1 & K3) K4 K5 K6 K7 K8 K9]. pose proof Hi as [Icl Ienc Il Im Itw Iwin Ist Itr Icur IT].
  pose proof (mp_inv _ _ _ _ Im) as G.
  destruct (keep_close (d_mem s) (g_slot g) L (gi_w _ _ _ G) K1 Hf) as (L1 & D1 & D2 & D3 & D4 & D5).
  { intros id Hid. specialize (K3 id Hid). lia. }
  assert (Hids : forall x, In x L1 -> l_id x <= t).
  { intros x Hx. apply (in_map l_id) in Hx. apply D3 in Hx. apply in_app_iff in Hx as [Hx|Hx]; [|apply K3; exact Hx].
    pose proof (dw_sort _ _ _ (wl_dir _ _ _ _ (kp_wal _ _ _ K1))) as Hs. unfold pending in Hs, K3. rewrite map_app in Hs, K3. cbn [map fst] in Hs, K3.
    rewrite app_assoc in Hs.
    assert (Hlt : l_id x < m_curid (d_mem s)).
    { revert Hs Hx. generalize (l_id x), (map l_id L), (map fst (m_queue (d_mem s))), (m_curid (d_mem s)). clear. intros y a q z Hs Hy.
      assert (Hin : In y (a ++ q)) by (apply in_app_iff; now left). revert Hs Hin. generalize (a ++ q). clear. intros w. induction w as [|b w IH]; cbn [app]; intros Hs Hi; [contradiction|]. destruct Hi as [->|Hi].
      - inversion Hs as [|? ? _ Hf]; subst. rewrite Forall_forall in Hf. apply Hf. apply in_app_iff. right. now left.
      - inversion Hs; auto. }
    specialize (K3 (m_curid (d_mem s))). enough (m_curid (d_mem s) <= t) by lia. apply K3. apply in_app_iff. right. now left. }
  assert (Hnow1 : forall x, In x L1 -> l_id x < now /\ trunc (l_id x) (c_logint (c_mem c)) < trunc now (c_dur (c_mem c))).
  { intros x Hx. specialize (Hids x Hx). split; [lia|]. eapply Z.le_lt_trans; [apply trunc_mono; [exact Hli|exact Hids]|exact Htr]. }
  set (f1 := info_bytes s (d_count s)).
  assert (E1 : f1 = write_info 1 (d_seq s) (d_count s)) by (unfold f1, info_bytes; now rewrite Ienc).
  destruct (header_back enc 1 (d_seq s) (d_count s) ltac:(lia) Hq) as (cnt & Ehd & Ecnt). rewrite <- E1 in Ehd.
  destruct (lease_back (c_find c) (c_min c)) as [Elr Eld].
  set (s1 := mkDB (mem_close (d_mem s)) (d_tw s) (d_trie s) f1 (d_win s) (d_index s) (d_data s) (lease_write (defrag (d_lease s))) (defrag (d_lease s)) (d_seq s) (d_count s) (d_enc s) (d_last s) (d_immut s) true).
  assert (Eclose : db_close s = (s1, DOk)) by (unfold db_close; now rewrite Icl).
  rewrite K4 in Ist.
  destruct (reopen_files c gens l (d_seq s) g off H first M T e now ord immut enc (m_wal (mem_close (d_mem s))) L1 (d_win s) (d_index s) (d_data s) f1
    (lease_write (defrag (d_lease s))) (d_seq s) cnt Hset Il K8 Iwin K9 Ist (mp_held _ _ _ _ Im) (mp_all _ _ _ _ Im) (mp_freed _ _ _ _ Im) K7 D1 D2 D4 D5 Hnow1 Hli Hdur)
    as (s' & g' & off' & H' & first' & M' & T' & Eo & Eq & Hi' & Hk' & Hf' & Hall & Hqu & Hfr & Hct & Htm); auto.
  { lia. }
  { etransitivity; [exact IT|]. apply unix_mono. lia. }
  { rewrite K4. exact Elr. }
  { intros E0. destruct l as [|m l0]; [reflexivity|]. exfalso. pose proof (lp_ok _ _ _ Il) as Lok. pose proof (lp_below _ _ _ Il) as Lb. rewrite Forall_forall in Lok, Lb.
    pose proof (gk_seq _ _ (Lok m (or_introl eq_refl))). specialize (Lb m (or_introl eq_refl)). lia. }
  assert (Es : set_seq s' (d_seq s) = s') by (rewrite <- Eq; destruct s'; reflexivity). rewrite Es in Hi', Hk'.
  exists s1, s', g', off', H', first', M', T'. split; [exact Eclose|]. split; [exact Eo|].
  split; [exact Eq|]. split; [exact Hi'|]. split; [exact Hk'|]. split; [exact Hf'|]. split; [exact Hall|]. split; [exact Hqu|]. split; [exact Hfr|]. split; [|exact Htm].
  intros Hc. apply Hct. rewrite Ecnt, N.mod_small; [exact Hc|]. pose proof (list_bound _ _ _ Il) as Hb. pose proof (filter_length_le (in_store g) l). unfold nstored in Hc. lia.
Qed.
