(** Proofs about the counters of a database. *)
From Verif Require Import M_Bytes M_Bloom M_Entry M_Trie M_IndexBlock M_Lease M_BlockStore M_WinBlock M_Wal M_MemDB M_Window M_Get M_DBInfo M_DB S_Trie S_MemDB S_DB S_Session S_Count M_Varz S_Varz
  P_MemDB P_MemGet P_DB P_Session P_Session2 P_Session3 P_Session4 P_Session5 P_Count.
From Coq Require Import Lia ZifyBool ZifyNat ZifyN Permutation.
Open Scope Z_scope.

(** * What callers see *)
Lemma step_seen c w v o : not_open o -> let '(w', v', x) := vstep c (w, v) o in
  (v_puts v' = v_puts v + accepted o x)%N /\ (v_leases v' = v_leases v + leased o x)%N /\
  (v_out v' = v_out v + shown o x)%N /\ (v_gets v' = v_gets v + shown o x)%N.
Proof.
  intros Ho. unfold vstep. destruct (dstep c w o) as [w' x] eqn:E. destruct w as [s|f].
  - destruct o; cbn [dstep vcount not_open] in *; try contradiction Ho.
    + destruct (put_entry c s now e) as [[s1 e1] r]. injection E as <- <-. destruct r; cbn [accepted leased shown count_put v_puts v_leases v_out v_gets]; lia.
    + destruct (delete_entry c s e) as [s1 r]. injection E as <- <-. destruct (_ || _)%bool; cbn [accepted leased shown count_dels v_puts v_leases v_out v_gets]; lia.
    + destruct (db_get c s now g q) as [[s1 q1] r]. injection E as <- <-. destruct r; cbn [accepted leased shown count_get v_puts v_leases v_out v_gets]; lia.
    + destruct (db_new_id s now) as [s1 id]. injection E as <- <-. cbn [accepted leased shown count_lease v_puts v_leases v_out v_gets]. lia.
    + injection E as <- <-. cbn [accepted leased shown]. lia.
    + destruct (db_batch_run c s now pick l fails now1 now2 p1 p2) as [s1|]; [|destruct (db_batch s now pick)]; injection E as <- <-;
        cbn [accepted leased shown count_dels v_puts v_leases v_out v_gets]; lia.
    + destruct (db_sync now ord s) as [s1 r]. injection E as <- <-. cbn [accepted leased shown count_sync v_puts v_leases v_out v_gets]. lia.
    + injection E as <- <-. cbn [accepted leased shown]. lia.
    + injection E as <- <-. cbn [accepted leased shown]. lia.
    + destruct (db_close s) as [s1 r]. injection E as <- <-. cbn [accepted leased shown]. lia.
    + injection E as <- <-. cbn [accepted leased shown]. lia.
  - destruct o; cbn [dstep vcount not_open] in *; try contradiction Ho; injection E as <- <-; cbn [accepted leased shown]; lia.
Qed.
Lemma run_seen c : forall ops w v, Forall not_open ops -> let '(w', v', outs) := vrun c (w, v) ops in
  (v_puts v' = v_puts v + seen accepted ops outs)%N /\ (v_leases v' = v_leases v + seen leased ops outs)%N /\
  (v_out v' = v_out v + seen shown ops outs)%N /\ (v_gets v' = v_gets v + seen shown ops outs)%N.
Proof.
  induction ops as [|o r IH]; intros w v H; cbn [vrun seen]; [lia|]. inversion H; subst.
  pose proof (step_seen c w v o H2) as Hs. destruct (vstep c (w, v) o) as [[w1 v1] x]. specialize (IH w1 v1 H3).
  destruct (vrun c (w1, v1) r) as [[w2 v2] xs]. cbn [seen]. lia.
Qed.
Lemma vrun_drun c : forall ops w v, fst (fst (vrun c (w, v) ops)) = fst (drun c w ops) /\ snd (vrun c (w, v) ops) = snd (drun c w ops).
Proof.
  induction ops as [|o r IH]; intros w v; cbn [vrun drun]; [auto|]. unfold vstep. destruct (dstep c w o) as [w1 x].
  specialize (IH w1 (vcount c w v o)). destruct (vrun c (w1, vcount c w v o) r) as [[w2 v2] xs]. destruct (drun c w1 r) as [w3 ys]. cbn [fst snd] in *. destruct IH; subst. auto.
Qed.

(** * Sync *)
Lemma write_counted st st' : sync_write st = SyOk st' -> ss_upper st = 0%N \/
  (d_count (ss_db st') = u64 (d_count (ss_db st) + ss_count st) /\ ss_count st' = 0%N).
Proof.
  unfold sync_write. destruct (ss_upper st =? 0)%N eqn:E; [left; lia|]. right.
  destruct (ww_write (ss_ww st)); [destruct (bw_commit (ss_bw st) (ss_upper st))|]; try (destruct (sync_abort st); discriminate).
  injection H as <-. split; reflexivity.
Qed.
Lemma entries_db rec t : forall seqs st m st' m', block_entries rec st t seqs m = BOk st' m' -> d_count (ss_db st') = d_count (ss_db st) /\ ss_upper st' = ss_upper st.
Proof.
  induction seqs as [|q r IH]; intros st m st' m'; cbn [block_entries]; [intros [= <- <-]; auto|].
  destruct (mem_lookup _ _ _) as [d| | | | |]; try discriminate; try (intros H; apply IH in H; cbn [ss_db ss_upper] in H; exact H).
  destruct (entry_unmarshal d) as [x|]; [|discriminate]. destruct (bw_append _ _ _) as [b|b e|]; try discriminate.
  - destruct (if rec then _ else _) as [tr|]; [|discriminate]. intros H. apply IH in H. cbn [ss_db ss_upper set_trie d_count] in H. exact H.
  - destruct e; try discriminate; intros H; apply IH in H; cbn [ss_db ss_upper] in H; exact H.
Qed.
Lemma windows_db now : forall m st st', block_windows now st m = SyOk st' ->
  d_count (ss_db st') = d_count (ss_db st) /\ ss_upper st' = ss_upper st /\ ss_count st' = ss_count st /\ ss_err1 st' = ss_err1 st.
Proof.
  induction m as [|[h es] r IH]; intros st st'; cbn [block_windows]; [intros [= <-]; auto|].
  destruct (getOffset _ _); [|discriminate]. destruct (ww_append _ _ _ _ _) as [w o|w|]; try discriminate.
  destruct (setOffset _ _) as [tr ok]. destruct ok; [|discriminate]. intros H. apply IH in H. cbn [ss_db ss_upper ss_count ss_err1 set_trie d_count] in H. exact H.
Qed.
Lemma write_count_ok st st' : (d_count (ss_db st) < 2 ^ 64)%N -> sync_write st = SyOk st' -> d_count (ss_db st') = u64 (d_count (ss_db st) + write_count st).
Proof.
  intros Hb E. unfold write_count. rewrite E. destruct (N.eqb_spec (ss_upper st) 0) as [Eu|Eu].
  - unfold sync_write in E. rewrite (proj2 (N.eqb_eq _ _) Eu) in E. injection E as <-. rewrite N.add_0_r. symmetry. now apply N.mod_small.
  - apply write_counted in E as [E|[E _]]; [contradiction|exact E].
Qed.
Lemma block_counted now ord keys st t st' : (d_count (ss_db st) < 2 ^ 64)%N -> sync_block now ord keys st t = SyOk st' ->
  d_count (ss_db st') = u64 (d_count (ss_db st) + block_count now ord st t).
Proof.
  intros Hb. unfold sync_block, block_count. cbv zeta. destruct (seq_asc _) as [|q r]; [intros [= <-]; rewrite N.add_0_r; symmetry; now apply N.mod_small|].
  destruct (block_entries _ _ _ _ _) as [st1 m| |] eqn:E1; try discriminate. apply entries_db in E1 as [E1 _]. cbn [raise_upper ss_db] in E1.
  destruct (block_windows _ _ _) as [st2| |] eqn:E2; try discriminate. apply windows_db in E2 as (E2 & _).
  destruct (ss_err1 st2); [discriminate|]. destruct (sync_write st2) as [st3| |] eqn:E3; try discriminate.
  apply write_count_ok in E3; [|rewrite E2, E1; exact Hb]. destruct (tw_release _ _ _); [|discriminate]. destruct (mem_free _ _) as [mm []]; try discriminate.
  intros [= <-]. cbn [ss_set_db ss_db set_mem set_tw d_count]. now rewrite E3, E2, E1.
Qed.
Lemma block_counted_any now ord keys st t st' : (d_count (ss_db st) < 2 ^ 64)%N -> sync_block now ord keys st t = SyOk st' \/ sync_block now ord keys st t = SyErr st' ->
  d_count (ss_db st') = u64 (d_count (ss_db st) + block_count now ord st t) \/ block_count now ord st t = 0%N.
Proof.
  intros Hb [E|E]; [left; eapply block_counted; eassumption|]. revert E. unfold sync_block, block_count. cbv zeta. destruct (seq_asc _) as [|q r]; [discriminate|].
  destruct (block_entries _ _ _ _ _) as [st1 m| |] eqn:E1; [|auto|discriminate]. apply entries_db in E1 as [E1 _]. cbn [raise_upper ss_db] in E1.
  destruct (block_windows _ _ _) as [st2| |] eqn:E2; [|auto|discriminate]. apply windows_db in E2 as (E2 & _).
  destruct (ss_err1 st2); [auto|]. destruct (sync_write st2) as [st3|st3|] eqn:E3; [|right; unfold write_count; rewrite E3; now destruct (_ =? _)%N|discriminate].
  apply write_count_ok in E3; [|rewrite E2, E1; exact Hb]. rewrite E2, E1 in E3.
  destruct (tw_release _ _ _); [|intros [= <-]; left; exact E3]. destruct (mem_free _ _) as [mm []]; try discriminate; intros [= <-]; left; exact E3.
Qed.
Lemma blocks_counted now ord keys : forall ts st st', (d_count (ss_db st) < 2 ^ 64)%N -> sync_blocks (sync_block now ord keys) st ts = SyOk st' ->
  d_count (ss_db st') = u64 (d_count (ss_db st) + blocks_count (sync_block now ord keys) (block_count now ord) st ts).
Proof.
  induction ts as [|t r IH]; intros st st' Hb; cbn [sync_blocks blocks_count].
  - intros [= <-]. rewrite N.add_0_r. symmetry. now apply N.mod_small.
  - destruct (sync_block now ord keys st t) as [st1| |] eqn:E1; try discriminate. apply block_counted in E1; [|exact Hb].
    intros H. apply IH in H; [|rewrite E1; apply N.mod_lt; discriminate]. rewrite H, E1. unfold u64. rewrite N.add_mod_idemp_l by discriminate. f_equal. lia.
Qed.

(** * Sessions *)
Lemma sync_complete c gens s l g off H first M T e t now ord : setting_ok c gens -> inv c s l g off H first M T e t ->
  t <= now -> 0 <= now < 2 ^ 32 * 1000000000 -> e <= 130000 -> (forall m, Permutation (ord m) m) -> (d_count s < 2 ^ 64)%N ->
  d_count (fst (db_sync now ord s)) = u64 (d_count s + sync_count now ord s).
Proof.
  intros Hset Hi Ht Hnow He Hord Hb. pose proof Hi as [Icl Ienc Il Im Itw Iwin Ist Itr Icur IT].
  destruct (sp_open _ _ _ _ _ _ Ist) as (b & Eb & Hb' & Hbo).
  unfold db_sync, sync_count, start_sync. destruct (N.eqb_spec (d_last s) (d_seq s)) as [Els|Els].
  { cbn [fst]. rewrite N.add_0_r. symmetry. now apply N.mod_small. }
  rewrite Eb. set (st := mkSS s (newWindowWriter (d_win s)) b 0 0 false).
  destruct (blocks_step c gens (tw_keys (d_tw s)) l e now ord Hset Hnow He Hord (timeRefs (d_mem s)) st g off H first M T t)
    as (st' & g' & off' & H' & first' & M' & T' & E & S & _).
  - constructor; auto; cbn [st ss_db ss_ww ss_bw ss_err1 ss_upper]; try reflexivity.
    + constructor; auto. destruct Iwin as [W1 W2 W3 W4]. constructor; auto. lia.
    + exact (wp_run _ _ _ _ _ _ _ _ Iwin).
    + exact (wp_idx _ _ _ _ _ _ _ _ Iwin).
    + intros x Hx. exact Hx.
  - exact Ht.
  - apply Forall_forall. intros t0 H0. unfold timeRefs in H0. rewrite sort_asc_in in H0. apply filter_In in H0 as [_ H0].
    rewrite <- (gi_cur _ _ _ (mp_inv _ _ _ _ Im)). lia.
  - rewrite E. cbn [fst]. apply blocks_counted in E; [|exact Hb]. exact E.
Qed.

Lemma vrun_snoc c : forall ops w v o w' v' outs, vrun c (w, v) ops = (w', v', outs) ->
  vrun c (w, v) (ops ++ [o]) = (fst (dstep c w' o), vcount c w' v' o, outs ++ [snd (dstep c w' o)]).
Proof.
  induction ops as [|a r IH]; intros w v o w' v' outs E; cbn [app vrun] in *.
  - injection E as <- <- <-. unfold vstep. destruct (dstep c w o); reflexivity.
  - unfold vstep in *. destruct (dstep c w a) as [w1 x1]. destruct (vrun c (w1, vcount c w v a) r) as [[w2 v2] xs] eqn:Er. injection E as <- <- <-. now rewrite (IH _ _ o _ _ _ Er).
Qed.
Lemma open_counters c gens t ord immut enc v : let v' := vcount c (Down no_files) v (DoOpen gens t ord immut enc) in
  v_in v' = 0%N /\ v_syncs v' = 0%N /\ v_recovers v' = 0%N /\ v_dels v' = 0%N /\ v_aborts v' = 0%N.
Proof.
  cbn [vcount no_files f_wal f_index f_data f_win f_info f_lease]. destruct (mem_open _ _ _ _); [|now repeat split]. destruct (load_trie _ _ _ _); [|now repeat split].
  destruct (open_header enc None) as [| |i] eqn:E; [now repeat split|now repeat split|]. destruct (lease_read _ _); [|now repeat split|now repeat split].
  assert (Hs : i_sequence i = 0%N) by (unfold open_header in E; destruct enc; vm_compute in E; injection E as <-; reflexivity).
  unfold recover_count, start_sync. cbn [d_seq]. rewrite Hs. now repeat split.
Qed.
Lemma other_counters c s o s1 x v : (match o with SSync _ _ => False | _ => True end) -> dstep c (Up s) (as_dop o) = (Up s1, x) ->
  d_count s1 = d_count s /\ let v' := vcount c (Up s) v (as_dop o) in
  v_in v' = v_in v /\ v_syncs v' = v_syncs v /\ v_recovers v' = v_recovers v /\ v_dels v' = v_dels v /\ v_aborts v' = v_aborts v.
Proof.
  intros Ho E. destruct o; cbn [as_dop dstep vcount] in *; try contradiction Ho.
  - destruct (put_entry _ _ _ _) as [[s2 e2] r] eqn:Ep. apply put_entry_count in Ep as [Ep _]. injection E as E _. destruct r; cbn [alive] in E; try discriminate; injection E as <-; now repeat split.
  - destruct (db_get _ _ _ _ _) as [[s2 q2] r] eqn:Ep. apply db_get_keeps in Ep as (_ & _ & Ep). injection E as E _. destruct r; cbn [alive_q] in E; try discriminate; injection E as <-; now repeat split.
  - injection E as <- _. now repeat split.
  - injection E as <- _. now repeat split.
  - unfold db_new_id in E. injection E as <- _. now repeat split.
  - injection E as <- _. now repeat split.
Qed.
Lemma session_counters_from c gens t ord immut enc : setting_ok c gens -> c_dur (c_mem c) <= t -> forall ops more, session_ok c t [] (ops ++ more) -> (N.of_nat (length (ops ++ more)) <= 130000)%N ->
  exists s v outs, vrun c (Down no_files, varz_new) (DoOpen gens t ord immut enc :: map as_dop ops) = (Up s, v, outs) /\
    u64 (v_in v) = d_count s /\ v_syncs v = v_in v /\ v_recovers v = 0%N /\ v_dels v = 0%N /\ v_aborts v = 0%N.
Proof.
  intros Hset Ht. induction ops as [|o ops IH] using rev_ind; intros more Hok Hn.
  - destruct (open_step c gens t ord immut enc Hset ltac:(pose proof (so_dur _ _ Hset); lia)) as (s & Eo & Eq & Hi & Em & Ec & El).
    pose proof (open_counters c gens t ord immut enc varz_new) as Hv. cbv zeta in Hv. cbn [map vrun]. unfold vstep. remember (vcount c (Down no_files) varz_new (DoOpen gens t ord immut enc)) as v0.
    cbn [dstep]. rewrite Eo. exists s, v0, [OOpened true]. split; [reflexivity|]. rewrite Ec. destruct Hv as (-> & -> & -> & -> & ->). auto.
  - rewrite <- app_assoc in Hok, Hn. destruct (IH ([o] ++ more) Hok Hn) as (s & v & outs & E & V1 & V2 & V3 & V4 & V5).
    destruct (book_end c gens t ord immut enc ops ([o] ++ more) Hset Ht Hok Hn) as (s0 & outs0 & l & g & off & H & first & M & T & e & t' & sl & E0 & Hi & B & Hok' & He & Hq & Ht').
    pose proof (vrun_drun c (DoOpen gens t ord immut enc :: map as_dop ops) (Down no_files) varz_new) as [Hw _]. rewrite E, E0 in Hw. cbn [fst] in Hw. injection Hw as <-.
    rewrite app_assoc in Hok, Hn.
    destruct (book_end c gens t ord immut enc (ops ++ [o]) more Hset Ht Hok Hn) as (s1 & outs1 & l1 & g1 & off1 & H1 & first1 & M1 & T1 & e1 & t1 & sl1 & E1 & Hi1 & B1 & _ & He1 & Hq1 & _).
    rewrite map_app in E1 |- *. cbn [map] in E1 |- *. rewrite app_comm_cons in E1 |- *. rewrite (drun_snoc _ _ _ _ _ _ E0) in E1. apply (f_equal fst) in E1 as Es1. clear E1. cbn [fst] in Es1.
    rewrite (vrun_snoc _ _ _ _ _ _ _ _ E). rewrite Es1. exists s1, (vcount c (Up s) v (as_dop o)), (outs ++ [snd (dstep c (Up s) (as_dop o))]). split; [reflexivity|].
    destruct (match o with SSync _ _ => true | _ => false end) eqn:Eo.
    + destruct o as [| | | |now ord'| |]; try discriminate. cbn [session_ok app clock] in Hok'. destruct Hok' as (Hclk & Hord & _). cbn [as_dop] in *.
      assert (Hy : d_count (fst (db_sync now ord' s)) = u64 (d_count s + sync_count now ord' s)).
      { apply (sync_complete c gens s l g off H first M T e t' now ord' Hset Hi); first [exact Hord|rewrite <- V1; apply N.mod_lt; discriminate|cbn [app length] in He; lia]. }
      cbn [dstep] in Es1. destruct (db_sync now ord' s) as [s2 r2]. cbn [fst] in *. assert (s2 = s1) by (destruct r2; cbn [alive] in Es1; congruence). subst s2.
      cbn [vcount count_sync v_in v_syncs v_recovers v_dels v_aborts].       rewrite Hy, <- V1, V2. split; [|auto]. unfold u64. now rewrite N.add_mod_idemp_l by discriminate.
    + destruct (dstep c (Up s) (as_dop o)) as [w x] eqn:Ed. cbn [fst] in Es1. subst w.
      destruct (other_counters c s o s1 x v) as (C1 & C2 & C3 & C4 & C5 & C6); [destruct o; try exact I; discriminate|exact Ed|]. rewrite C1, C2, C3, C4, C5, C6. auto 10.
Qed.
Lemma session_counters c gens t ord immut enc ops : setting_ok c gens -> c_dur (c_mem c) <= t -> session_ok c t [] ops -> (N.of_nat (length ops) <= 130000)%N ->
  exists s v outs, vrun c (Down no_files, varz_new) (DoOpen gens t ord immut enc :: map as_dop ops) = (Up s, v, outs) /\
    u64 (v_in v) = N.of_nat (length (written_of (book_of (c_dur (c_mem c)) t ops))) /\ d_count s = u64 (v_in v) /\
    v_syncs v = v_in v /\ v_recovers v = 0%N /\ v_dels v = 0%N.
Proof.
  intros Hset Ht Hok Hn.
  destruct (session_counters_from c gens t ord immut enc Hset Ht ops [] ltac:(now rewrite app_nil_r) ltac:(now rewrite app_nil_r)) as (s & v & outs & E & V1 & V2 & V3 & V4 & _).
  destruct (book_end c gens t ord immut enc ops [] Hset Ht ltac:(now rewrite app_nil_r) ltac:(now rewrite app_nil_r)) as (s0 & outs0 & l & g & off & H & first & M & T & e & t' & sl & E0 & Hi & B & _).
  pose proof (vrun_drun c (DoOpen gens t ord immut enc :: map as_dop ops) (Down no_files) varz_new) as [Hw _]. rewrite E, E0 in Hw. cbn [fst] in Hw. injection Hw as <-.
  exists s, v, outs. split; [exact E|]. split; [|auto]. rewrite V1, (written_eq _ _ _ _ _ _ B), map_length. pose proof (bi_count _ _ _ _ _ _ B) as Hc. unfold nstored in Hc. lia.
Qed.
