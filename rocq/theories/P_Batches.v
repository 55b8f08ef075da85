(** Proofs about batches in sessions: what does not depend on the current slot. *)
From Verif Require Import M_Bytes P_Bytes M_File M_Hash M_Bloom M_Entry M_MsgId M_Mac M_Topic M_Trie M_Query M_IndexBlock M_Lease
  M_BlockStore M_WinBlock M_Wal M_MemDB M_Window M_Get M_DB S_Trie S_Window S_BlockStore S_MemDB S_Get S_DB S_Session S_Batches
  P_MemDB P_MemGet P_DB P_Session P_Session2 P_Session3 P_Session4.
From Coq Require Import Lia ZifyBool ZifyNat ZifyN Permutation Sorted.
Open Scope Z_scope.

(** * A store with another current slot *)
Definition lg (b : Z) (m : mdb) : mdb := set_log m b 0 [].
Definition at_ (b : Z) (s : db) : db := set_mem s (lg b (d_mem s)).

(** Slots of one nanosecond: every time is the beginning of one. *)
Definition fine (c : dcfg) : dcfg :=
  mkDC (mkMC (c_bkey (c_mem c)) 1 (c_logint (c_mem c))) (c_snap c) (c_unsnap c) (c_mac c) (c_pd c) (c_find c) (c_min c) (c_def c) (c_max c).

Lemma lg_put b c m t k v : put_in c (lg b m) t k v = (lg b (fst (put_in c m t k v)), snd (put_in c m t k v)).
Proof.
  unfold put_in. change (live (lg b m) t) with (live m t). change (m_closed (lg b m)) with (m_closed m).
  destruct (m_closed m); [reflexivity|]. destruct (live m t) as [p|]; [|reflexivity].
  unfold block_put. cbn [lg set_log m_blocks m_bufs]. destruct (nth_error (m_blocks m) p) as [bl|]; [|reflexivity].
  destruct (nth_error (m_bufs m) (mb_buf bl)) as [d|]; [|reflexivity]. cbn [fst snd].
  unfold addTimeFilter. cbn [set_block set_buf set_heap m_filters lg set_log].
  destruct (nth_error (m_filters m) (c_bkey c k)); reflexivity.
Qed.
Lemma lg_add b m t pick : addTimeBlock (lg b m) t pick = lg b (addTimeBlock m t pick).
Proof.
  unfold addTimeBlock. change (live (lg b m) t) with (live m t). destruct (live m t); [reflexivity|]. cbn [lg set_log m_pool m_bufs m_blocks].
  destruct pick as [i|]; [destruct (existsb (Nat.eqb i) (m_pool m))|]; reflexivity.
Qed.
Lemma lg_tiny b m id t : tinyWrite (lg b m) id t = lg b (tinyWrite m id t).
Proof.
  unfold tinyWrite. change (live (lg b m) t) with (live m t). destruct (live m t) as [p|]; [|reflexivity]. cbn [lg set_log m_blocks m_bufs m_wal].
  destruct (nth_error (m_blocks m) p) as [bl|]; [|reflexivity]. destruct (nth_error (m_bufs m) (mb_buf bl)) as [d|]; [|reflexivity].
  destruct (skipn (Z.to_nat (mb_last bl)) d); reflexivity.
Qed.
Lemma lg_free b m t : mem_free (lg b m) t = (lg b (fst (mem_free m t)), snd (mem_free m t)).
Proof.
  unfold mem_free, releaseLog. change (live (lg b m) t) with (live m t). destruct (live m t) as [p|]; [|reflexivity]. cbn [lg set_log m_blocks].
  destruct (nth_error (m_blocks m) p); reflexivity.
Qed.
Lemma find_lg b m k recs ids : find_block (lg b m) k recs ids = find_block m k recs ids.
Proof. induction ids as [|t r IH]; [reflexivity|]. cbn [find_block]. change (live (lg b m) t) with (live m t). rewrite IH. reflexivity. Qed.
Lemma scan_lg b m k recs ids : query_scan (lg b m) k recs ids = query_scan m k recs ids.
Proof. induction ids as [|t r IH]; [reflexivity|]. cbn [query_scan]. rewrite IH. reflexivity. Qed.
Lemma cached_lg b c m k : get_cached c (lg b m) k = match get_cached c m k with Some (m', r) => Some (lg b m', r) | None => None end.
Proof.
  unfold get_cached. rewrite scan_lg. change (qrecs c (lg b m) k) with (qrecs c m k). change (m_qblocks (lg b m)) with (m_qblocks m).
  change (m_qrec (lg b m)) with (m_qrec m). set (sc := query_scan m k (qrecs c m k) (sort_desc (map fst (qrecs c m k)))).
  destruct (afind Z.eqb (m_qblocks m) (m_qrec m)) as [p|].
  - change (rec_off (lg b m) p (false, k)) with (rec_off m p (false, k)). destruct (rec_off m p (false, k)); [reflexivity|].
    destruct sc as [[t p']|]; reflexivity.
  - destruct sc as [[t p']|]; reflexivity.
Qed.
Lemma seek_lg b c m k : seek c (lg b m) k = match seek c m k with Some m' => Some (lg b m') | None => None end.
Proof.
  unfold seek, newest. change (m_filters (lg b m)) with (m_filters m). destruct (nth_error (m_filters m) (c_bkey c k)) as [r|]; [|reflexivity].
  rewrite find_lg. destruct (find_block m k (tf_recs r) (sort_desc (map fst (tf_recs r)))) as [[t p]|]; reflexivity.
Qed.
Lemma get_lg b c k : forall n m, mem_get_n n c (lg b m) k = (lg b (fst (mem_get_n n c m k)), snd (mem_get_n n c m k)).
Proof.
  induction n as [|n IH]; intros m; [reflexivity|]. cbn [mem_get_n]. change (m_closed (lg b m)) with (m_closed m). destruct (m_closed m); [reflexivity|].
  change (qrecs c (lg b m) k) with (qrecs c m k). cbv zeta.
  assert (Hc : forall m1, match get_cached c (lg b m1) k with Some r => r | None => mem_get_n n c
      (set_query (lg b m1) (m_qrec (lg b m1)) (M_Hash.update (m_qfilters (lg b m1)) (c_bkey c k) []) (m_qblocks (lg b m1))) k end =
    (lg b (fst (match get_cached c m1 k with Some r => r | None => mem_get_n n c (set_query m1 (m_qrec m1) (M_Hash.update (m_qfilters m1) (c_bkey c k) []) (m_qblocks m1)) k end)),
     snd (match get_cached c m1 k with Some r => r | None => mem_get_n n c (set_query m1 (m_qrec m1) (M_Hash.update (m_qfilters m1) (c_bkey c k) []) (m_qblocks m1)) k end))).
  { intros m1. rewrite cached_lg. destruct (get_cached c m1 k) as [[m2 r]|]; [reflexivity|].
    change (set_query (lg b m1) (m_qrec (lg b m1)) (M_Hash.update (m_qfilters (lg b m1)) (c_bkey c k) []) (m_qblocks (lg b m1)))
      with (lg b (set_query m1 (m_qrec m1) (M_Hash.update (m_qfilters m1) (c_bkey c k) []) (m_qblocks m1))). apply IH. }
  destruct (qrecs c m k); [|apply Hc]. rewrite seek_lg. destruct (seek c m k); [apply Hc|reflexivity].
Qed.

Lemma get_fine c k : forall n m, mem_get_n n (c_mem (fine c)) m k = mem_get_n n (c_mem c) m k.
Proof.
  induction n as [|n IH]; intros m; [reflexivity|]. cbn [mem_get_n]. destruct (m_closed m); [reflexivity|].
  change (qrecs (c_mem (fine c)) m k) with (qrecs (c_mem c) m k). change (seek (c_mem (fine c)) m k) with (seek (c_mem c) m k). cbv zeta.
  destruct (match qrecs (c_mem c) m k with [] => seek (c_mem c) m k | _ :: _ => Some m end) as [m1|]; [|reflexivity].
  change (get_cached (c_mem (fine c)) m1 k) with (get_cached (c_mem c) m1 k). destruct (get_cached (c_mem c) m1 k); [reflexivity|].
  rewrite IH. reflexivity.
Qed.
Lemma at_read b c k cut s q : read_one (fine c) k cut (at_ b s) q = (at_ b (fst (read_one c k cut s q)), snd (read_one c k cut s q)).
Proof.
  unfold read_one, mem_get. cbn [at_ set_mem d_mem]. rewrite get_fine, get_lg. destruct (mem_get_n 2 (c_mem c) (d_mem s) q) as [m r]. cbn [fst snd].
  destruct r; try reflexivity; cbn [set_mem d_index d_data at_].
  - destruct (entry_unmarshal v) as [x|]; [|reflexivity]. destruct (cache_message _ _) as [[id val]|]; reflexivity.
  - destruct (readEntry (d_index s) q) as [x|]; [destruct x as [e| |]|]; try reflexivity. destruct (readMessage (d_data s) e) as [[id val]|]; reflexivity.
  - destruct (readEntry (d_index s) q) as [x|]; [destruct x as [e| |]|]; try reflexivity. destruct (readMessage (d_data s) e) as [[id val]|]; reflexivity.
  - destruct (readEntry (d_index s) q) as [x|]; [destruct x as [e| |]|]; try reflexivity. destruct (readMessage (d_data s) e) as [[id val]|]; reflexivity.
Qed.
Section Loop.
Context {A : Type} (rd' rd : A -> N -> A * outcome) (h : A -> A).
Hypothesis Hrd : forall s q, rd' (h s) q = (h (fst (rd s q)), snd (rd s q)).
Lemma pass_h qs : forall s items inv, pass rd' (h s) qs items inv = let '(s', i, n, e) := pass rd s qs items inv in (h s', i, n, e).
Proof.
  induction qs as [|q r IH]; intros s items inv; [reflexivity|]. cbn [pass]. destruct (q =? 0)%N; [apply IH|]. rewrite Hrd.
  destruct (rd s q) as [s' o]. cbn [fst snd]. destruct o; try apply IH; reflexivity.
Qed.
Lemma loop_h win cap L : forall n s start limit items, get_loop n rd' (h s) win cap L start limit items =
  (h (fst (get_loop n rd s win cap L start limit items)), snd (get_loop n rd s win cap L start limit items)).
Proof.
  induction n as [|n IH]; intros s start limit items; [reflexivity|]. cbn [get_loop]. destruct (cut win cap start limit) as [qs|]; [|reflexivity].
  rewrite pass_h. destruct (pass rd s qs items 0) as [[[s' i] v] e]. destruct e; try reflexivity. cbv zeta.
  destruct ((v =? 0) || (Z.of_nat (length i) =? L) || (Z.of_nat (length win) =? limit))%bool; [reflexivity|].
  destruct (Z.of_nat (length win) <=? L + v); apply IH.
Qed.
Lemma entries_h s win cap L : get_entries rd' (h s) win cap L = (h (fst (get_entries rd s win cap L)), snd (get_entries rd s win cap L)).
Proof. unfold get_entries. destruct win; [reflexivity|]. apply loop_h. Qed.
End Loop.
Lemma topics_at b s now g L cut tops : forall acc, lookup_topics (at_ b s) now g L cut tops acc = lookup_topics s now g L cut tops acc.
Proof.
  induction tops as [|[h off] r IH]; intros acc; [reflexivity|]. cbn [lookup_topics]. cbn [at_ set_mem d_tw d_win]. destruct (L <? Z.of_nat (length acc)); [reflexivity|].
  destruct (tw_lookup _ _ _ _ _ _ _); [apply IH|reflexivity].
Qed.
Lemma at_get b c s now g q : db_get (fine c) (at_ b s) now g q = let '(s', q', r) := db_get c s now g q in (at_ b s', q', r).
Proof.
  unfold db_get. change (d_closed (at_ b s)) with (d_closed s). change (d_trie (at_ b s)) with (d_trie s).
  destruct (d_closed s); [reflexivity|]. destruct (Nat.eqb _ _); [reflexivity|]. destruct (_ <? _)%N; [reflexivity|].
  cbn [fine c_def c_max c_pd]. destruct (parse_limit _ _ _ _ _) as [L cut]. cbv zeta. rewrite topics_at. destruct (lookup_topics _ _ _ _ _ _ _) as [win|]; [|reflexivity].
  rewrite (entries_h _ (read_one c (if (q_contract q =? 0)%N then MasterContract else q_contract q) cut) (at_ b)) by (intros; apply at_read). destruct (get_entries _ _ _ _ _) as [s' r]. cbn [fst snd]. destruct r; reflexivity.
Qed.

(** * Sync *)
Definition ats (b : Z) (st : sst) : sst := ss_set_db st (at_ b (ss_db st)).
Definition ats_b (b : Z) (r : bres) : bres := match r with BOk st m => BOk (ats b st) m | BErr st => BErr (ats b st) | BPanic => BPanic end.
Definition ats_s (b : Z) (r : sres) : sres := match r with SyOk st => SyOk (ats b st) | SyErr st => SyErr (ats b st) | SyPanic => SyPanic end.
Lemma at_entries b t : forall qs st m, block_entries false (ats b st) t qs m = ats_b b (block_entries false st t qs m).
Proof.
  induction qs as [|q r IH]; intros st m; [reflexivity|]. cbn [block_entries].
  change (mem_lookup (d_mem (ss_db (ats b st))) t q) with (mem_lookup (d_mem (ss_db st)) t q).
  destruct (mem_lookup (d_mem (ss_db st)) t q); try reflexivity;
    try (exact (IH (mkSS (ss_db st) (ss_ww st) (ss_bw st) (ss_upper st) (ss_count st) true) m)).
  destruct (entry_unmarshal v) as [x|]; [|reflexivity]. change (ss_bw (ats b st)) with (ss_bw st). cbv zeta.
  destruct (bw_append _ _ _) as [bb|bb e|]; [|destruct e; try reflexivity|reflexivity].
  - exact (IH (mkSS (set_trie (ss_db st) (d_trie (ss_db st))) (ss_ww st) bb (ss_upper st) (ss_count st + 1) (ss_err1 st)) _).
  - exact (IH (mkSS (ss_db st) (ss_ww st) bb (ss_upper st) (ss_count st) (ss_err1 st)) m).
Qed.
Lemma at_windows b now : forall m st, block_windows now (ats b st) m = ats_s b (block_windows now st m).
Proof.
  induction m as [|[h es] r IH]; intros st; [reflexivity|]. cbn [block_windows]. change (d_trie (ss_db (ats b st))) with (d_trie (ss_db st)).
  change (ss_ww (ats b st)) with (ss_ww st). destruct (getOffset (d_trie (ss_db st)) h) as [off|]; [|reflexivity].
  destruct (ww_append now (ss_ww st) h off es) as [w o|w|]; try reflexivity.
  destruct (setOffset (d_trie (ss_db st)) (h, o)) as [tr ok]. cbv zeta. destruct ok; [|reflexivity].
  exact (IH (mkSS (set_trie (ss_db st) tr) w (ss_bw st) (ss_upper st) (ss_count st) (ss_err1 st))).
Qed.
Lemma at_abort b st : sync_abort (ats b st) = match sync_abort st with Some s => Some (at_ b s) | None => None end.
Proof.
  unfold sync_abort. cbv zeta. change (ss_ww (ats b st)) with (ss_ww st). change (ss_bw (ats b st)) with (ss_bw st).
  destruct (ww_fold _ _ _); [|reflexivity]. destruct (free_all _ _); reflexivity.
Qed.
Lemma at_write b st : sync_write (ats b st) = ats_s b (sync_write st).
Proof.
  unfold sync_write. change (ss_ww (ats b st)) with (ss_ww st). change (ss_bw (ats b st)) with (ss_bw st). change (ss_upper (ats b st)) with (ss_upper st).
  destruct (ss_upper st =? 0)%N; [reflexivity|]. rewrite at_abort.
  destruct (ww_write (ss_ww st)), (bw_commit (ss_bw st) (ss_upper st)); try reflexivity; destruct (sync_abort st); reflexivity.
Qed.
Lemma at_block b now ord keys st t : sync_block now ord keys (ats b st) t = ats_s b (sync_block now ord keys st t).
Proof.
  unfold sync_block. change (block_keys (d_mem (ss_db (ats b st))) t) with (block_keys (d_mem (ss_db st)) t). cbv zeta.
  destruct (seq_asc (block_keys (d_mem (ss_db st)) t)) as [|q r] eqn:Eq; [reflexivity|]. rewrite <- Eq. clear Eq.
  change (raise_upper (ats b st) (seq_asc (block_keys (d_mem (ss_db st)) t))) with (ats b (raise_upper st (seq_asc (block_keys (d_mem (ss_db st)) t)))).
  rewrite at_entries. destruct (block_entries _ _ _ _ _) as [st1 m|st1|]; cbn [ats_b]; try reflexivity.
  rewrite at_windows. destruct (block_windows now st1 (ord m)) as [st2|st2|]; cbn [ats_s]; try reflexivity.
  change (ss_err1 (ats b st2)) with (ss_err1 st2). destruct (ss_err1 st2); [reflexivity|]. rewrite at_write.
  destruct (sync_write st2) as [st3|st3|]; cbn [ats_s]; try reflexivity.
  change (d_tw (ss_db (ats b st3))) with (d_tw (ss_db st3)). destruct (tw_release keys (d_tw (ss_db st3)) t) as [tw|]; [|reflexivity].
  change (d_mem (set_tw (ss_db (ats b st3)) tw)) with (lg b (d_mem (ss_db st3))). rewrite lg_free.
  change (d_mem (set_tw (ss_db st3) tw)) with (d_mem (ss_db st3)). destruct (mem_free (d_mem (ss_db st3)) t) as [mm r']. cbn [fst snd].
  destruct r'; reflexivity.
Qed.
Lemma at_blocks b now ord keys : forall ts st, sync_blocks (sync_block now ord keys) (ats b st) ts = ats_s b (sync_blocks (sync_block now ord keys) st ts).
Proof.
  induction ts as [|t r IH]; intros st; [reflexivity|]. cbn [sync_blocks]. rewrite at_block. destruct (sync_block now ord keys st t); try reflexivity. apply IH.
Qed.

(** * The current slot stays *)
Lemma entries_mem t : forall qs st m st' m', block_entries false st t qs m = BOk st' m' -> d_mem (ss_db st') = d_mem (ss_db st).
Proof.
  induction qs as [|q r IH]; intros st m st' m'; cbn [block_entries]; [intros [= <- _]; reflexivity|].
  destruct (mem_lookup _ t q); try discriminate; try (intros E; apply IH in E; exact E).
  destruct (entry_unmarshal v) as [x|]; [|discriminate]. cbv zeta. destruct (bw_append _ _ _) as [bb|bb e|]; [|destruct e; try discriminate|discriminate]; intros E; apply IH in E; exact E.
Qed.
Lemma windows_mem now : forall m st st', block_windows now st m = SyOk st' -> d_mem (ss_db st') = d_mem (ss_db st).
Proof.
  induction m as [|[h es] r IH]; intros st st'; cbn [block_windows]; [intros [= <-]; reflexivity|].
  destruct (getOffset _ h) as [off|]; [|discriminate]. destruct (ww_append now (ss_ww st) h off es) as [w o|w|]; try discriminate.
  destruct (setOffset _ (h, o)) as [tr ok]. cbv zeta. destruct ok; [|discriminate]. intros E. apply IH in E. exact E.
Qed.
Lemma write_mem st st' : sync_write st = SyOk st' -> d_mem (ss_db st') = d_mem (ss_db st).
Proof.
  unfold sync_write. destruct (ss_upper st =? 0)%N; [intros [= <-]; reflexivity|]. destruct (ww_write (ss_ww st)), (bw_commit (ss_bw st) (ss_upper st)); try (destruct (sync_abort st); discriminate).
  intros [= <-]. reflexivity.
Qed.
Lemma free_cur m t m' r : mem_free m t = (m', r) -> m_cur m' = m_cur m.
Proof.
  unfold mem_free, releaseLog. destruct (live m t) as [p|]; [|intros [= <- _]; reflexivity].
  destruct (nth_error (m_blocks m) p); intros [= <- _]; reflexivity.
Qed.
Lemma block_cur now ord keys st t st' : sync_block now ord keys st t = SyOk st' -> m_cur (d_mem (ss_db st')) = m_cur (d_mem (ss_db st)).
Proof.
  unfold sync_block. cbv zeta. set (qs := seq_asc _). intros E.
  assert (E' : match block_entries false (raise_upper st qs) t qs [] with
      | BPanic => SyPanic | BErr st => SyErr st
      | BOk st m => match block_windows now st (ord m) with SyPanic => SyPanic | SyErr st => SyErr st
          | SyOk st => if ss_err1 st then SyErr st else match sync_write st with SyPanic => SyPanic | SyErr st => SyErr st
             | SyOk st => match tw_release keys (d_tw (ss_db st)) t with None => SyErr st
                 | Some tw => match mem_free (d_mem (set_tw (ss_db st) tw)) t with
                              | (mm, MOk) => SyOk (ss_set_db st (set_mem (set_tw (ss_db st) tw) mm))
                              | (mm, _) => SyErr (ss_set_db st (set_mem (set_tw (ss_db st) tw) mm)) end end end end end = SyOk st' \/ st' = st).
  { destruct qs; [right; congruence|left; exact E]. }
  clear E. destruct E' as [E|E]; [|now rewrite E].
  destruct (block_entries _ _ _ _ _) as [st1 m|st1|] eqn:E1; try discriminate. apply entries_mem in E1.
  destruct (block_windows now st1 (ord m)) as [st2|st2|] eqn:E2; try discriminate. apply windows_mem in E2.
  destruct (ss_err1 st2); [discriminate|]. destruct (sync_write st2) as [st3|st3|] eqn:E3; try discriminate. apply write_mem in E3.
  destruct (tw_release _ _ _) as [tw|]; [|discriminate]. destruct (mem_free (d_mem (set_tw (ss_db st3) tw)) t) as [mm r'] eqn:E4. apply free_cur in E4.
  destruct r'; try discriminate. injection E as <-. cbn [ss_set_db ss_db set_mem d_mem]. rewrite E4. cbn [set_tw d_mem]. rewrite E3, E2, E1. reflexivity.
Qed.
Lemma blocks_cur now ord keys : forall ts st st', sync_blocks (sync_block now ord keys) st ts = SyOk st' -> m_cur (d_mem (ss_db st')) = m_cur (d_mem (ss_db st)).
Proof.
  induction ts as [|t r IH]; intros st st'; cbn [sync_blocks]; [intros [= <-]; reflexivity|].
  destruct (sync_block now ord keys st t) as [st1|st1|] eqn:E1; try discriminate. apply block_cur in E1. intros E. apply IH in E. congruence.
Qed.
Lemma get_cur c s now g q s' q' r : db_get c s now g q = (s', q', r) -> m_cur (d_mem s') = m_cur (d_mem s).
Proof.
  unfold db_get. destruct (d_closed s); [intros [= <- _ _]; reflexivity|]. destruct (Nat.eqb _ _); [intros [= <- _ _]; reflexivity|].
  destruct (_ <? _)%N; [intros [= <- _ _]; reflexivity|]. destruct (parse_limit _ _ _ _ _) as [L cutoff].
  destruct (lookup_topics _ _ _ _ _ _ _) as [win|]; [|intros [= <- _ _]; reflexivity].
  destruct (get_entries _ _ _ _ _) as [s1 res] eqn:E.
  assert (H : m_cur (d_mem s1) = m_cur (d_mem s)).
  { revert E. apply (get_inv _ (fun x => m_cur (d_mem x) = m_cur (d_mem s))); [|reflexivity]. intros a z b o Ha Hr. rewrite <- Ha. revert Hr. clear.
    unfold read_one. destruct (mem_get (c_mem c) (d_mem a) z) as [m gr] eqn:Em. apply mem_get_same in Em as (qr & qf & qb & ->).
    destruct gr; repeat (match goal with |- context [match ?x with _ => _ end] => destruct x end); intros [= <- _]; reflexivity. }
  destruct res; intros [= <- _ _]; exact H.
Qed.
