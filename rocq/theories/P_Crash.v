(** Proofs about crashes: what Open finds when nobody called Close. *)
From Verif Require Import M_Bytes P_Bytes M_File M_Hash M_Bloom M_Entry P_Codec M_MsgId M_Mac P_Mac M_Topic M_Trie M_Query M_IndexBlock M_Lease
  M_BlockRange M_BlockStore M_WinBlock M_Wal M_MemDB M_Window M_Get M_DBInfo M_DB S_Trie S_Window S_BlockStore S_MemDB S_Get S_DB S_Session S_Restart
  P_Topic P_Trie P_Trie2 P_Trie3 P_BlockStore2 P_BlockStore3 P_BlockStore4 P_Window2 P_Window3 P_Window4 P_WindowEx P_WinOpen P_Get P_MemBlock P_MemDB P_MemGet P_MemLog P_MemWal P_MemKeep P_MemReopen P_DB
  P_Session P_Session2 P_Session3 P_Session4 P_Restart P_Restart2 P_Restart3 P_Restart4 P_Restart5 P_Restart6.
From Coq Require Import Lia ZifyBool ZifyNat ZifyN Permutation Sorted.
Open Scope Z_scope.

(** * The file of free blocks *)
Definition lfk (s s' : db) : Prop := d_lfile s' = d_lfile s.
Lemma lfk_refl s : lfk s s.
Proof. reflexivity. Qed.
Lemma lfk_trans a b d : lfk a b -> lfk b d -> lfk a d.
Proof. unfold lfk. congruence. Qed.

Lemma sync_abort_lfk st s : sync_abort st = Some s -> lfk (ss_db st) s.
Proof.
  unfold sync_abort. destruct (ww_fold _ _ _).
  - destruct (free_all _ _); [|discriminate]. intros [= <-]. reflexivity.
  - intros [= <-]. reflexivity.
Qed.
Lemma sync_write_lfk st r : sync_write st = r ->
  match r with SyOk st' | SyErr st' => lfk (ss_db st) (ss_db st') | SyPanic => True end.
Proof.
  intros <-. unfold sync_write. destruct (_ =? 0)%N; [apply lfk_refl|].
  destruct (ww_write _) as [w|]; [destruct (bw_commit _ _) as [b|]|]; cbn [ss_db].
  - reflexivity.
  - destruct (sync_abort st) eqn:E; [|exact I]. now apply sync_abort_lfk.
  - destruct (sync_abort st) eqn:E; [|exact I]. now apply sync_abort_lfk.
Qed.
Lemma block_entries_lfk rec t seqs : forall st m,
  match block_entries rec st t seqs m with
  | BOk st' _ | BErr st' => lfk (ss_db st) (ss_db st')
  | BPanic => True
  end.
Proof.
  induction seqs as [|q r IH]; intros st m; cbn [block_entries]; [apply lfk_refl|].
  destruct (mem_lookup _ _ _); try exact I; try (specialize (IH (mkSS (ss_db st) (ss_ww st) (ss_bw st) (ss_upper st) (ss_count st) true) m); exact IH).
  destruct (entry_unmarshal v) as [x|]; [|exact I]. destruct (bw_append _ _ _) as [b|b e|]; [| |exact I].
  - destruct (if rec then _ else _) as [tr|]; [|exact I].
    match goal with |- context [block_entries rec ?a t r ?b] => specialize (IH a b) end.
    cbn [ss_db] in IH. destruct (block_entries _ _ _ _ _); auto; (eapply lfk_trans; [|exact IH]); (reflexivity).
  - destruct e; try apply lfk_refl.
    match goal with |- context [block_entries rec ?a t r ?b] => specialize (IH a b) end. exact IH.
Qed.
Lemma block_windows_lfk now m : forall st,
  match block_windows now st m with
  | SyOk st' | SyErr st' => lfk (ss_db st) (ss_db st')
  | SyPanic => True
  end.
Proof.
  induction m as [|[h es] r IH]; intros st; cbn [block_windows]; [apply lfk_refl|].
  destruct (getOffset _ _); [|apply lfk_refl]. destruct (ww_append _ _ _ _ _) as [w o|w|]; [|apply lfk_refl|exact I].
  destruct (setOffset _ _) as [tr ok]. destruct ok; [|reflexivity].
  match goal with |- context [block_windows now ?a r] => specialize (IH a) end. cbn [ss_db] in IH.
  destruct (block_windows _ _ _); auto; (eapply lfk_trans; [|exact IH]); (reflexivity).
Qed.
Lemma set_mem_lfk s m : lfk s (set_mem s m).
Proof. reflexivity. Qed.
Lemma sync_block_lfk now ord keys st t :
  match sync_block now ord keys st t with
  | SyOk st' | SyErr st' => lfk (ss_db st) (ss_db st')
  | SyPanic => True
  end.
Proof.
  unfold sync_block. destruct (seq_asc _) as [|q r] eqn:Eq; [apply lfk_refl|].
  match goal with |- context [block_entries false ?a t ?b []] => pose proof (block_entries_lfk false t b a []) as H1 end. cbn [raise_upper ss_db] in H1.
  destruct (block_entries _ _ _ _ _) as [st1 m|st1|]; [|exact H1|exact I].
  pose proof (block_windows_lfk now (ord m) st1) as H2.
  destruct (block_windows _ _ _) as [st2|st2|]; [|eapply lfk_trans; eassumption|exact I].
  assert (H12 := lfk_trans _ _ _ H1 H2). destruct (ss_err1 st2); [exact H12|].
  pose proof (sync_write_lfk st2 _ eq_refl) as H3.
  destruct (sync_write st2) as [st3|st3|]; [|eapply lfk_trans; eassumption|exact I].
  assert (H123 := lfk_trans _ _ _ H12 H3). destruct (tw_release _ _ _) as [tw|]; [|exact H123].
  destruct (mem_free _ _) as [mm mr]. cbn [ss_db ss_set_db].
  assert (H4 : lfk (ss_db st) (set_mem (set_tw (ss_db st3) tw) mm)).
  { eapply lfk_trans; [exact H123|]. reflexivity. }
  destruct mr; exact H4.
Qed.
Lemma sync_blocks_lfk f ts : (forall st t, match f st t with SyOk st' | SyErr st' => lfk (ss_db st) (ss_db st') | SyPanic => True end) ->
  forall st, match sync_blocks f st ts with SyOk st' | SyErr st' => lfk (ss_db st) (ss_db st') | SyPanic => True end.
Proof.
  intro Hf. induction ts as [|t r IH]; intro st; cbn [sync_blocks]; [apply lfk_refl|].
  pose proof (Hf st t) as H. destruct (f st t) as [st1|st1|]; [|exact H|exact I].
  specialize (IH st1). destruct (sync_blocks _ _ _); auto; eapply lfk_trans; eassumption.
Qed.
Lemma db_sync_lfk now ord s s' r : db_sync now ord s = (s', r) -> lfk s s'.
Proof.
  unfold db_sync, start_sync. destruct (_ =? _)%N; [intros [= <- _]; apply lfk_refl|].
  destruct (newBlockWriter _ _ _) as [b|]; [|intros [= <- _]; apply lfk_refl].
  match goal with |- context [sync_blocks ?f ?st ?ts] => pose proof (sync_blocks_lfk f ts (sync_block_lfk _ _ _) st) as H end. cbn [ss_db] in H.
  destruct (sync_blocks _ _ _) as [st|st|]; [intros [= <- _]; exact H| |intros [= <- _]; apply lfk_refl].
  destruct (sync_abort st) eqn:E; intros [= <- _]; [|apply lfk_refl].
  eapply lfk_trans; [exact H|]. now apply sync_abort_lfk.
Qed.

(** ** Open *)
Lemma recover_block_lfk now ord st pend t st' pend' b :
  recover_block now ord (st, pend) t = Some (st', pend', b) -> lfk (ss_db st) (ss_db st').
Proof.
  unfold recover_block. destruct (seq_asc _) as [|q r]; [intros [= <- _ _]; apply lfk_refl|].
  match goal with |- context [block_entries true ?a t ?b []] => pose proof (block_entries_lfk true t b a []) as H1 end. cbn [raise_upper ss_db] in H1.
  destruct (block_entries _ _ _ _ _) as [st1 m|st1|]; [|intros [= <- _ _]; exact H1|discriminate].
  destruct (ss_err1 st1); [intros [= <- _ _]; exact H1|].
  match goal with |- context [block_windows now st1 ?a] => pose proof (block_windows_lfk now a st1) as H2 end.
  destruct (block_windows _ _ _) as [st2|st2|]; [|intros [= <- _ _]; eapply lfk_trans; eassumption|discriminate].
  assert (H12 := lfk_trans _ _ _ H1 H2).
  pose proof (sync_write_lfk st2 _ eq_refl) as H3.
  destruct (sync_write st2) as [st3|st3|]; [|intros [= <- _ _]; eapply lfk_trans; eassumption|discriminate].
  assert (H123 := lfk_trans _ _ _ H12 H3).
  destruct (mem_free _ _) as [mm mr]. destruct mr; intros [= <- _ _]; (eapply lfk_trans; [exact H123|]); apply set_mem_lfk.
Qed.
Lemma recover_blocks_lfk now ord ts : forall st pend st' pend' b,
  recover_blocks now ord (st, pend) ts = Some (st', pend', b) -> lfk (ss_db st) (ss_db st').
Proof.
  induction ts as [|t r IH]; intros st pend st' pend' b; cbn [recover_blocks]; [intros [= <- _ _]; apply lfk_refl|].
  destruct (recover_block now ord (st, pend) t) as [[[st1 pend1] b1]|] eqn:E; [|discriminate].
  apply recover_block_lfk in E. destruct b1; [|intros [= <- _ _]; exact E].
  intro H. apply IH in H. eapply lfk_trans; eassumption.
Qed.
Lemma recover_lfk now ord s s' : recover now ord s = Some s' -> lfk s s'.
Proof.
  unfold recover, start_sync. destruct (_ =? _)%N; [intros [= <-]; apply lfk_refl|].
  destruct (newBlockWriter _ _ _) as [b|]; [|intros [= <-]; apply lfk_refl].
  destruct (recover_blocks _ _ _ _) as [[[st pend] ok]|] eqn:E; [|discriminate].
  apply recover_blocks_lfk in E. cbn [ss_db] in E. destruct ok.
  - pose proof (block_windows_lfk now (ord pend) st) as H2. destruct (block_windows _ _ _) as [st2|st2|]; try discriminate.
    pose proof (sync_write_lfk st2 _ eq_refl) as H3. destruct (sync_write st2) as [st3|st3|]; try discriminate.
    intros [= <-]. eapply lfk_trans; [exact E|]. eapply lfk_trans; eassumption.
  - destruct (ss_err1 st); [discriminate|]. intro Ha. apply sync_abort_lfk in Ha. eapply lfk_trans; eassumption.
Qed.


(** * Get does not look at the sequence *)
Section hom.
  Context {S1 : Type} (f : S1 -> S1) (rd : S1 -> N -> S1 * outcome).
  Hypothesis Hrd : forall s q, rd (f s) q = (f (fst (rd s q)), snd (rd s q)).
  Lemma pass_hom qs : forall s items inv, pass rd (f s) qs items inv =
    let '(s', a, b, e) := pass rd s qs items inv in (f s', a, b, e).
  Proof.
    induction qs as [|q r IH]; intros s items inv; cbn [pass]; [reflexivity|]. destruct (q =? 0)%N; [apply IH|].
    rewrite Hrd. destruct (rd s q) as [s1 o]. cbn [fst snd]. destruct o; try reflexivity; apply IH.
  Qed.
  Lemma loop_hom win cap L fuel : forall s start limit items, get_loop fuel rd (f s) win cap L start limit items =
    let (s', r) := get_loop fuel rd s win cap L start limit items in (f s', r).
  Proof.
    induction fuel as [|fuel IH]; intros s start limit items; cbn [get_loop]; [reflexivity|]. destruct (cut _ _ _ _) as [qs|]; [|reflexivity].
    rewrite pass_hom. destruct (pass rd s qs items 0) as [[[s1 a] b] e]. destruct e; try reflexivity.
    cbv zeta. match goal with |- context [if ?x then (f _, _) else _] => destruct x end; [reflexivity|].
    match goal with |- context [if ?x then _ else _] => destruct x end; apply IH.
  Qed.
  Lemma entries_hom s win cap L : get_entries rd (f s) win cap L = let (s', r) := get_entries rd s win cap L in (f s', r).
  Proof. unfold get_entries. destruct win; [reflexivity|]. apply loop_hom. Qed.
End hom.
Lemma read_one_seq c k cut n s q : read_one c k cut (set_seq s n) q = (set_seq (fst (read_one c k cut s q)) n, snd (read_one c k cut s q)).
Proof.
  unfold read_one. change (d_mem (set_seq s n)) with (d_mem s). destruct (mem_get (c_mem c) (d_mem s) q) as [m r]. destruct r; try reflexivity.
  1: destruct (entry_unmarshal v); [|reflexivity]; destruct (cache_message _ _) as [[id val]|]; reflexivity.
  all: cbn [set_mem set_seq d_index d_data]; destruct (readEntry _ _) as [[]|]; try reflexivity; destruct (readMessage _ _) as [[id val]|]; reflexivity.
Qed.
Lemma topics_seq n now g L cutoff tops : forall s win, lookup_topics (set_seq s n) now g L cutoff tops win = lookup_topics s now g L cutoff tops win.
Proof. induction tops as [|[h off] r IH]; intros s win; cbn [lookup_topics]; [reflexivity|]. destruct (L <? _); [reflexivity|].
  change (d_tw (set_seq s n)) with (d_tw s). change (d_win (set_seq s n)) with (d_win s). destruct (tw_lookup _ _ _ _ _ _ _); [apply IH|reflexivity]. Qed.
Lemma get_seq c s n now g q : db_get c (set_seq s n) now g q = let '(s', q', r) := db_get c s now g q in (set_seq s' n, q', r).
Proof.
  unfold db_get. change (d_closed (set_seq s n)) with (d_closed s). destruct (d_closed s); [reflexivity|].
  destruct (Nat.eqb _ _); [reflexivity|]. destruct (_ <? _)%N; [reflexivity|]. destruct (parse_limit _ _ _ _ _) as [L cutoff].
  rewrite topics_seq. change (d_trie (set_seq s n)) with (d_trie s). match goal with |- context [lookup_topics ?a ?b ?d ?e ?h ?i ?j] => destruct (lookup_topics a b d e h i j) as [win|] end; [|reflexivity].
  rewrite (entries_hom (fun s => set_seq s n)) by (intros; apply read_one_seq). destruct (get_entries _ _ _ _ _) as [s1 r]. destruct r; reflexivity.
Qed.

(** * What is left after a crash *)
(** Written by Sync, or in a log. *)
Definition safe (L : list lg) (g : gstate) (m : gmsg) : Prop := in_store g m = true \/ In (gm_seq m) (map rkey (logged L)).

Lemma raws_front a b : raws (a ++ b) -> raws a.
Proof. intros Hr x m y ->. apply (Hr x m (y ++ b)). now rewrite <- app_assoc. Qed.
Lemma list_front c a b n : list_part c (a ++ b) n -> list_part c a n.
Proof.
  intros [L1 L2 L3 L4]. apply Forall_app in L1 as [L1 _]. apply Forall_app in L3 as [L3 _]. split; auto.
  - rewrite map_app in L2. revert L2. generalize (map gm_seq a), (map gm_seq b). clear. intros x y. induction x as [|k x IH]; cbn [app]; intros Hs; [constructor|].
    inversion Hs as [|? ? Hs' Hf]; subst. constructor; [auto|]. apply Forall_app in Hf. tauto.
  - intros m1 m2 H1 H2. apply L4; apply in_app_iff; now left.
Qed.

Lemma crash_step c gens s l g off H first M T e t now ord immut enc n0 cnt0 L : setting_ok c gens -> inv c s l g off H first M T e t -> kept c s l g off H first t -> mkeep (d_mem s) (g_slot g) L ->
  0 < c_logint (c_mem c) -> c_dur (c_mem c) <= now ->
  0 <= t < now -> now < 2 ^ 32 * 1000000000 -> trunc t (c_logint (c_mem c)) < trunc now (c_dur (c_mem c)) -> e <= 130000 ->
  (forall h, (length (filter (of_hash h) l) <= entriesPerWindowBlock)%nat) -> (forall m, Permutation (ord m) m) ->
  (n0 <> 0 -> n0 < 2 ^ 64 -> d_info s = write_info 1 n0 cnt0 -> d_lfile s = lease_write (defrag (newLease (c_find c) (c_min c))) ->
  exists a b s' g' off' H' first' M' T', l = a ++ b /\ (forall m, In m l -> safe L g m -> In m a) /\
    db_open c gens now ord immut enc (on_disk s) = Opened s' /\
    inv c (set_seq s' (d_seq s)) a g' off' H' first' M' T' (e + 1)%Z now /\ (first <> None -> first' = first))%N.
Proof.
  intros Hset Hi K K1 Hli Hdur Ht Hnow Htr He Hsh Hord Hn0 Hq Einfo Elf.
  destruct K as [(L0 & _ & K3) K4 K5 K6 K7 K8 K9]. pose proof Hi as [Icl Ienc Il Im Itw Iwin Ist Itr Icur IT].
  pose proof K1 as [[Mw Dw] [O1 O2 O3 O4 O5] _].
  set (lgd := fun k => existsb (N.eqb k) (map rkey (logged L))).
  assert (Hlgd : forall k, lgd k = true <-> In k (map rkey (logged L))).
  { intros k. unfold lgd. rewrite existsb_exists. split; [intros (x & Hx & E); apply N.eqb_eq in E; now subst|intros Hk; exists k; split; [exact Hk|apply N.eqb_refl]]. }
  assert (Hrec : forall x r, In x L -> In r (l_recs x) -> fst (fst r) = false /\ g_slot g (rkey r) = Held (l_t x) (snd r)).
  { intros x [k v] Hx Hr. destruct (in_recs _ _ _ _ _ _ _ Mw Hx Hr) as [E E2]. auto. }
  set (kp := fun m => (in_store g m || lgd (gm_seq m))%bool).
  assert (Hheld : forall m, In m l -> in_store g m = false -> exists u, g_slot g (gm_seq m) = Held u (gm_cache m)).
  { intros m Hm E. destruct (mp_all _ _ _ _ Im m Hm) as [E2|E2]; [unfold in_store in E; rewrite E2 in E; discriminate|exact E2]. }
  assert (Hsplit : l = filter kp l ++ filter (fun x => negb (kp x)) l).
  { apply split_sorted; [exact (lp_sorted _ _ _ Il)|]. intros x y Hx Hy Ex Ey. unfold kp in Ex, Ey. apply orb_false_iff in Ey as [Ey1 Ey2].
    destruct (in_store g x) eqn:Es; [exact (K7 x y Hx Hy Es Ey1)|]. cbn [orb] in Ex. apply Hlgd in Ex. destruct (Hheld y Hy Ey1) as (u & Hu).
    apply (O3 _ _ _ _ Ex Hu). intros Hin. apply Hlgd in Hin. congruence. }
  set (a := filter kp l) in *. set (b := filter (fun x => negb (kp x)) l) in *.
  assert (Ha : forall m, In m a <-> In m l /\ kp m = true) by (intros m; apply filter_In).
  set (sl := fun k => match g_slot g k with Held u v => if lgd k then Held u v else Absent | x => x end).
  set (G2 := mkG (g_cur g) true sl).
  assert (Hin : forall m, in_store G2 m = in_store g m).
  { intros m. unfold in_store, G2, sl; cbn [g_slot]. destruct (g_slot g (gm_seq m)); try reflexivity. destruct (lgd _); reflexivity. }
  assert (Hbn : forall m, In m b -> in_store g m = false).
  { intros m Hm. apply filter_In in Hm as [_ Hm]. apply negb_true_iff, orb_false_iff in Hm. tauto. }
  assert (Hfb : forall P : gmsg -> bool, (forall m, P m = true -> in_store g m = true) -> filter P l = filter P a).
  { intros P HP. rewrite Hsplit at 1. rewrite filter_app. rewrite (filter_none P b); [apply app_nil_r|]. intros m Hm. specialize (Hbn m Hm). destruct (P m) eqn:E; [|reflexivity]. apply HP in E. congruence. }
  assert (Hso : forall h, filter (stored_of G2 h) a = filter (stored_of g h) l).
  { intros h. rewrite (Hfb (stored_of g h)); [apply filter_ext; intros m; unfold stored_of; now rewrite Hin|]. intros m Hm. apply andb_true_iff in Hm. tauto. }
  assert (Hns : nstored G2 a = nstored g l) by (unfold nstored; rewrite (Hfb (in_store g)) by auto; now rewrite (filter_ext _ _ Hin)).
  assert (Ila : list_part c a (d_seq s)) by (eapply list_front; rewrite <- Hsplit; exact Il).
  assert (Hids : forall x, In x L -> l_id x <= t).
  { intros x Hx. apply (in_map l_id) in Hx. pose proof (dw_sort _ _ _ Dw) as Hs. unfold pending in Hs, K3. rewrite map_app in Hs, K3. cbn [map fst] in Hs, K3.
    rewrite app_assoc in Hs.
    assert (Hlt : l_id x < m_curid (d_mem s)).
    { revert Hs Hx. generalize (l_id x), (map l_id L), (map fst (m_queue (d_mem s))), (m_curid (d_mem s)). clear. intros y a q z Hs Hy.
      assert (Hin : In y (a ++ q)) by (apply in_app_iff; now left). revert Hs Hin. generalize (a ++ q). clear. intros w. induction w as [|b w IH]; cbn [app]; intros Hs Hi; [contradiction|]. destruct Hi as [->|Hi].
      - inversion Hs as [|? ? _ Hf]; subst. rewrite Forall_forall in Hf. apply Hf. apply in_app_iff. right. now left.
      - inversion Hs; auto. }
    specialize (K3 (m_curid (d_mem s))). enough (m_curid (d_mem s) <= t) by lia. apply K3. apply in_app_iff. right. now left. }
  destruct (header_back enc 1 n0 cnt0 ltac:(lia) Hq) as (cnt & Ehd & _). rewrite <- Einfo in Ehd.
  destruct (lease_back (c_find c) (c_min c)) as [Elr _]. rewrite K4 in Ist.
  destruct (reopen_files c gens a (d_seq s) G2 off H first M T e now ord immut enc (m_wal (d_mem s)) L (d_win s) (d_index s) (d_data s) (d_info s) (d_lfile s) n0 cnt Hset Ila)
    as (s' & g' & off' & H' & first' & M' & T' & Eo & _ & Hi' & _ & Hf' & _); auto.
  - eapply raws_front. rewrite <- Hsplit. exact K8.
  - destruct Iwin as [W1 W2 W3 W4]. split; auto.
    + now rewrite Hns.
    + intros h. rewrite Hso. apply W3.
    + intros h Eh. destruct W1 as ((n & R) & _). pose proof (r_firstH _ _ _ _ _ _ R h Eh) as Hne. specialize (W3 h). rewrite <- Hso in W3.
      destruct (H h) as [|x r]; [congruence|]. cbn [map] in W3. assert (Hx : In (fst x) (map gm_we (filter (stored_of G2 h) a))) by (eapply Permutation_in; [exact W3|now left]).
      apply in_map_iff in Hx as (m & _ & Hm). apply filter_In in Hm as [Hm Es]. exists m. split; [exact Hm|]. apply andb_true_iff in Es as [Es _]. now apply N.eqb_eq.
  - destruct Ist as [(w & X1 & X2 & X3) [X4 X5] X6]. split.
    + exists w. rewrite Hns. auto.
    + split.
      * intros m Hm. rewrite Hin. apply X4. now apply Ha.
      * intros k Hk. cbn [G2 g_slot]. unfold sl. now rewrite (X5 k Hk).
    + intros m Hm. rewrite Hin. apply X6. now apply Ha.
  - intros k u v Hk. cbn [G2 g_slot] in Hk. unfold sl in Hk. destruct (g_slot g k) as [|u' v'|] eqn:Eg; try discriminate. destruct (lgd k) eqn:Ek; [|discriminate]. injection Hk as <- <-.
    destruct (mp_held _ _ _ _ Im _ _ _ Eg) as (m & Hm & E1 & E2). exists m. split; [|auto]. apply Ha. split; [exact Hm|]. unfold kp. rewrite E1, Ek. apply orb_true_r.
  - intros m Hm. apply Ha in Hm as [Hm Ek]. cbn [G2 g_slot]. unfold sl. destruct (mp_all _ _ _ _ Im m Hm) as [->|(u & Eu)]; [now left|]. right. rewrite Eu. exists u.
    unfold kp, in_store in Ek. rewrite Eu in Ek. cbn [orb] in Ek. now rewrite Ek.
  - intros k Hk. cbn [G2 g_slot] in Hk. unfold sl in Hk. assert (Eg : g_slot g k = Freed) by (destruct (g_slot g k); try discriminate; [destruct (lgd k); discriminate|reflexivity]).
    destruct (mp_freed _ _ _ _ Im k Eg) as (m & Hm & E1). exists m. split; [|exact E1]. apply Ha. split; [exact Hm|]. unfold kp, in_store. now rewrite E1, Eg.
  - intros m1 m2 H1 H2. rewrite !Hin. apply Ha in H1 as [H1 _]. apply Ha in H2 as [H2 _]. now apply K7.
  - destruct Dw as [Y1 Y2 Y3 Y4]. split; auto. cbn [map]. rewrite app_nil_r. clear - Y3. revert Y3. generalize (map l_id L), (map fst (pending (d_mem s))). intros x y. induction x as [|k x IH]; cbn [app]; intros Hs; [constructor|].
    inversion Hs as [|? ? Hs' Hf]; subst. constructor; [auto|]. apply Forall_app in Hf. tauto.
  - intros k u v. cbn [G2 g_slot]. unfold sl. split.
    + intros Hk. destruct (g_slot g k) as [|u' v'|] eqn:Eg; try discriminate. destruct (lgd k) eqn:Ek; [|discriminate]. injection Hk as <- <-.
      apply Hlgd in Ek. apply in_map_iff in Ek as ([[d k'] v] & E1 & Hr). cbn [rkey fst snd] in E1. subst k'. apply in_logged in Hr as (x & Hx & Hr).
      destruct (Hrec x _ Hx Hr) as [E2 E3]. cbn [rkey fst snd] in E2, E3. subst d. rewrite Eg in E3. injection E3 as -> ->. exists x. auto.
    + intros (x & Hx & <- & Hr). destruct (Hrec x _ Hx Hr) as [_ E3]. cbn [rkey fst snd] in E3. rewrite E3. assert (Ek : lgd k = true); [|now rewrite Ek].
      apply Hlgd. apply in_map_iff. exists ((false, k), v). split; [reflexivity|]. apply in_logged. eauto.
  - intros x [k v] Hx Hr. destruct (in_recs _ _ _ _ _ _ _ Mw Hx Hr) as [E E2]. split; [exact E|].
    destruct Mw as [M1 M2 M3]. destruct (vw (d_mem s) (l_t x)) as [[[refs last] d]|] eqn:Ev; [|now apply (M3 x Hx) in Ev].
    destruct (M1 _ _ _ _ Ev) as (rs & [B1 B2 B3 B4 B5 B6 B7]). apply (proj1 (Forall_forall _ _) B2). destruct k as [d0 k]. cbn [fst snd] in *. subst d0. now apply B4.
  - intros x Hx. specialize (Hids x Hx). split; [lia|]. eapply Z.le_lt_trans; [apply trunc_mono; [exact Hli|exact Hids]|exact Htr].
  - lia.
  - etransitivity; [exact IT|]. apply unix_mono. lia.
  - intros h. etransitivity; [|apply (Hsh h)]. rewrite Hsplit. rewrite filter_app, app_length. lia.
  - now rewrite Elf.
  - intros E. congruence.
  - exists a, b, s', g', off', H', first', M', T'. split; [exact Hsplit|]. split; [intros m Hm [Es|Es]; apply Ha; (split; [exact Hm|]); unfold kp; [now rewrite Es|apply Hlgd in Es; rewrite Es; apply orb_true_r]|]. auto.
Qed.
