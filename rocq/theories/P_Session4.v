(** Proofs about sessions: Sync. *)
From Verif Require Import M_Bytes P_Bytes M_File M_Hash M_Bloom M_Entry P_Codec M_MsgId M_Mac P_Mac M_Topic M_Trie M_Query M_IndexBlock M_Lease
  M_BlockRange M_BlockStore M_WinBlock M_Wal M_MemDB M_Window M_Get M_DB S_Trie S_Window S_BlockStore S_MemDB S_Get S_DB S_Session
  P_Topic P_Trie P_Trie2 P_Trie3 P_BlockStore2 P_BlockStore3 P_BlockStore4 P_Window2 P_Window3 P_Window4 P_WindowEx P_Get P_MemBlock P_MemDB P_MemGet P_DB P_Session P_Session2 P_Session3.
From Coq Require Import Lia ZifyBool ZifyNat ZifyN Permutation Sorted.
Open Scope Z_scope.

(** * Lists *)
Lemma sorted_ext : forall a b, StronglySorted N.lt a -> StronglySorted N.lt b -> (forall q, In q a <-> In q b) -> a = b.
Proof.
  induction a as [|x a IH]; intros b Ha Hb He.
  - destruct b as [|y b]; [reflexivity|]. exfalso. apply (He y). now left.
  - destruct b as [|y b]; [exfalso; apply (He x); now left|].
    inversion Ha as [|? ? Ha' Fa]; inversion Hb as [|? ? Hb' Fb]; subst. rewrite Forall_forall in Fa, Fb.
    assert (x = y) as <-.
    { destruct (proj1 (He x) (or_introl eq_refl)) as [E|E]; [now symmetry|]. destruct (proj2 (He y) (or_introl eq_refl)) as [E2|E2]; [assumption|].
      specialize (Fa y E2). specialize (Fb x E). lia. }
    f_equal. apply IH; auto. intros q. specialize (He q). cbn [In] in He. split; intros Hq.
    + destruct (proj1 He (or_intror Hq)) as [<-|]; [|assumption]. specialize (Fa x Hq). lia.
    + destruct (proj2 He (or_intror Hq)) as [<-|]; [|assumption]. specialize (Fb x Hq). lia.
Qed.
Lemma sorted_len n : forall l a, StronglySorted N.lt l -> Forall (fun q => (a < q <= n)%N) l -> (N.of_nat (length l) <= n - a)%N.
Proof.
  induction l as [|x l IH]; intros a Hs Hf; [cbn; lia|]. inversion Hs as [|? ? Hs' Fx]; inversion Hf as [|? ? Hx Hf']; subst.
  specialize (IH x Hs'). cbn [length]. rewrite Forall_forall in Fx, Hf'.
  assert (Forall (fun q => (x < q <= n)%N) l) as H by (apply Forall_forall; intros q Hq; specialize (Fx q Hq); specialize (Hf' q Hq); lia).
  specialize (IH H). lia.
Qed.
Lemma stored_bound c l n g : list_part c l n -> nstored g l <= Z.of_N n /\ Z.of_nat (length l) <= Z.of_N n.
Proof.
  intros [H1 H2 H3 _]. assert (Hl : (N.of_nat (length (map gm_seq l)) <= n - 0)%N).
  { apply sorted_len; [exact H2|]. rewrite Forall_forall in *. intros q Hq. apply in_map_iff in Hq as (m & <- & Hm).
    specialize (H3 m Hm). pose proof (gk_seq _ _ (H1 m Hm)). lia. }
  rewrite map_length in Hl. unfold nstored. pose proof (filter_length_le (in_store g) l). lia.
Qed.
Lemma list_bound c l n : list_part c l n -> Z.of_nat (length l) <= 130000.
Proof.
  intros [H1 H2 H3 _]. assert (Hl : (N.of_nat (length (map gm_seq l)) <= 130000 - 0)%N).
  { apply sorted_len; [exact H2|]. rewrite Forall_forall in *. intros q Hq. apply in_map_iff in Hq as (m & <- & Hm).
    pose proof (gk_seq _ _ (H1 m Hm)). lia. }
  rewrite map_length in Hl. lia.
Qed.
Lemma map_seq_inj c l n : list_part c l n -> forall a b, incl a l -> incl b l -> map gm_seq a = map gm_seq b -> a = b.
Proof.
  intros Hl. induction a as [|x a IH]; intros [|y b] Ha Hb E; cbn [map] in E; try discriminate; [reflexivity|].
  injection E as E1 E2. f_equal; [eapply same_seq; eauto; [apply Ha|apply Hb]; now left|].
  apply IH; auto; intros z Hz; [apply Ha|apply Hb]; now right.
Qed.

(** * The messages of one time block *)
Definition held_t (g : gstate) (t : Z) (m : gmsg) : bool := match g_slot g (gm_seq m) with Held t' _ => t' =? t | _ => false end.

Lemma block_keys_in c mem g t q : ginv (c_mem c) mem g -> (In q (block_keys mem t) <-> exists v, g_slot g q = Held t v).
Proof.
  intros [W Fr Hh F C O Q]. unfold block_keys. rewrite <- A_of_some. destruct (M_MemDB.live mem t) as [p|] eqn:El.
  - destruct (P_MemDB.wi_blk _ _ W _ _ El) as (b & d & rs & [G1 G1'] & _). rewrite G1.
    pose proof (has_spec mem _ t p q W El) as Hs. unfold rec_off in Hs. rewrite G1 in Hs.
    transitivity (afind ik_eqb (mb_recs b) (false, q) <> None); [|tauto]. clear. split.
    + intros Hi. apply in_flat_map in Hi as ([[f k] off] & Hi & Hq). cbn [fst snd] in Hq. destruct f; [contradiction|]. destruct Hq as [->|[]].
      revert Hi. induction (mb_recs b) as [|[k' o] r IH]; intros Hi; [contradiction|]. cbn [afind].
      destruct (ik_eqb k' (false, q)) eqn:E; [discriminate|]. apply IH. destruct Hi as [Hi|Hi]; [|assumption].
      injection Hi as -> _. rewrite (eqb_same _ ik_eqb_iff) in E. discriminate.
    + intros Hn. destruct (afind ik_eqb (mb_recs b) (false, q)) as [off|] eqn:E; [|congruence].
      apply (afind_In _ ik_eqb_iff) in E. apply in_flat_map. exists ((false, q), off). split; [exact E|]. now left.
  - pose proof (P_MemDB.wi_none _ _ W t q El) as E. rewrite E. split; [contradiction|congruence].
Qed.
Lemma seq_asc_in l q : In q (seq_asc l) <-> In q l.
Proof. unfold seq_asc. rewrite <- in_rev. split; apply Permutation_in; [|symmetry]; apply seq_desc_perm. Qed.
Lemma seq_asc_sorted l : StronglySorted N.le (seq_asc l).
Proof.
  unfold seq_asc. induction (seq_desc_sorted l) as [|x r Hs IH Hf]; cbn [rev]; [constructor|].
  assert (G : Forall (fun y => (y <= x)%N) (rev r)) by (apply Forall_rev; eapply Forall_impl; [|exact Hf]; cbn; lia).
  revert IH G. generalize (rev r). intros k IH G. induction IH as [|y k Hk IHk Hy]; cbn [app].
  - constructor; constructor.
  - inversion G; subst. constructor; [auto|]. apply Forall_app. split; [assumption|]. constructor; [assumption|constructor].
Qed.
Lemma held_lookup c mem g t q v : ginv (c_mem c) mem g -> g_slot g q = Held t v -> mem_lookup mem t q = GOk v.
Proof.
  intros [W _ _ _ _ _ _] Hs. rewrite (P_MemDB.lookup_spec mem _ W t q). apply A_of_held in Hs. now rewrite Hs.
Qed.

(** winEntries *)
Definition wadd (ms : list gmsg) (wm : winmap) : winmap := fold_left (fun a m => win_add a (gm_hash m) (gm_we m)) ms wm.
Lemma Neqb_iff a b : (a =? b)%N = true <-> a = b.
Proof. apply N.eqb_eq. Qed.
Lemma wadd_find ms : forall wm h, afind N.eqb (wadd ms wm) h =
  match filter (of_hash h) ms with
  | [] => afind N.eqb wm h
  | x => Some (match afind N.eqb wm h with Some es => es | None => [] end ++ map gm_we x)
  end.
Proof.
  induction ms as [|m ms IH]; intros wm h; [reflexivity|]. cbn [wadd fold_left]. fold (wadd ms (win_add wm (gm_hash m) (gm_we m))).
  rewrite IH. cbn [filter]. unfold of_hash at 2. 
  assert (Ea : afind N.eqb (win_add wm (gm_hash m) (gm_we m)) h =
    if (gm_hash m =? h)%N then Some (match afind N.eqb wm h with Some es => es | None => [] end ++ [gm_we m]) else afind N.eqb wm h).
  { unfold win_add. destruct (N.eqb_spec (gm_hash m) h) as [->|Hn].
    - destruct (afind N.eqb wm h); rewrite (afind_aset_same _ Neqb_iff); reflexivity.
    - destruct (afind N.eqb wm (gm_hash m)); now rewrite (afind_aset_other _ Neqb_iff). }
  rewrite Ea. destruct (gm_hash m =? h)%N; [|reflexivity].
  destruct (filter (of_hash h) ms) as [|x r]; [reflexivity|]. cbn [map]. rewrite <- app_assoc. reflexivity.
Qed.
Lemma aset_nodup {V} (wm : list (N * V)) k v : NoDup (map fst wm) -> NoDup (map fst (aset N.eqb wm k v)).
Proof.
  intros Hn. unfold aset. cbn [map fst]. constructor.
  - intros Hi. apply (adel_keys _ Neqb_iff) in Hi. now destruct Hi.
  - unfold adel. induction wm as [|[k' v'] r IH]; [constructor|]. cbn [map fst filter] in *. inversion Hn; subst.
    destruct (negb _); [|auto]. cbn [map fst]. constructor; [|auto]. intros Hi. apply H1. apply in_map_iff in Hi as (x & E & Hi). apply filter_In in Hi as [Hi _].
    rewrite <- E. now apply in_map.
Qed.
Lemma wadd_nodup ms : forall wm, NoDup (map fst wm) -> NoDup (map fst (wadd ms wm)).
Proof.
  induction ms as [|m ms IH]; intros wm Hn; [exact Hn|]. cbn [wadd fold_left]. apply IH. unfold win_add. destruct (afind _ _ _); now apply aset_nodup.
Qed.
Lemma in_afind {V} (wm : list (N * V)) h es : NoDup (map fst wm) -> In (h, es) wm -> afind N.eqb wm h = Some es.
Proof.
  induction wm as [|[k v] r IH]; intros Hn Hi; [contradiction|]. cbn [afind map fst] in *. inversion Hn; subst.
  destruct Hi as [Hi|Hi]; [injection Hi as -> ->; now rewrite N.eqb_refl|].
  destruct (N.eqb_spec k h) as [->|]; [|auto]. exfalso. apply H1. apply (in_map fst) in Hi. exact Hi.
Qed.
Lemma afind_perm {V} (a b : list (N * V)) h : NoDup (map fst b) -> Permutation a b -> afind N.eqb a h = afind N.eqb b h.
Proof.
  intros Hn Hp. assert (Hn' : NoDup (map fst a)) by (eapply Permutation_NoDup; [apply Permutation_map; symmetry; exact Hp|exact Hn]).
  destruct (afind N.eqb a h) as [v|] eqn:Ea.
  - symmetry. apply in_afind; [exact Hn|]. eapply Permutation_in; [exact Hp|]. now apply (afind_In _ Neqb_iff).
  - destruct (afind N.eqb b h) as [v|] eqn:Eb; [|reflexivity]. apply (afind_In _ Neqb_iff) in Eb.
    apply (Permutation_in _ (Permutation_sym Hp)) in Eb. rewrite (in_afind _ _ _ Hn' Eb) in Ea. discriminate.
Qed.
Definition lens (wm : winmap) : nat := length (concat (map snd wm)).
Lemma lens_perm a b : Permutation a b -> lens a = lens b.
Proof. intros Hp. unfold lens. apply Permutation_length, concat_perm. now apply Permutation_map. Qed.
Lemma lens_add wm h e : NoDup (map fst wm) -> lens (win_add wm h e) = S (lens wm).
Proof.
  intros Hn. unfold win_add. destruct (afind N.eqb wm h) as [es|] eqn:E.
  - assert (Hp : Permutation wm ((h, es) :: adel N.eqb wm h)).
    { revert Hn E. clear. induction wm as [|[k v] r IH]; intros Hn E; [discriminate|]. cbn [afind map fst] in *. inversion Hn; subst. unfold adel. cbn [filter fst].
      destruct (N.eqb_spec k h) as [->|Hk]; cbn [negb].
      - apply Some_inj in E. subst v. constructor. fold (adel N.eqb r h). enough (adel N.eqb r h = r) as -> by reflexivity.
        unfold adel. clear - H1. induction r as [|[k v] r IH]; [reflexivity|]. cbn [filter fst map In] in *.
        destruct (N.eqb_spec k h) as [->|]; [exfalso; apply H1; now left|]. cbn [negb]. f_equal. apply IH. tauto.
      - fold (adel N.eqb r h). rewrite perm_swap. constructor. auto. }
    rewrite (lens_perm _ _ Hp). unfold lens, aset. cbn [map snd concat]. rewrite !app_length. cbn [length]. lia.
  - unfold lens, aset. cbn [map snd concat]. enough (adel N.eqb wm h = wm) as -> by (cbn [app length]; lia).
    revert E. clear. unfold adel. induction wm as [|[k v] r IH]; intros E; [reflexivity|]. cbn [filter fst afind] in *.
    destruct (N.eqb k h); [discriminate|]. cbn [negb]. f_equal. auto.
Qed.
Lemma wadd_lens ms : forall wm, NoDup (map fst wm) -> lens (wadd ms wm) = (lens wm + length ms)%nat.
Proof.
  induction ms as [|m ms IH]; intros wm Hn; [cbn [wadd fold_left length]; lia|]. cbn [wadd fold_left length]. fold (wadd ms (win_add wm (gm_hash m) (gm_we m))). rewrite IH, lens_add by (try assumption; unfold win_add; destruct (afind _ _ _); now apply aset_nodup). lia.
Qed.

(** * The messages to the block writer *)
Definition ss_bw_count (st : sst) (b : bwriter) (n : N) : sst := mkSS (ss_db st) (ss_ww st) b (ss_upper st) n (ss_err1 st).

Definition todo (M : ghost) (m : gmsg) : bool := match M (gm_seq m) with None => true | _ => false end.
Lemma filter_less {A} (f g : A -> bool) l m : In m l -> f m = true -> g m = false -> (forall x, g x = true -> f x = true) ->
  (length (filter g l) + 1 <= length (filter f l))%nat.
Proof.
  intros Hm Hf Hg Hle. assert (Hle' : forall k, (length (filter g k) <= length (filter f k))%nat).
  { induction k as [|a k IH]; [cbn; lia|]. cbn [filter]. destruct (g a) eqn:E; [rewrite (Hle a E); cbn [length]; lia|]. destruct (f a); cbn [length]; lia. }
  induction l as [|a l IH]; [contradiction|]. cbn [filter]. destruct Hm as [->|Hm].
  - rewrite Hf, Hg. cbn [length]. specialize (Hle' l). lia.
  - specialize (IH Hm). destruct (g a) eqn:E; [rewrite (Hle a E); cbn [length]; lia|]. destruct (f a); cbn [length]; lia.
Qed.
Lemma repeat_shard n : (n < nShards)%nat -> nth_error (repeat (mkShard [] []) nShards) n = Some (mkShard [] []).
Proof. unfold nShards. intros H. do 27 (destruct n as [|n]; [reflexivity|]). lia. Qed.
(** Nothing was freed: nothing is taken from the free list. *)
Lemma allocate_none f mi size l' r : allocate (newLease f mi) size = (l', r) -> l' = newLease f mi /\ (r = APanic \/ r = ANone).
Proof.
  unfold allocate. destruct (size =? 0)%N; [intros [= <- <-]; auto|]. destruct (_ <? _); [intros [= <- <-]; auto|].
  unfold get_shard, newLease. cbn [l_blocks l_find]. destruct (nth_error _ _) as [s|] eqn:En; [|intros [= <- <-]; auto].
  apply nth_error_In, repeat_spec in En. subst s. unfold fb_search. cbn [s_fb length sort_search Nat.ltb Nat.leb nth_error]. intros [= <- <-]; auto.
Qed.
Lemma append_lease f mi w e cache w' : w_lease w = newLease f mi -> bw_append w e cache = WOk w' -> w_lease w' = newLease f mi.
Proof.
  intros Hl. unfold bw_append. destruct (x_seq e =? 0)%N; [discriminate|].
  match goal with |- context [match ?x with Some _ => _ | None => WErr w EIO end] => destruct x as [b|]; [|discriminate] end.
  destruct (has_seq _ _); [discriminate|]. destruct (Nat.ltb _ _); [discriminate|]. destruct (Nat.eqb _ _); [discriminate|].
  unfold place. rewrite Hl. destruct (allocate (newLease f mi) _) as [l' r] eqn:Ea. apply allocate_none in Ea as [-> [ -> | -> ]]; [discriminate|].
  destruct (Nat.leb _ _); [discriminate|]. destruct (block_valid _ _); [|discriminate]. intros [= <-]. reflexivity.
Qed.

Lemma entries_step c l n t mem : list_part c l n -> forall qs st wm M,
  d_mem (ss_db st) = mem ->
  (forall q, In q qs -> exists m, In m l /\ gm_seq m = q /\ mem_lookup mem t q = GOk (gm_cache m)) ->
  StronglySorted N.le qs -> store (ss_bw st) M ->
  w_offset (ss_bw st) + 2 ^ 32 * Z.of_nat (1 + length (filter (todo M) l)) < 2 ^ 63 ->
  exists ms b M' k, block_entries false st t qs wm = BOk (ss_bw_count st b k) (wadd ms wm) /\
    StronglySorted N.lt (map gm_seq ms) /\ incl ms l /\
    (forall q, In q (map gm_seq ms) <-> In q qs /\ M q = None) /\
    store b M' /\ (forall m, In m ms -> M' (gm_seq m) = Some (gm_ie m, gm_body m, false)) /\
    (forall q, ~ In q (map gm_seq ms) -> M' q = M q) /\
    w_offset b <= w_offset (ss_bw st) + 2 ^ 32 * Z.of_nat (length ms) /\
    (forall f mi, w_lease (ss_bw st) = newLease f mi -> w_lease b = newLease f mi) /\
    k = (ss_count st + N.of_nat (length ms))%N.
Proof.
  intros Hl. induction qs as [|q r IH]; intros st wm M Em Hq Hs Hst Hoff.
  - exists [], (ss_bw st), M, (ss_count st). cbn [block_entries wadd fold_left map length].
    split; [now destruct st|]. split; [constructor|]. split; [intros x []|]. split; [intros q; cbn; tauto|]. split; [exact Hst|].
    split; [intros m []|]. split; [reflexivity|]. split; [lia|]. split; [auto|]. cbn. lia.
  - inversion Hs as [|? ? Hs' Fq]; subst. rewrite Forall_forall in Fq.
    destruct (Hq q (or_introl eq_refl)) as (m & Hm & Eq & Elk).
    assert (Hok : gm_ok c m) by (pose proof (lp_ok _ _ _ Hl) as H; rewrite Forall_forall in H; auto).
    cbn [block_entries]. rewrite Elk, (gm_unmarshal c m Hok), gm_skip.
    change (mkIE (e_seq (gm_entry m)) (e_topicSize (gm_entry m)) (e_valueSize (gm_entry m)) 0) with (gm_ie m).
    change (e_topicHash (gm_entry m)) with (gm_hash m). change (e_expiresAt (gm_entry m)) with (s_expires (gm_sent m)).
    pose proof (gm_req c m Hok) as Hreq.
    assert (Hlen : Z.of_nat (length (gm_body m)) < 2 ^ 32) by (destruct Hreq as (_ & _ & _ & Hreq & _); lia).
    assert (Hnone : M q = None -> (length (filter (todo (put M q (gm_ie m, gm_body m, false))) l) + 1 <= length (filter (todo M) l))%nat).
    { intros EM. apply (filter_less _ _ l m Hm).
      - unfold todo. now rewrite Eq, EM.
      - unfold todo, put. now rewrite Eq, N.eqb_refl.
      - intros x. unfold todo, put. destruct (gm_seq x =? q)%N; [discriminate|auto]. }
    assert (Ho1 : w_offset (ss_bw st) + Z.of_nat (length (gm_body m)) < 2 ^ 63) by lia.
    pose proof (store_append _ _ _ _ Hst Hreq Ho1) as Ha. change (x_seq (gm_ie m)) with (gm_seq m) in Ha. rewrite Eq in Ha.
    destruct (M q) as [x|] eqn:EM.
    + rewrite Ha. assert (Hst' := st_again _ _ _ _ _ Hst Hreq Ho1 Ha).
      destruct (IH (mkSS (ss_db st) (ss_ww st) (ss_bw st) (ss_upper st) (ss_count st) (ss_err1 st)) wm M) as (ms & b & M' & k & E & H1 & H2 & H3 & H4 & H5 & H6 & H7 & H8 & H9); auto.
      { intros q' Hq'. apply Hq. now right. }
      exists ms, b, M', k. split; [exact E|]. split; [exact H1|]. split; [exact H2|]. split; [|auto 12].
      intros q'. rewrite H3. cbn [In]. split; [tauto|]. intros [[<-|Hi] Hn]; [congruence|tauto].
    + destruct Ha as (b1 & Eb). rewrite Eb. rewrite <- Eq.
      change (mkWE (gm_seq m) (s_expires (gm_sent m))) with (gm_we m).
      assert (Ed : set_trie (ss_db st) (d_trie (ss_db st)) = ss_db st) by (now destruct (ss_db st)). rewrite Ed.
      pose proof (st_append _ _ _ _ _ Hst Hreq Ho1 Eb) as Hst1. change (x_seq (gm_ie m)) with (gm_seq m) in Hst1. rewrite Eq in Hst1.
      assert (Hb1 : w_offset b1 <= w_offset (ss_bw st) + Z.of_nat (length (gm_body m))).
      { destruct (store_sinv _ _ Hst) as [Hw Hh]. pose proof (append_spec _ _ _ _ Hw Hreq Ho1) as Ha.
        specialize (Hh (x_seq (gm_ie m)) (proj1 Hreq)). change (x_seq (gm_ie m)) with (gm_seq m) in *. rewrite Eq, EM in Hh. rewrite Eq, Hh in Ha.
        destruct Ha as (w2 & o2 & E2 & _ & _ & _ & _ & _ & Hb & _). rewrite Eb in E2. assert (w2 = b1) as -> by congruence. lia. }
      destruct (IH (mkSS (ss_db st) (ss_ww st) b1 (ss_upper st) (ss_count st + 1) (ss_err1 st)) (win_add wm (gm_hash m) (gm_we m)) (put M q (gm_ie m, gm_body m, false)))
        as (ms & b & M' & k & E & H1 & H2 & H3 & H4 & H5 & H6 & H7 & H8 & H9); auto.
      { intros q' Hq'. apply Hq. now right. }
      { cbn [ss_bw]. specialize (Hnone eq_refl). lia. }
      cbn [ss_bw] in H7.
      assert (Hnq : ~ In q (map gm_seq ms)).
      { intros Hi. apply H3 in Hi as [_ Hi]. unfold put in Hi. rewrite N.eqb_refl in Hi. discriminate. }
      exists (m :: ms), b, M', k. split; [exact E|]. cbn [map length]. split.
      { constructor; [exact H1|]. apply Forall_forall. intros q' Hq'. pose proof Hq' as Hq2. apply H3 in Hq' as [Hq' _]. specialize (Fq q' Hq').
        destruct (N.eq_dec q q') as [->|]; [contradiction|]. rewrite Eq. lia. }
      split; [intros x [<-|Hx]; auto|]. split.
      { intros q'. cbn [In]. rewrite H3, Eq. unfold put. destruct (N.eqb_spec q' q) as [->|Hn].
        - split; [auto|tauto].
        - split.
          + intros [->|[Hi Hn']]; [congruence|auto].
          + intros [[->|Hi] Hn']; [congruence|auto]. }
      split; [exact H4|]. split.
      { intros m' [<-|Hm']; [|auto]. rewrite Eq, H6 by exact Hnq. unfold put. now rewrite N.eqb_refl. }
      split; [|split; [lia|split; [intros f mi Hf; apply H8; cbn [ss_bw]; eapply append_lease; eassumption|cbn [ss_count length] in *; lia]]]. intros q' Hn. cbn [In] in Hn. rewrite H6 by tauto. unfold put. destruct (N.eqb_spec q' q) as [->|]; [|reflexivity]. exfalso. apply Hn. now left.
Qed.

(** * The entries to the window writer *)
Lemma loop_idx now : forall es w k b w' k' b', append_loop now w k b es = Some (w', k', b') -> -1 <= ww_idx w ->
  ww_idx w + Z.of_nat (length es) < 2147483647 -> -1 <= ww_idx w' <= ww_idx w + Z.of_nat (length es).
Proof.
  induction es as [|e es IH]; intros w k b w' k' b' E H1 H2; cbn [append_loop] in E.
  - injection E as <- _ _. cbn [length]. lia.
  - cbn [length] in *. destruct (w_seq e =? 0)%N; [apply IH in E; lia|].
    destruct (wb_entryIdx (ws_blk b) =? N.of_nat entriesPerWindowBlock)%N.
    + destruct (Nat.leb _ _) in E; [discriminate|]. cbn [ww_file ww_idx ww_blocks ww_leases ww_offset ws_leased] in E.
      apply IH in E; cbn [ww_idx] in *; rewrite i32_id in * by lia; lia.
    + destruct (Nat.leb _ _) in E; [discriminate|]. apply IH in E; destruct (ws_leased b); cbn [ww_idx] in *; lia.
Qed.
Lemma append_idx now w h off es w' o : ww_append now w h off es = AppOk w' o -> -1 <= ww_idx w ->
  ww_idx w + Z.of_nat (length es) < 2147483646 -> -1 <= ww_idx w' <= ww_idx w + 1 + Z.of_nat (length es).
Proof.
  unfold ww_append. intros E H1 H2. cbn [ww_file ww_idx ww_blocks ww_leases ww_offset] in E.
  set (idx := if off =? 0 then i32 (ww_idx w + 1) else ww_idx w) in *.
  assert (Hi : ww_idx w <= idx <= ww_idx w + 1) by (unfold idx; rewrite i32_id by lia; destruct (off =? 0); lia).
  match type of E with context [match ?x with Some _ => _ | None => AppErr _ end] => destruct x as [b|]; [|discriminate] end.
  match type of E with context [append_loop ?n ?w ?k ?b ?es] => destruct (append_loop n w k b es) as [[[w1 k1] b1]|] eqn:El; [|discriminate] end.
  injection E as <- _. apply loop_idx in El; cbn [ww_idx] in *; lia.
Qed.
Lemma run_idx w off H first T : wrun w off H first T -> -1 <= ww_idx w.
Proof. intros Hr. destruct (proj1 Hr) as (n & R). pose proof (x_idx _ _ (r_x _ _ _ _ _ _ R)). lia. Qed.

Lemma trie_set tr l off h o : trie_part tr l off -> (exists m, In m l /\ gm_hash m = h) ->
  getOffset tr h = Some (off h) /\
  exists tr', setOffset tr (h, o) = (tr', true) /\ trie_part tr' l (fset off h o).
Proof.
  intros (Mt & Htr & EM) (m & Hm & Eh).
  destruct (find (fun x => (gm_hash x =? h)%N) l) as [m0|] eqn:Ef.
  2:{ eapply find_none in Ef; [|exact Hm]. cbv beta in Ef. rewrite Eh, N.eqb_refl in Ef. discriminate. }
  assert (E0 : Mt h = Some (s_owner (gm_sent m0), text (s_pattern (gm_sent m0)), off h)) by (rewrite EM; unfold topic_of; now rewrite Ef).
  split; [rewrite (tries_offset _ _ _ Htr), E0; reflexivity|].
  destruct (setOffset tr (h, o)) as [tr' ok] eqn:Es.
  assert (ok = true) as -> 
    by (pose proof (tries_inv _ _ Htr) as [_ Hsum _ _ _ _]; unfold setOffset in Es; cbn [fst] in Es; rewrite Hsum, E0 in Es; congruence).
  exists tr'. split; [reflexivity|]. eexists. split; [eapply tr_set; eassumption|].
  intros h'. unfold tput, fset, topic_of. destruct (N.eqb_spec h' h) as [->|Hn].
  - now rewrite Ef.
  - rewrite EM. reflexivity.
Qed.

Definition ss_win (st : sst) (tr : trie) (w : winwriter) : sst :=
  mkSS (set_trie (ss_db st) tr) w (ss_bw st) (ss_upper st) (ss_count st) (ss_err1 st).

(** The appends to the window file, one after the other. *)
Record wst := mkW { wq_w : winwriter; wq_off : offsets; wq_H : hist; wq_first : option N; wq_T : Z }.
Definition wst_run (W : wst) : Prop := wrun (wq_w W) (wq_off W) (wq_H W) (wq_first W) (wq_T W).
Inductive wapps (now : Z) : wst -> list (N * list wentry) -> wst -> Prop :=
| wa_nil W : wst_run W -> wapps now W [] W
| wa_cons w off H first T h es w1 o r W' :
    wrun w off H first T -> (h < 2 ^ 64)%N -> es <> [] -> Forall went_ok es -> T <= unix now < 2 ^ 63 ->
    ww_idx w + Z.of_nat (length es) < 524286 -> ww_append now w h (off h) es = AppOk w1 o ->
    wapps now (mkW w1 (fset off h o) (fset H h (H h ++ map (fun e => (e, unix now)) es))
                   (match first with None => Some h | _ => first end) (unix now)) r W' ->
    wapps now (mkW w off H first T) ((h, es) :: r) W'.

Lemma windows_step now l : forall wm st off H first T,
  wrun (ss_ww st) off H first T -> trie_part (d_trie (ss_db st)) l off -> T <= unix now < 2 ^ 63 ->
  NoDup (map fst wm) ->
  (forall h es, In (h, es) wm -> (h < 2 ^ 64)%N /\ es <> [] /\ Forall went_ok es /\ exists m, In m l /\ gm_hash m = h) ->
  ww_idx (ss_ww st) + 2 * Z.of_nat (lens wm) < 524286 ->
  exists w' tr' off' H' first' T', block_windows now st wm = SyOk (ss_win st tr' w') /\
    wrun w' off' H' first' T' /\ trie_part tr' l off' /\ T' <= unix now /\
    ww_idx w' <= ww_idx (ss_ww st) + 2 * Z.of_nat (lens wm) /\
    (forall h, map fst (H' h) = map fst (H h) ++ match afind N.eqb wm h with Some es => es | None => [] end) /\
    (first <> None -> first' = first) /\
    (forall h, first' = Some h -> first = Some h \/ exists m, In m l /\ gm_hash m = h) /\
    wapps now (mkW (ss_ww st) off H first T) wm (mkW w' off' H' first' T').
Proof.
  induction wm as [|[h es] r IH]; intros st off H first T Hr Htr HT Hn Hw Hi.
  - exists (ss_ww st), (d_trie (ss_db st)), off, H, first, T. cbn [block_windows]. split.
    { unfold ss_win. f_equal. destruct st as [s ? ? ? ? ?]. now destruct s. }
    split; [exact Hr|]. split; [exact Htr|]. split; [lia|]. split; [cbn; lia|]. split; [intros; cbn [afind]; now rewrite app_nil_r|]. split; [auto|]. split; [auto|]. now constructor.
  - inversion Hn as [|? ? Hnh Hn']; subst. destruct (Hw h es (or_introl eq_refl)) as (Hh & Hes & Hok & Hm).
    assert (Hlens : lens ((h, es) :: r) = (length es + lens r)%nat) by (unfold lens; cbn [map snd concat]; apply app_length).
    rewrite Hlens in *.
    assert (Hpos : (1 <= length es)%nat) by (destruct es; [congruence|cbn; lia]).
    cbn [block_windows]. rewrite (proj1 (trie_set _ _ _ h 0 Htr Hm)).
    destruct (proj2 (wrun_progress _ _ _ _ _ Hr) now h es Hh Hes Hok HT ltac:(lia)) as (w1 & o1 & Ea). rewrite Ea.
    destruct (proj2 (trie_set _ _ _ h o1 Htr Hm)) as (tr1 & Es & Htr1). rewrite Es.
    assert (Hr1 := wrun_append _ _ _ _ _ _ _ _ _ _ Hr Hh Hes Hok HT ltac:(lia) Ea).
    pose proof (append_idx _ _ _ _ _ _ _ Ea (run_idx _ _ _ _ _ Hr) ltac:(lia)) as Hx.
    destruct (IH (mkSS (set_trie (ss_db st) tr1) w1 (ss_bw st) (ss_upper st) (ss_count st) (ss_err1 st)) _ _ _ _ Hr1 Htr1)
      as (w' & tr' & off' & H' & first' & T' & E & G1 & G2 & G3 & G4 & G5 & G6 & G7 & G8).
    + lia.
    + exact Hn'.
    + intros h' es' Hin. apply Hw. now right.
    + cbn [ss_ww]. lia.
    + exists w', tr', off', H', first', T'. split; [rewrite E; reflexivity|]. split; [exact G1|]. split; [exact G2|]. split; [exact G3|].
      cbn [ss_ww] in G4. split; [lia|]. split; [|split; [|split]].
      * intros h'. rewrite G5. unfold fset. cbn [afind]. rewrite (N.eqb_sym h h'). destruct (N.eqb_spec h' h) as [->|Hd]; [|reflexivity].
        rewrite map_app, map_map. cbn [fst]. rewrite map_id.
        enough (afind N.eqb r h = None) as -> by (now rewrite app_nil_r).
        destruct (afind N.eqb r h) eqn:Er; [|reflexivity]. exfalso. apply Hnh. apply (afind_In _ Neqb_iff) in Er. apply (in_map fst) in Er. exact Er.
      * intros Hf. destruct first; [|congruence]. apply G6. discriminate.
      * intros h' Hf'. destruct (G7 h' Hf') as [Hx'|]; [|auto]. destruct first as [f0|]; [auto|]. right. injection Hx' as <-. exact Hm.
      * eapply wa_cons; try eassumption. lia.
Qed.

(** * One block *)
(** The blocks given up by memory. *)
Definition written (now : Z) (l : list gmsg) (g : gstate) (t : Z) (W W' : wst) : Prop :=
  exists wm W1 w2, NoDup (map fst wm) /\ (forall h es, In (h, es) wm -> es = map gm_we (filter (held_at g t h) l)) /\
    (forall h, ~ In h (map fst wm) -> filter (held_at g t h) l = []) /\ wapps now W wm W1 /\ ww_write (wq_w W1) = Some w2 /\
    W' = mkW (ww_reset w2) (wq_off W1) (wq_H W1) (wq_first W1) (wq_T W1).
Inductive frees (now : Z) (l : list gmsg) : mdb -> gstate -> wst -> list Z -> mdb -> gstate -> wst -> Prop :=
| fr_nil m g W : frees now l m g W [] m g W
| fr_skip m g W t ts m' g' W' : (forall k v, g_slot g k <> Held t v) -> frees now l m g W ts m' g' W' -> frees now l m g W (t :: ts) m' g' W'
| fr_free m g W t ts m1 W1 m' g' W' : mem_free m t = (m1, MOk) -> written now l g t W W1 -> frees now l m1 (gfree g t) W1 ts m' g' W' -> frees now l m g W (t :: ts) m' g' W'.
Definition freed_one (now : Z) (l : list gmsg) (m : mdb) (g : gstate) (W : wst) (t : Z) (m' : mdb) (g' : gstate) (W' : wst) : Prop :=
  (g' = g /\ m' = m /\ W' = W /\ forall k v, g_slot g k <> Held t v) \/ (g' = gfree g t /\ mem_free m t = (m', MOk) /\ written now l g t W W').
Lemma frees_one now l m g W t ts m1 g1 W1 m' g' W' : freed_one now l m g W t m1 g1 W1 -> frees now l m1 g1 W1 ts m' g' W' -> frees now l m g W (t :: ts) m' g' W'.
Proof. intros [(-> & -> & -> & H)|(-> & H & Hw)] F; [now apply fr_skip|eapply fr_free; eassumption]. Qed.

Record syncing (c : dcfg) (st : sst) (keys : list twkey) (l : list gmsg) (g : gstate) (off : offsets) (H : hist) (first : option N) (M : ghost) (T e t : Z) : Prop := {
  si_inv : inv c (ss_db st) l g off H first M T (e + 1) t;
  si_store : store (ss_bw st) M;
  si_off : w_offset (ss_bw st) <= 2 ^ 32 * nstored g l;
  si_run : wrun (ss_ww st) off H first T;
  si_idx : ww_idx (ss_ww st) <= 2 * nstored g l + e;
  si_err : ss_err1 st = false;
  si_up : ss_upper st = 0%N;
  si_keys : incl (map fst (d_tw (ss_db st))) keys;
  si_file : d_win (ss_db st) = ww_file (ss_ww st);
  si_cnt : ss_count st = 0%N
}.

(** What Sync does to the count and to the last sequence synced. *)
Definition tally (s s' : db) (l : list gmsg) (g g' : gstate) : Prop :=
  (Z.of_N (d_count s) = nstored g l -> Z.of_N (d_count s') = nstored g' l) /\
  (d_last s' = d_last s \/ exists m, In m l /\ in_store g' m = true /\ gm_seq m = d_last s') /\
  (forall m, in_store g m = true -> in_store g' m = true).
Lemma tally_refl s s' l g : d_count s' = d_count s -> d_last s' = d_last s -> tally s s' l g g.
Proof. intros E1 E2. split; [congruence|]. split; [now left|auto]. Qed.
Lemma tally_trans s s1 s2 l g g1 g2 : tally s s1 l g g1 -> tally s1 s2 l g1 g2 -> tally s s2 l g g2.
Proof.
  intros (A1 & A2 & A3) (B1 & B2 & B3). split; [auto|]. split; [|auto].
  destruct B2 as [E|B2]; [|now right]. rewrite E. destruct A2 as [A2|(m & H1 & H2 & H3)]; [now left|]. right. exists m. auto.
Qed.

Lemma in_store_free g t m : in_store (gfree g t) m = (in_store g m || held_t g t m)%bool.
Proof. unfold in_store, held_t, gfree. cbn [g_slot]. destruct (g_slot g (gm_seq m)) as [|t' v|]; try reflexivity. cbn [orb]. now destruct (t' =? t). Qed.
Lemma store_held g t m : in_store g m = true -> held_t g t m = true -> False.
Proof. unfold in_store, held_t. destruct (g_slot g (gm_seq m)); discriminate. Qed.
Lemma nstored_free g t l : nstored (gfree g t) l = nstored g l + Z.of_nat (length (filter (held_t g t) l)).
Proof.
  unfold nstored. rewrite (filter_ext _ _ (in_store_free g t)).
  rewrite <- (Permutation_length (split_filter (in_store g) (held_t g t) l (fun x _ => store_held g t x))), app_length. lia.
Qed.
Lemma held_at_t g t h m : held_at g t h m = (of_hash h m && held_t g t m)%bool.
Proof. reflexivity. Qed.
Lemma held_at_free g t t' h m : held_at (gfree g t) t' h m = (negb (t' =? t) && held_at g t' h m)%bool.
Proof.
  unfold held_at, gfree. cbn [g_slot]. destruct (gm_hash m =? h)%N; [|now rewrite andb_false_r]. cbn [andb].
  destruct (g_slot g (gm_seq m)) as [|t2 v|]; rewrite ?andb_false_r; try reflexivity.
  destruct (Z.eqb_spec t2 t) as [->|Hn].
  - destruct (Z.eqb_spec t t'); destruct (Z.eqb_spec t' t); cbn; try reflexivity; lia.
  - destruct (Z.eqb_spec t2 t'); destruct (Z.eqb_spec t' t); cbn; try reflexivity; lia.
Qed.

Lemma held_t_in g t l m : In m (filter (held_t g t) l) <-> In m l /\ exists v, g_slot g (gm_seq m) = Held t v.
Proof.
  rewrite filter_In. unfold held_t. split; intros [H1 H2]; split; auto.
  - destruct (g_slot g (gm_seq m)) as [|t' v|]; try discriminate. apply Z.eqb_eq in H2. subst. eauto.
  - destruct H2 as (v & ->). apply Z.eqb_refl.
Qed.

Lemma tw_fold ks : forall (m : twmap), NoDup (map fst m) ->
  NoDup (map fst (fold_left (adel tk_eqb) ks m)) /\ incl (map fst (fold_left (adel tk_eqb) ks m)) (map fst m) /\
  forall k, afind tk_eqb (fold_left (adel tk_eqb) ks m) k = if existsb (tk_eqb k) ks then None else afind tk_eqb m k.
Proof.
  induction ks as [|k0 ks IH]; intros m Hn; cbn [fold_left existsb]; [repeat split; auto; intros x Hx; exact Hx|].
  assert (Hn' : NoDup (map fst (adel tk_eqb m k0))).
  { unfold adel. clear IH. induction m as [|[k' v'] r IH]; [constructor|]. cbn [map fst filter] in *. inversion Hn; subst.
    destruct (negb _); [|auto]. cbn [map fst]. constructor; [|auto]. intros Hi. apply H1. apply in_map_iff in Hi as (x & E & Hi). apply filter_In in Hi as [Hi _].
    rewrite <- E. now apply in_map. }
  destruct (IH _ Hn') as (H1 & H2 & H3). split; [exact H1|]. split.
  - intros x Hx. apply H2 in Hx. apply (adel_keys _ tk_eqb_iff) in Hx. tauto.
  - intros k. rewrite H3. destruct (existsb (tk_eqb k) ks) eqn:Ee; [now rewrite orb_true_r|]. rewrite orb_false_r.
    destruct (tk_eqb k k0) eqn:Ek.
    + apply tk_eqb_iff in Ek. subst k0. apply afind_adel_same.
    + apply (afind_adel_other _ tk_eqb_iff). intros ->. rewrite (eqb_same _ tk_eqb_iff) in Ek. discriminate.
Qed.

Lemma release_step tw g l keys t m0 : tw_part tw g l -> incl (map fst tw) keys -> In m0 (filter (held_t g t) l) ->
  exists tw', tw_release keys tw t = Some tw' /\ tw_part tw' (gfree g t) l /\ incl (map fst tw') keys.
Proof.
  intros [Hn Hf] Hk Hm0. unfold tw_release. set (ks := filter (fun k : twkey => fst k =? t) keys).
  destruct (tw_fold ks tw Hn) as (H1 & H2 & H3).
  assert (Hkeys : forall k, In k (map fst tw) -> fst k = t -> In k ks).
  { intros k Hi Ek. apply filter_In. split; [now apply Hk|]. now apply Z.eqb_eq. }
  assert (Hne : ks <> []).
  { specialize (Hf t (gm_hash m0)). destruct (afind tk_eqb tw (t, gm_hash m0)) as [es|] eqn:Ea.
    - apply (afind_In _ tk_eqb_iff) in Ea. apply (in_map fst) in Ea. apply Hkeys in Ea; [|reflexivity]. intros E. rewrite E in Ea. exact Ea.
    - exfalso. assert (Hi : In m0 (filter (held_at g t (gm_hash m0)) l)); [|rewrite Hf in Hi; exact Hi].
      apply filter_In in Hm0 as [Hm0 Hh]. apply filter_In. split; [exact Hm0|]. rewrite held_at_t. unfold of_hash. now rewrite N.eqb_refl. }
  exists (fold_left (adel tk_eqb) ks tw). split; [destruct ks; [congruence|reflexivity]|]. split; [split; [exact H1|]|].
  - intros t' h. rewrite H3. rewrite (filter_ext _ _ (held_at_free g t t' h)). specialize (Hf t' h).
    destruct (Z.eqb_spec t' t) as [->|Ht]; cbn [negb andb].
    + rewrite filter_none by reflexivity. destruct (existsb (tk_eqb (t, h)) ks) eqn:Ee; [reflexivity|].
      destruct (afind tk_eqb tw (t, h)) as [es|] eqn:Ea; [|reflexivity]. exfalso.
      apply (afind_In _ tk_eqb_iff) in Ea. apply (in_map fst) in Ea. apply Hkeys in Ea; [|reflexivity].
      assert (existsb (tk_eqb (t, h)) ks = true); [|congruence]. apply existsb_exists. exists (t, h). split; [exact Ea|]. apply (eqb_same _ tk_eqb_iff).
    + assert (existsb (tk_eqb (t', h)) ks = false) as ->; [|exact Hf].
      destruct (existsb (tk_eqb (t', h)) ks) eqn:Ee; [|reflexivity]. exfalso. apply existsb_exists in Ee as (k & Hi & Ek).
      apply tk_eqb_iff in Ek. subst k. apply filter_In in Hi as [_ Hi]. apply Z.eqb_eq in Hi. cbn in Hi. contradiction.
  - intros x Hx. apply Hk. now apply H2.
Qed.

Lemma free_step c mem g l t m0 : mem_part c mem g l -> t < g_cur g -> In m0 (filter (held_t g t) l) ->
  exists mm, mem_free mem t = (mm, MOk) /\ mem_part c mm (gfree g t) l.
Proof.
  intros [M1 M2 M3 M4 M5] Ht Hm0. destruct (mem_free mem t) as [mm r] eqn:Ef.
  destruct (gstep (c_mem c) mem g (OFree t) mm (S_MemDB.ORes r) M1 I I) as (g' & Ha & Hg').
  { cbn [mstep]. now rewrite Ef. }
  apply held_t_in in Hm0 as (Hm0 & v0 & Hv0).
  inversion Ha; subst.
  - exists mm. split; [reflexivity|]. split.
    + exact Hg'.
    + unfold gfree; cbn [g_open]. rewrite M2. cbn [andb]. replace (t =? g_cur g) with false by lia. reflexivity.
    + intros k t' v. unfold gfree; cbn [g_slot]. destruct (g_slot g k) as [|t2 v2|] eqn:Es; try discriminate.
      destruct (t2 =? t); [discriminate|]. intros E. rewrite <- Es in E. eapply M3. exact E.
    + intros m Hm. unfold gfree; cbn [g_slot]. destruct (M4 m Hm) as [->|(t2 & ->)]; [now left|].
      destruct (t2 =? t); [now left|right; eauto].
    + intros k. unfold gfree; cbn [g_slot]. destruct (g_slot g k) as [|t2 v2|] eqn:Es; try discriminate; intros E.
      * destruct (M3 k t2 v2 Es) as (m & Hm & Ek & _). eauto.
      * apply M5. exact Es.
  - exfalso. match goal with H : forall k v, g_slot _ k <> Held t v |- _ => exact (H _ _ Hv0) end.
Qed.

Lemma went c m : gm_ok c m -> went_ok (gm_we m).
Proof. intros H. pose proof (gk_seq _ _ H). pose proof (gk_exp _ _ H). unfold went_ok, gm_we; cbn [w_seq w_expiresAt]. split; lia. Qed.

Lemma write_idx w off H first T w' : wrun w off H first T -> ww_write w = Some w' -> ww_idx w < 524286 ->
  ww_idx (ww_reset w') = ww_idx w /\ ww_idx (newWindowWriter (ww_file w')) <= ww_idx w + 1.
Proof.
  intros Hr E Hx. destruct (proj1 Hr) as (n & R). pose proof (r_x _ _ _ _ _ _ R) as X. pose proof X as [X1 X2 X3 X4 X5 X6 X7].
  destruct (P_Window.ww_write_effect w n X1 X5 X2) as (w2 & n' & E2 & I1 & I2 & I3 & D' & F' & N' & K' & M' & B' & R').
  { intros k s Es. apply X6 in Es. lia. }
  assert (w2 = w') as -> by congruence. split; [exact I1|].
  assert (Hn' : Z.of_nat n' <= ww_idx w + 1).
  { assert (n' <= Z.to_nat (ww_idx w + 1))%nat; [|lia]. apply M'; [lia|].
    intros k (s & Es & _). apply X6 in Es. lia. }
  assert (Hlen : fsize (ww_file w') = 4096 * Z.of_nat n') by (unfold fsize; destruct F' as [F' _]; unfold blockBytes in F'; lia).
  unfold newWindowWriter. cbn [ww_idx]. rewrite Hlen. replace (0 <? 4096 * Z.of_nat n') with (0 <? Z.of_nat n') by lia.
  destruct (Z.ltb_spec 0 (Z.of_nat n')); [|lia]. replace (4096 * Z.of_nat n' / 4096) with (Z.of_nat n') by lia.
  rewrite i32_id by lia. lia.
Qed.

Lemma commit_ok w m upper : store w m -> seq_ok upper ->
  exists w', bw_commit w upper = Some w' /\ store w' m /\ w_offset w' = w_offset w /\
    (exists w2, newBlockWriter (w_index w') (w_data w') (w_lease w') = Some w2 /\ store w2 m /\ w_offset w2 = w_offset w) /\
    forall s, seq_ok s ->
    match m s with
    | None => True
    | Some (e, c, rel) => exists off, 0 <= off /\
        readEntry (w_index w') s = Some (RFound (mkIE s (x_topicSize e) (x_valueSize e) off)) /\
        (rel = false -> read_at (w_data w') off (length c) = Some c)
    end.
Proof.
  intros Hst Hu. destruct (store_sinv _ _ Hst) as [Hw Hh].
  destruct (commit_spec _ w upper Hw Hu) as (w' & E & Hw' & _ & _ & _ & Hb & _ & Ho & Hc & _).
  exists w'. split; [exact E|]. split; [eapply st_commit; eassumption|]. split; [exact Ho|]. split.
  - destruct (open_spec _ w' Hw' Hc Hb) as (w2 & E2 & _ & _ & _ & _ & Ho2 & _). exists w2. split; [exact E2|]. split; [eapply st_open; eassumption|congruence].
  - destruct (store_read w m upper Hst Hu) as (w3 & E3 & Hr). assert (w3 = w') as -> by congruence.
    intros s Hs. specialize (Hr s Hs). destruct (m s) as [[[e0 c0] rel]|]; auto.
Qed.

Lemma last_in (q0 : N) r : In (last (q0 :: r) 0%N) (q0 :: r).
Proof. revert q0. induction r as [|a r IH]; intros q0; [now left|]. right. apply IH. Qed.
Lemma eq_sub {A} (a b : list A) : a = b -> Permutation a b.
Proof. intros ->. reflexivity. Qed.

Lemma block_step c gens st keys l g off H first M T e t now ord t0 : setting_ok c gens ->
  syncing c st keys l g off H first M T e t -> t <= now -> 0 <= now < 2 ^ 32 * 1000000000 -> t0 < g_cur g -> e <= 130000 ->
  (forall m, Permutation (ord m) m) ->
  exists st' g' off' H' first' M' T', sync_block now ord keys st t0 = SyOk st' /\
    syncing c st' keys l g' off' H' first' M' T' e now /\ g_cur g' = g_cur g /\ d_seq (ss_db st') = d_seq (ss_db st) /\
    (first <> None -> first' = first) /\
    freed_one now l (d_mem (ss_db st)) g (mkW (ss_ww st) off H first T) t0 (d_mem (ss_db st')) g' (mkW (ss_ww st') off' H' first' T') /\
    (forall f mi, w_lease (ss_bw st) = newLease f mi -> d_lease (ss_db st) = newLease f mi ->
      w_lease (ss_bw st') = newLease f mi /\ d_lease (ss_db st') = newLease f mi) /\
    tally (ss_db st) (ss_db st') l g g'.
Proof.
  intros Hset [Hi Hst Hoff Hrun Hidx Herr Hup Hkeys Hfile Hcnt] Htn Hnow Ht0 He Hord.
  assert (Hi' := inv_later _ _ _ _ _ _ _ _ _ _ _ now (so_dur _ _ Hset) Htn Hi). clear Hi. rename Hi' into Hi.
  pose proof Hi as [Icl Ienc Il Im Itw Iwin Ist Itr Icur IT].
  set (ms := filter (held_t g t0) l).
  set (seqs := seq_asc (block_keys (d_mem (ss_db st)) t0)).
  assert (Hseqs : forall q, In q seqs <-> In q (map gm_seq ms)).
  { intros q. unfold seqs. rewrite seq_asc_in, (block_keys_in c _ g t0 q (mp_inv _ _ _ _ Im)). split.
    - intros (v & Hv). destruct (mp_held _ _ _ _ Im q t0 v Hv) as (m & Hm & Eq & _). apply in_map_iff. exists m. split; [exact Eq|].
      apply held_t_in. split; [exact Hm|]. exists v. now rewrite Eq.
    - intros Hq. apply in_map_iff in Hq as (m & <- & Hm). apply held_t_in in Hm as [_ Hm]. exact Hm. }
  assert (Hcase : seqs = [] \/ exists q0 r0, seqs = q0 :: r0) by (destruct seqs as [|q0 r0]; [now left|right; eauto]).
  unfold sync_block. fold seqs. destruct Hcase as [Es0|(q0 & r0 & Es0)].
  { rewrite Es0. exists st, g, off, H, first, M, T. split; [reflexivity|]. split; [constructor; auto|]. split; [reflexivity|]. split; [reflexivity|]. split; [auto|]. split; [|split; [auto|now apply tally_refl]].
    left. split; [reflexivity|]. split; [reflexivity|]. split; [reflexivity|]. intros k v Hk. assert (Hin : In k seqs); [|rewrite Es0 in Hin; exact Hin].
    unfold seqs. rewrite seq_asc_in. apply (block_keys_in c _ g t0 k (mp_inv _ _ _ _ Im)). eauto. }
  assert (Hms : exists m0, In m0 ms).
  { assert (Hq : In q0 seqs) by (rewrite Es0; now left). apply Hseqs in Hq. apply in_map_iff in Hq as (m0 & _ & Hm0). eauto. }
  destruct Hms as (m0 & Hm0).
  assert (Hmatch : forall A (x y : A), match seqs with [] => x | _ :: _ => y end = y) by (intros; now rewrite Es0).
  rewrite Hmatch. clear Hmatch.
  pose proof (lp_ok _ _ _ Il) as Lok. rewrite Forall_forall in Lok.
  assert (Hmsl : incl ms l) by (intros x Hx; now apply filter_In in Hx).
  pose proof (list_bound _ _ _ Il) as Hlen. pose proof (filter_length_le (in_store (gfree g t0)) l) as Hlen2.
  pose proof (nstored_free g t0 l) as Hns. fold ms in Hns. unfold nstored at 1 in Hns.
  pose proof (xp_out _ _ _ (sp_ghost _ _ _ _ _ _ Ist)) as Hxo.
  (* the messages *)
  destruct (entries_step c l (d_seq (ss_db st)) t0 (d_mem (ss_db st)) Il seqs (raise_upper st seqs) [] M)
    as (ms' & b & M' & cnt & Ee & E1 & E2 & E3 & E4 & E5 & E6 & E7 & E8 & E9); auto.
  { intros q Hq. apply Hseqs in Hq. apply in_map_iff in Hq as (m & <- & Hm). exists m. split; [now apply Hmsl|]. split; [reflexivity|].
    apply held_t_in in Hm as (Hm & v & Hv). rewrite (held_lookup c _ g t0 _ v (mp_inv _ _ _ _ Im) Hv).
    destruct (mp_held _ _ _ _ Im _ _ _ Hv) as (m' & Hm' & Eq & ->). f_equal. f_equal. eapply same_seq; eauto. }
  { apply seq_asc_sorted. }
  { cbn [raise_upper ss_bw]. pose proof (filter_length_le (todo M) l). lia. }
  cbn [raise_upper ss_bw] in E7.
  assert (ms' = ms) as ->.
  { apply (map_seq_inj _ _ _ Il); auto. apply sorted_ext; [exact E1|apply sorted_filter; exact (lp_sorted _ _ _ Il)|].
    intros q. rewrite E3, Hseqs. split; [tauto|]. intros Hq. split; [exact Hq|]. apply in_map_iff in Hq as (m & <- & Hm). apply held_t_in in Hm as (_ & v & Hv).
    destruct (M (gm_seq m)) eqn:EM; [|reflexivity]. rewrite Hxo in Hv; [discriminate|congruence]. }
  rewrite Ee. set (wm := wadd ms []) in *.
  (* the windows *)
  assert (Hnd : NoDup (map fst wm)) by (apply wadd_nodup; constructor).
  assert (Hfind : forall h, afind N.eqb wm h = match filter (of_hash h) ms with [] => None | x => Some (map gm_we x) end).
  { intros h. unfold wm. rewrite wadd_find. cbn [afind]. destruct (filter (of_hash h) ms); reflexivity. }
  assert (Hlens : lens wm = length ms) by (unfold wm; rewrite wadd_lens by constructor; reflexivity).
  assert (Hordm := Hord wm).
  assert (Hfind' : forall h, afind N.eqb (ord wm) h = afind N.eqb wm h) by (intros h; apply afind_perm; auto).
  assert (Hup' := unix_range now Hnow).
  destruct (windows_step now l (ord wm) (ss_bw_count (raise_upper st seqs) b cnt) off H first T)
    as (w' & tr' & off' & H' & first' & T' & F1 & F2 & F3 & F4 & F5 & F6 & F7 & F8 & F9); auto.
  { lia. }
  { eapply Permutation_NoDup; [apply Permutation_map; symmetry; exact Hordm|exact Hnd]. }
  { intros h es Hin. apply (Permutation_in _ Hordm) in Hin.
    assert (Ea : afind N.eqb wm h = Some es) by (apply in_afind; auto).
    rewrite Hfind in Ea. destruct (filter (of_hash h) ms) as [|x rr] eqn:Ef; [discriminate|]. apply Some_inj in Ea.
    assert (Hx : In x (filter (of_hash h) ms)) by (rewrite Ef; now left). apply filter_In in Hx as [Hx Ex]. apply N.eqb_eq in Ex.
    split; [rewrite <- Ex; exact (gk_hash _ _ (Lok x (Hmsl x Hx)))|]. split; [subst es; discriminate|]. split.
    - subst es. rewrite <- Ef. apply Forall_forall. intros y Hy. apply in_map_iff in Hy as (z & <- & Hz). apply filter_In in Hz as [Hz _]. eapply went, Lok. now apply Hmsl.
    - exists x. split; [now apply Hmsl|exact Ex]. }
  { rewrite (lens_perm _ _ Hordm), Hlens. cbn [ss_bw_count raise_upper ss_ww]. lia. }
  cbn [ss_bw_count raise_upper ss_ww ss_db ss_upper ss_count ss_err1] in *.
  rewrite (lens_perm _ _ Hordm), Hlens in F5.
  rewrite F1. unfold ss_win; cbn [ss_bw_count raise_upper ss_bw ss_upper ss_count ss_err1 ss_ww ss_db]. rewrite Herr.
  (* writing out *)
  set (upper := N.max (ss_upper st) (last seqs 0%N)) in *.
  assert (Hupper : seq_ok upper /\ upper <> 0%N).
  { assert (Hq : In (last seqs 0%N) seqs) by (rewrite Es0; apply last_in).
    apply Hseqs in Hq. apply in_map_iff in Hq as (m & Eq & Hm). pose proof (gk_seq _ _ (Lok m (Hmsl m Hm))) as Hsq.
    unfold upper, seq_ok. rewrite Hup, <- Eq. split; lia. }
  destruct Hupper as [Hu1 Hu2]. unfold sync_write. cbn [ss_upper ss_ww ss_bw ss_db ss_count ss_err1].
  replace (upper =? 0)%N with false by lia.
  destruct (proj1 (wrun_progress _ _ _ _ _ F2)) as (w2 & Ew). rewrite Ew.
  destruct (commit_ok b M' upper E4 Hu1) as (b2 & Eb & B1 & B2 & (b3 & Eb3 & B3 & B4) & B5). rewrite Eb.
  unfold ss_files. cbn [ss_db ss_ww ss_bw ss_err1].
  cbn [set_files set_trie d_tw d_mem d_info d_win d_index d_data d_lfile d_lease d_seq d_count d_enc d_last d_immut d_closed d_trie].
  destruct (release_step _ _ _ keys t0 m0 Itw Hkeys Hm0) as (tw' & Etw & R1 & R2). rewrite Etw.
  cbn [ss_db set_tw set_files set_trie d_mem].
  destruct (free_step c (d_mem (ss_db st)) g l t0 m0 Im Ht0 Hm0) as (mm & Emm & R3). rewrite Emm.
  unfold ss_set_db. cbn [ss_db ss_ww ss_bw ss_upper ss_count ss_err1].
  eexists _, (gfree g t0), off', H', first', M', T'. split; [reflexivity|].
  assert (Hns' : nstored (gfree g t0) l = nstored g l + Z.of_nat (length ms)) by apply nstored_free.
  assert (Hw' : ww_idx w' < 524286) by lia.
  destruct (write_idx _ _ _ _ _ _ F2 Ew Hw') as [Hx1 Hx2].
  split; [|split; [reflexivity|split; [reflexivity|split; [exact F7|split; [right; split; [reflexivity|split; [exact Emm|]]|split]]]]].
  2:{ assert (Efl : forall h, filter (of_hash h) ms = filter (held_at g t0 h) l).
      { intros h. unfold ms. rewrite filter_filter. apply filter_ext. intros x. rewrite held_at_t. first [reflexivity|apply andb_comm]. }
      eexists _, _, _. split; [|split; [|split; [|split; [exact F9|split; [exact Ew|reflexivity]]]]].
      - eapply Permutation_NoDup; [apply Permutation_map; symmetry; exact Hordm|exact Hnd].
      - intros h es Hin. apply (Permutation_in _ Hordm) in Hin. assert (Ea : afind N.eqb wm h = Some es) by (apply in_afind; auto).
        rewrite Hfind, Efl in Ea. destruct (filter (held_at g t0 h) l); [discriminate|]. now apply Some_inj in Ea.
      - intros h Hno. rewrite <- Efl. specialize (Hfind' h). rewrite Hfind in Hfind'. destruct (filter (of_hash h) ms) as [|x rr]; [reflexivity|]. exfalso.
        apply (afind_In _ Neqb_iff) in Hfind'. apply Hno. apply (in_map fst) in Hfind'. exact Hfind'. }
  2:{ intros f mi Hf1 Hf2. destruct (store_sinv _ _ E4) as [Hw4 _]. destruct (commit_spec _ b upper Hw4 Hu1) as (b2' & Eb' & _ & _ & _ & _ & _ & El & _).
      assert (b2' = b2) as -> by congruence. cbn [ss_bw ss_db set_mem set_tw set_files set_trie d_lease]. rewrite El. specialize (E8 f mi Hf1). now rewrite E8. }
  2:{ cbn [raise_upper ss_count] in E9. rewrite Hcnt in E9. split; [|split].
      - cbn [ss_db set_mem set_tw set_files set_trie d_count]. intros Ec. rewrite Hns', <- Ec. unfold u64. rewrite N.mod_small; lia.
      - right. assert (Hq : In (last seqs 0%N) seqs) by (rewrite Es0; apply last_in).
        apply Hseqs in Hq. apply in_map_iff in Hq as (m & Eq & Hm). exists m. split; [now apply Hmsl|]. split.
        + rewrite in_store_free. apply filter_In in Hm as [_ Hm]. now rewrite Hm, orb_true_r.
        + cbn [ss_db set_mem set_tw set_files set_trie d_last]. unfold upper. rewrite Hup, Eq. lia.
      - intros m Hm. rewrite in_store_free, Hm. reflexivity. }
  assert (Hhist : forall h, Permutation (map fst (H' h)) (map gm_we (filter (stored_of (gfree g t0) h) l))).
  { intros h. rewrite F6, Hfind', Hfind. rewrite (wp_hist _ _ _ _ _ _ _ _ Iwin h).
    assert (Em : match match filter (of_hash h) ms with [] => None | x => Some (map gm_we x) end with Some es => es | None => [] end = map gm_we (filter (of_hash h) ms))
      by (destruct (filter (of_hash h) ms); reflexivity).
    etransitivity; [apply Permutation_app_head; apply eq_sub; exact Em|].
    rewrite <- map_app. apply Permutation_map. unfold ms. rewrite filter_filter.
    rewrite split_filter.
    - apply eq_sub. apply filter_ext. intros m. unfold stored_of, of_hash. rewrite in_store_free. destruct (gm_hash m =? h)%N; cbn [andb orb]; [now rewrite andb_true_r|now rewrite andb_false_r].
    - intros m _ H1 H2. unfold stored_of in H1. apply andb_true_iff in H1 as [_ H1]. apply andb_true_iff in H2 as [H2 _]. now apply (store_held g t0 m). }
  constructor; cbn [ss_db ss_ww ss_bw ss_upper ss_count ss_err1 set_mem set_tw set_files set_trie d_tw d_mem].
  - constructor; cbn [set_mem set_tw set_files set_trie d_tw d_mem d_win d_index d_data d_lease d_seq d_enc d_closed d_trie]; auto.
    + constructor.
      * change (ww_file (ww_reset w2)) with (ww_file w2). eapply wrun_again; eassumption.
      * change (ww_file (ww_reset w2)) with (ww_file w2). lia.
      * exact Hhist.
      * intros h Hf. destruct (F8 h Hf) as [Hf0|Hf0]; [|exact Hf0]. exact (wp_first _ _ _ _ _ _ _ _ Iwin h Hf0).
    + assert (Hgh : ghost_part (gfree g t0) l M').
      { constructor.
        - intros m Hm Hin. rewrite in_store_free in Hin. destruct (held_t g t0 m) eqn:Eh.
          + apply E5. apply filter_In. auto.
          + rewrite orb_false_r in Hin. rewrite E6; [exact (xp_in _ _ _ (sp_ghost _ _ _ _ _ _ Ist) m Hm Hin)|].
            intros Hq. apply in_map_iff in Hq as (m' & Eq & Hm'). assert (m' = m) as -> by (eapply same_seq; eauto).
            apply filter_In in Hm' as [_ Hm']. congruence.
        - intros k Hk. unfold gfree; cbn [g_slot]. destruct (in_dec N.eq_dec k (map gm_seq ms)) as [Hi2|Hi2].
          + apply in_map_iff in Hi2 as (m & <- & Hm). apply held_t_in in Hm as (_ & v & ->). now rewrite Z.eqb_refl.
          + rewrite E6 in Hk by exact Hi2. now rewrite (Hxo k Hk). }
      constructor.
      * exists b3. split; [exact Eb3|]. split; [exact B3|]. rewrite Hns'. lia.
      * exact Hgh.
      * intros m Hm Hin. pose proof (xp_in _ _ _ Hgh m Hm Hin) as EM. pose proof (gk_seq _ _ (Lok m Hm)) as Hsq.
        specialize (B5 (gm_seq m)). rewrite EM in B5. destruct B5 as (o & Ho & Hre & Hra); [unfold seq_ok; lia|].
        exists o. split; [exact Ho|]. split; [exact Hre|]. now apply Hra.
  - exact B1.
  - rewrite Hns'. lia.
  - eapply wrun_write; eassumption.
  - rewrite Hns'. lia.
  - reflexivity.
  - reflexivity.
  - exact R2.
  - reflexivity.
  - reflexivity.
Qed.

(** * Sync *)
Lemma blocks_step c gens keys l e now ord : setting_ok c gens -> 0 <= now < 2 ^ 32 * 1000000000 -> e <= 130000 ->
  (forall m, Permutation (ord m) m) -> forall ts st g off H first M T t,
  syncing c st keys l g off H first M T e t -> t <= now -> Forall (fun t0 => t0 < g_cur g) ts ->
  exists st' g' off' H' first' M' T', sync_blocks (sync_block now ord keys) st ts = SyOk st' /\
    syncing c st' keys l g' off' H' first' M' T' e now /\ d_seq (ss_db st') = d_seq (ss_db st) /\
    (first <> None -> first' = first) /\
    frees now l (d_mem (ss_db st)) g (mkW (ss_ww st) off H first T) ts (d_mem (ss_db st')) g' (mkW (ss_ww st') off' H' first' T') /\
    (forall f mi, w_lease (ss_bw st) = newLease f mi -> d_lease (ss_db st) = newLease f mi -> d_lease (ss_db st') = newLease f mi) /\
    tally (ss_db st) (ss_db st') l g g'.
Proof.
  intros Hset Hnow He Hord. induction ts as [|t0 ts IH]; intros st g off H first M T t Hs Ht Hts; cbn [sync_blocks].
  - exists st, g, off, H, first, M, T. split; [reflexivity|]. split; [|split; [reflexivity|split; [auto|split; [constructor|split; [auto|now apply tally_refl]]]]].
    destruct Hs as [Hi S1 S2 S3 S4 S5 S6 S7 S8 S9]. constructor; auto. eapply inv_later; eauto. exact (so_dur _ _ Hset).
  - inversion Hts as [|? ? Ht0 Hts']; subst.
    destruct (block_step c gens st keys l g off H first M T e t now ord t0 Hset Hs Ht Hnow Ht0 He Hord)
      as (st1 & g1 & off1 & H1 & first1 & M1 & T1 & E1 & S1 & C1 & Q1 & F1 & G1 & L1 & N1). rewrite E1.
    destruct (IH st1 g1 off1 H1 first1 M1 T1 now S1 (Z.le_refl _)) as (st2 & g2 & off2 & H2 & first2 & M2 & T2 & E2 & S2 & Q2 & F2 & G2 & L2 & N2).
    { rewrite C1. exact Hts'. }
    exists st2, g2, off2, H2, first2, M2, T2. split; [exact E2|]. split; [exact S2|]. split; [congruence|]. split; [|split; [|split]].
    + intros Hf. rewrite F2; [now apply F1|]. rewrite F1 by exact Hf. exact Hf.
    + eapply frees_one; eassumption.
    + intros f mi Hf1 Hf2. destruct (L1 f mi Hf1 Hf2). now apply L2.
    + eapply tally_trans; eassumption.
Qed.

Lemma writer_lease index data l w : newBlockWriter index data l = Some w -> w_lease w = l.
Proof. unfold newBlockWriter. repeat (match goal with |- context [match ?x with _ => _ end] => destruct x end; try discriminate); intros [= <-]; reflexivity. Qed.

Lemma sync_step c gens s l g off H first M T e t now ord : setting_ok c gens -> inv c s l g off H first M T e t ->
  t <= now -> 0 <= now < 2 ^ 32 * 1000000000 -> e <= 130000 -> (forall m, Permutation (ord m) m) ->
  exists s' g' off' H' first' M' T', db_sync now ord s = (s', DOk) /\
    inv c s' l g' off' H' first' M' T' (e + 1) now /\ d_seq s' = d_seq s /\ (first <> None -> first' = first) /\
    ((g' = g /\ d_mem s' = d_mem s /\ d_win s' = d_win s /\ off' = off /\ H' = H /\ first' = first) \/
     exists w', frees now l (d_mem s) g (mkW (newWindowWriter (d_win s)) off H first T) (timeRefs (d_mem s)) (d_mem s') g' (mkW w' off' H' first' T') /\ d_win s' = ww_file w') /\
    (forall f mi, d_lease s = newLease f mi -> d_lease s' = newLease f mi) /\
    tally s s' l g g' /\ ((d_last s = d_seq s /\ g' = g /\ s' = s) \/ exists W W', frees now l (d_mem s) g W (timeRefs (d_mem s)) (d_mem s') g' W').
Proof.
  intros Hset Hi Ht Hnow He Hord. pose proof Hi as [Icl Ienc Il Im Itw Iwin Ist Itr Icur IT].
  assert (Hi1 : inv c s l g off H first M T (e + 1) t).
  { constructor; auto. destruct Iwin as [W1 W2 W3 W4]. constructor; auto. lia. }
  destruct (sp_open _ _ _ _ _ _ Ist) as (b & Eb & Hb & Hbo).
  unfold db_sync, start_sync. destruct (N.eqb_spec (d_last s) (d_seq s)) as [Els|Els].
  { exists s, g, off, H, first, M, T. split; [reflexivity|]. split; [|split; [reflexivity|split; [auto|split; [auto 10|split; [auto|split; [now apply tally_refl|left; auto]]]]]]. eapply inv_later; eauto. exact (so_dur _ _ Hset). }
  rewrite Eb. set (st := mkSS s (newWindowWriter (d_win s)) b 0 0 false).
  destruct (blocks_step c gens (tw_keys (d_tw s)) l e now ord Hset Hnow He Hord (timeRefs (d_mem s)) st g off H first M T t)
    as (st' & g' & off' & H' & first' & M' & T' & E & S & Q & F & G & Ls & Nt).
  - constructor; auto; cbn [st ss_db ss_ww ss_bw ss_err1 ss_upper]; try reflexivity.
    + exact (wp_run _ _ _ _ _ _ _ _ Iwin).
    + exact (wp_idx _ _ _ _ _ _ _ _ Iwin).
    + intros x Hx. exact Hx.
  - exact Ht.
  - apply Forall_forall. intros t0 H0. unfold timeRefs in H0. rewrite sort_asc_in in H0. apply filter_In in H0 as [_ H0].
    rewrite <- (gi_cur _ _ _ (mp_inv _ _ _ _ Im)). lia.
  - rewrite E. exists (ss_db st'), g', off', H', first', M', T'. split; [reflexivity|]. split; [exact (si_inv _ _ _ _ _ _ _ _ _ _ _ _ S)|]. split; [exact Q|]. split; [exact F|]. split; [right; eexists; split; [exact G|exact (si_file _ _ _ _ _ _ _ _ _ _ _ _ S)]|].
    split; [|split; [exact Nt|right; eauto]].
    intros f mi Hf. apply Ls; [|exact Hf]. cbn [st ss_bw]. rewrite <- Hf. exact (writer_lease _ _ _ _ Eb).
Qed.
