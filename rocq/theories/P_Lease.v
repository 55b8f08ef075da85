(** Proofs about the free list. *)
From Verif Require Import M_Bytes P_Bytes M_Hash P_Hash P_Bloom P_Mac M_Lease S_Lease.
From Coq Require Import Lia ZifyBool ZifyNat ZifyN Permutation.
Open Scope Z_scope.

(** All free ranges of the lease. *)
Definition ranges (l : lease) : list range := concat (map s_fb (l_blocks l)).

Lemma cover_app a b x : cover (a ++ b) x = (cover a x + cover b x)%nat.
Proof. unfold cover. now rewrite filter_app, app_length. Qed.
Lemma cover_cons r a x : cover (r :: a) x = ((if in_rangeb x r then 1 else 0) + cover a x)%nat.
Proof. unfold cover; cbn [filter]. now destruct (in_rangeb x r). Qed.
Lemma cover_perm a b x : Permutation a b -> cover a x = cover b x.
Proof.
  induction 1 as [|y a b H IH|y z a|a b c H1 IH1 H2 IH2]; rewrite ?cover_cons; lia || congruence.
Qed.
Lemma total_cons r l : total (r :: l) = Z.of_N (snd r) + total l.
Proof. reflexivity. Qed.
Lemma total_nil : total [] = 0.
Proof. reflexivity. Qed.
Lemma cover_nil x : cover [] x = 0%nat. Proof. reflexivity. Qed.

Lemma in_rangeb_spec x r : in_rangeb x r = true <-> in_range x r.
Proof. unfold in_rangeb, in_range. lia. Qed.

Lemma is_free_cover l x : is_free l x <-> (1 <= cover l x)%nat.
Proof.
  unfold is_free. induction l as [|r l IH].
  - rewrite cover_nil. split; [intros (r & [] & _)|lia].
  - rewrite cover_cons. destruct (in_rangeb x r) eqn:E.
    + split; [lia|]. intros _. exists r. split; [now left|now apply in_rangeb_spec].
    + split.
      * intros (r' & [->|Hin] & Hr).
        { apply in_rangeb_spec in Hr. congruence. }
        cbn. apply IH. now exists r'.
      * intros H. destruct IH as [_ IH]. destruct IH as (r' & Hin & Hr); [lia|].
        exists r'. split; [now right|exact Hr].
Qed.

(** Splitting at one shard. *)
Lemma update_split {A} (l : list A) i x y : nth_error l i = Some x ->
  exists l1 l2, l = l1 ++ x :: l2 /\ update l i y = l1 ++ y :: l2 /\ length l1 = i.
Proof.
  intros H. apply nth_error_split in H as (l1 & l2 & -> & <-).
  exists l1, l2. rewrite update_middle. auto.
Qed.

Lemma ranges_set l i s s' sz : get_shard l i = Some s ->
  forall x, (cover (ranges (set_shard l i s' sz)) x + cover (s_fb s) x =
             cover (ranges l) x + cover (s_fb s') x)%nat.
Proof.
  intros H x. unfold get_shard in H. destruct (update_split _ _ _ s' H) as (l1 & l2 & E1 & E2 & _).
  unfold ranges, set_shard; cbn [l_blocks]. rewrite E1 at 2. rewrite E2.
  rewrite !map_app; cbn [map]. rewrite !concat_app; cbn [concat].
  rewrite !cover_app. lia.
Qed.

(** sort.Search on any predicate: the index is in range or the length, and in
    range the predicate holds there. *)
Lemma sort_search_ok f : forall fuel i j n, (i <= j <= n)%nat -> (j - i <= fuel)%nat ->
  (j < n -> f j = true)%nat ->
  exists r, sort_search fuel i j f = Some r /\ (i <= r <= j)%nat /\ ((r < n)%nat -> f r = true).
Proof.
  induction fuel as [|fuel IH]; intros i j n Hij Hf Hj; cbn [sort_search].
  - replace (Nat.ltb i j) with false by (symmetry; apply Nat.ltb_ge; lia).
    exists i. replace j with i in Hj by lia. repeat split; auto; lia.
  - destruct (Nat.ltb_spec i j) as [L|L].
    + assert (Hh : (i <= (i + j) / 2 < j)%nat).
      { split; [apply Nat.div_le_lower_bound; lia|apply Nat.div_lt_upper_bound; lia]. }
      remember ((i + j) / 2)%nat as h eqn:Eh. clear Eh. destruct (f h) eqn:E.
      * destruct (IH i h n) as (r & H1 & H2 & H3); [lia|lia|auto|].
        exists r. split; [exact H1|]. split; [lia|exact H3].
      * destruct (IH (h + 1)%nat j n) as (r & H1 & H2 & H3); [lia|lia|auto|].
        exists r. split; [exact H1|]. split; [lia|exact H3].
    + exists i. replace j with i in Hj by lia. repeat split; auto; lia.
Qed.

Lemma fb_search_ok fb size : exists i, fb_search fb size = Some i /\ (i <= length fb)%nat /\
  (forall o s, nth_error fb i = Some (o, s) -> (size <= s)%N).
Proof.
  unfold fb_search.
  destruct (sort_search_ok (fun i => match nth_error fb i with Some (_, s) => (size <=? s)%N | None => false end)
              (length fb) 0 (length fb) (length fb)) as (r & H1 & H2 & H3); [lia|lia|lia|].
  exists r. split; [exact H1|]. split; [lia|].
  intros o s E. assert (r < length fb)%nat as L by (apply nth_error_Some; congruence).
  specialize (H3 L). rewrite E in H3. lia.
Qed.

(** Well formed lease: shards chosen exist, ranges are not empty, fit uint32
    and are at non-negative offsets, cached offsets are offsets of ranges of
    that shard. *)
Definition block_ok (b : fblock) : Prop := 0 <= fst b /\ (0 < snd b < 2 ^ 32)%N.
Definition shard_ok (s : shard) : Prop :=
  Forall block_ok (s_fb s) /\
  forall o, In o (s_cache s) -> exists z, In (o, z) (s_fb s).
Definition find_ok (l : lease) : Prop := forall k, (l_find l k < length (l_blocks l))%nat.
Definition lease_ok (l : lease) : Prop :=
  find_ok l /\ Forall shard_ok (l_blocks l) /\ disjoint (ranges l) /\
  l_size l = total (ranges l).

Lemma find_shard l k : find_ok l -> exists s, get_shard l (l_find l k) = Some s.
Proof.
  intros H. unfold get_shard. destruct (nth_error (l_blocks l) (l_find l k)) eqn:E; [eauto|].
  apply nth_error_None in E. specialize (H k). lia.
Qed.

Lemma get_shard_ok l i s : Forall shard_ok (l_blocks l) -> get_shard l i = Some s -> shard_ok s.
Proof. intros H E. rewrite Forall_forall in H. apply H. eapply nth_error_In, E. Qed.

Lemma set_shard_find l i s sz : find_ok l -> find_ok (set_shard l i s sz).
Proof. unfold find_ok, set_shard; cbn [l_find l_blocks]. intros H k. rewrite update_length. apply H. Qed.

Lemma set_shard_ok l i s s' sz : Forall shard_ok (l_blocks l) -> get_shard l i = Some s ->
  shard_ok s' -> Forall shard_ok (l_blocks (set_shard l i s' sz)).
Proof.
  intros H E Hs. destruct (update_split _ _ _ s' E) as (l1 & l2 & E1 & E2 & _).
  unfold set_shard; cbn [l_blocks]. rewrite E2. rewrite E1 in H.
  apply Forall_app in H as [Ha Hb]. apply Forall_app. split; [exact Ha|].
  inversion Hb; subst. constructor; assumption.
Qed.

Lemma mem_Z_spec x l : mem_Z x l = true <-> In x l.
Proof.
  unfold mem_Z. rewrite existsb_exists. split.
  - intros (y & H & E). apply Z.eqb_eq in E. now subst.
  - intros H. exists x. split; [exact H|apply Z.eqb_refl].
Qed.
Lemma del_Z_spec x y l : In y (del_Z x l) <-> In y l /\ x <> y.
Proof. unfold del_Z. rewrite filter_In. split; intros [H E]; (split; [exact H|lia]). Qed.

Lemma size_sum_app (a b : list range) :
  total (a ++ b) =
  total a + total b.
Proof. induction a as [|x a IH]; cbn [app]; rewrite ?total_cons; cbn [total fold_right]; lia. Qed.

Lemma size_sum_set l i s s' sz : get_shard l i = Some s ->
  total (ranges (set_shard l i s' sz)) +
  total (s_fb s) =
  total (ranges l) +
  total (s_fb s').
Proof.
  intros H. unfold get_shard in H. destruct (update_split _ _ _ s' H) as (l1 & l2 & E1 & E2 & _).
  unfold ranges, set_shard; cbn [l_blocks]. rewrite E1 at 2. rewrite E2.
  rewrite !map_app; cbn [map]. rewrite !concat_app; cbn [concat].
  rewrite !size_sum_app. lia.
Qed.

Lemma in_ranges l i s b : get_shard l i = Some s -> In b (s_fb s) -> In b (ranges l).
Proof.
  intros H Hb. unfold ranges. apply in_concat. exists (s_fb s). split; [|exact Hb].
  apply in_map. eapply nth_error_In, H.
Qed.

Lemma ranges_append l i s b c sz : get_shard l i = Some s ->
  Permutation (ranges (set_shard l i (mkShard (s_fb s ++ [b]) c) sz)) (b :: ranges l).
Proof.
  intros H. unfold get_shard in H.
  destruct (update_split _ _ _ (mkShard (s_fb s ++ [b]) c) H) as (l1 & l2 & E1 & E2 & _).
  unfold ranges, set_shard; cbn [l_blocks]. rewrite E1 at 2. rewrite E2.
  rewrite !map_app; cbn [map s_fb]. rewrite !concat_app; cbn [concat].
  rewrite <- app_assoc. cbn [app]. rewrite !app_assoc. symmetry. apply Permutation_middle.
Qed.

Lemma freeBlock_perm l off size l' : freeBlock l off size = Some l' ->
  l' = l \/ Permutation (ranges l') ((off, size) :: ranges l).
Proof.
  unfold freeBlock. destruct (get_shard l (l_find l (to_unsigned 64 off))) as [s|] eqn:E; [|discriminate].
  destruct (mem_Z off (s_cache s)); intros H; apply Some_inj in H; rewrite <- H; [now left|right].
  now apply ranges_append.
Qed.

(** Releasing a range that is not free. *)
Lemma freeBlock_ok l off size :
  lease_ok l -> 0 <= off -> (0 < size < 2 ^ 32)%N ->
  (forall x, in_range x (off, size) -> ~ is_free (ranges l) x) ->
  exists l', freeBlock l off size = Some l' /\ lease_ok l' /\
    forall x, cover (ranges l') x = (cover (ranges l) x + if in_rangeb x (off, size) then 1 else 0)%nat.
Proof.
  intros (Hf & Hs & Hd & Hz) Ho Hsz Hfree. unfold freeBlock.
  destruct (find_shard l (to_unsigned 64 off) Hf) as [s Es]. rewrite Es.
  pose proof (get_shard_ok _ _ _ Hs Es) as [Hb Hc].
  destruct (mem_Z off (s_cache s)) eqn:Em.
  - exfalso. apply mem_Z_spec in Em. destruct (Hc _ Em) as (z & Hin).
    apply (Hfree off); [unfold in_range; cbn; lia|].
    exists (off, z). split; [eapply in_ranges; eassumption|].
    rewrite Forall_forall in Hb. specialize (Hb _ Hin). unfold block_ok in Hb. cbn in Hb.
    unfold in_range; cbn. lia.
  - set (s' := mkShard (s_fb s ++ [(off, size)]) (off :: s_cache s)).
    set (sz := l_size l + Z.of_N size).
    assert (C : forall x, cover (ranges (set_shard l (l_find l (to_unsigned 64 off)) s' sz)) x =
                          (cover (ranges l) x + if in_rangeb x (off, size) then 1 else 0)%nat).
    { intros x. pose proof (ranges_set l _ s s' sz Es x) as H.
      unfold s' in H at 2; cbn [s_fb] in H. rewrite cover_app, cover_cons, cover_nil in H. lia. }
    eexists; split; [reflexivity|]. split; [|exact C].
    split; [now apply set_shard_find|]. split; [|split].
    + eapply set_shard_ok; [eassumption|eassumption|]. split; cbn [s_fb s_cache].
      * apply Forall_app. split; [exact Hb|]. constructor; [|constructor]. split; cbn; lia.
      * intros o [->|Hin]; [exists size; apply in_or_app; right; now left|].
        destruct (Hc _ Hin) as (z & Hz'). exists z. apply in_or_app. now left.
    + intros x. rewrite C. specialize (Hd x). destruct (in_rangeb x (off, size)) eqn:E; [|lia].
      apply in_rangeb_spec in E. specialize (Hfree x E). rewrite is_free_cover in Hfree. lia.
    + pose proof (size_sum_set l _ s s' sz Es) as H. unfold s' in H at 2. cbn [s_fb] in H.
      rewrite size_sum_app in H. rewrite ?total_cons, ?total_nil in H; cbn [snd] in H. unfold set_shard at 1; cbn [l_size].
      unfold sz at 1. lia.
Qed.

Lemma remove_split {A} (l : list A) i x : nth_error l i = Some x ->
  Permutation l (x :: (firstn i l ++ skipn (S i) l)).
Proof.
  intros H. apply nth_error_split in H as (l1 & l2 & -> & <-).
  rewrite firstn_app_len by reflexivity.
  replace (skipn (S (length l1)) (l1 ++ x :: l2)) with l2.
  - symmetry. apply Permutation_middle.
  - change (S (length l1)) with (1 + length l1)%nat. rewrite Nat.add_comm.
    replace (l1 ++ x :: l2) with ((l1 ++ [x]) ++ l2) by now rewrite <- app_assoc.
    rewrite skipn_app_len; [reflexivity|]. rewrite app_length. cbn. lia.
Qed.

Lemma update_perm {A} (l : list A) i x y : nth_error l i = Some x ->
  exists r, Permutation l (x :: r) /\ Permutation (update l i y) (y :: r).
Proof.
  intros H. destruct (update_split l i x y H) as (l1 & l2 & -> & -> & _).
  exists (l1 ++ l2). split; symmetry; apply Permutation_middle.
Qed.

Lemma size_sum_perm (a b : list range) : Permutation a b ->
  total a = total b.
Proof. induction 1; rewrite ?total_cons, ?total_nil in *; lia. Qed.

Lemma u32_sub (bs size : N) : (size <= bs < 2 ^ 32)%N -> u32 (bs + 2 ^ 32 - size) = (bs - size)%N.
Proof.
  intros H. unfold u32. replace (bs + 2 ^ 32 - size)%N with ((bs - size) + 1 * 2 ^ 32)%N by lia.
  rewrite N.mod_add by lia. apply N.mod_small. lia.
Qed.

Lemma allocate_ok l size : lease_ok l -> (0 < size)%N ->
  let (l', r) := allocate l size in
  lease_ok l' /\
  match r with
  | APanic => False
  | ANone => l' = l
  | AOff off =>
      0 <= off /\
      (exists o n, In (o, n) (ranges l) /\ o <= off /\ off + Z.of_N size <= o + Z.of_N n) /\
      forall x, cover (ranges l) x =
                (cover (ranges l') x + if in_rangeb x (off, size) then 1 else 0)%nat
  end.
Proof.
  intros Hok Hsz. pose proof Hok as (Hf & Hs & Hd & Hz). unfold allocate.
  replace (size =? 0)%N with false by lia.
  destruct (l_size l <? l_min l); [now split|].
  destruct (find_shard l size Hf) as [s Es]. rewrite Es.
  pose proof (get_shard_ok _ _ _ Hs Es) as [Hb Hc].
  destruct (fb_search_ok (s_fb s) size) as (i & Ei & Hi & Hsize). rewrite Ei.
  destruct (nth_error (s_fb s) i) as [[off bs]|] eqn:En; [|now split].
  specialize (Hsize _ _ eq_refl).
  pose proof (nth_error_In _ _ En) as Hin.
  assert (Hbk : block_ok (off, bs)) by (rewrite Forall_forall in Hb; now apply Hb).
  unfold block_ok in Hbk; cbn in Hbk. destruct Hbk as [Hoff Hbs].
  set (fb' := if (bs =? size)%N then _ else _).
  set (s' := mkShard fb' (del_Z off (s_cache s))).
  set (sz := l_size l - Z.of_N size).
  assert (P : exists r, Permutation (s_fb s) ((off, bs) :: r) /\
             Permutation fb' (if (bs =? size)%N then r else (off + Z.of_N size, (bs - size)%N) :: r)).
  { unfold fb'. destruct (N.eqb_spec bs size) as [->|Hne].
    - eexists; split; [exact (remove_split _ _ _ En)|reflexivity].
    - destruct (update_perm _ _ _ (off + Z.of_N size, u32 (bs + 2 ^ 32 - size)) En) as (r & H1 & H2).
      exists r. split; [exact H1|]. rewrite u32_sub in H2 by lia. now rewrite u32_sub by lia. }
  destruct P as (r & P1 & P2).
  assert (F : forall x, cover (s_fb s) x = (cover fb' x + if in_rangeb x (off, size) then 1 else 0)%nat).
  { intros x. rewrite (cover_perm _ _ x P1), (cover_perm _ _ x P2), cover_cons.
    destruct (N.eqb_spec bs size) as [->|Hne]; [lia|]. rewrite cover_cons.
    unfold in_rangeb; cbn [fst snd].
    destruct (Z.leb_spec off x), (Z.ltb_spec x (off + Z.of_N bs)), (Z.leb_spec (off + Z.of_N size) x),
      (Z.ltb_spec x (off + Z.of_N size + Z.of_N (bs - size))), (Z.ltb_spec x (off + Z.of_N size));
      cbn [andb]; lia. }
  assert (C : forall x, cover (ranges l) x =
      (cover (ranges (set_shard l (l_find l size) s' sz)) x + if in_rangeb x (off, size) then 1 else 0)%nat).
  { intros x. pose proof (ranges_set l _ s s' sz Es x) as H. cbn [s' s_fb] in H.
    specialize (F x). lia. }
  split; [|split; [lia|split; [|exact C]]].
  - split; [now apply set_shard_find|]. split; [|split].
    + eapply set_shard_ok; [eassumption|eassumption|]. split; cbn [s' s_fb s_cache].
      * apply (Permutation_Forall (Permutation_sym P2)).
        apply (Permutation_Forall P1) in Hb. inversion Hb as [|? ? H1 H2]; subst.
        destruct (N.eqb_spec bs size) as [->|Hne]; [exact H2|]. constructor; [|exact H2].
        split; cbn [fst snd]; lia.
      * intros o Ho. apply del_Z_spec in Ho as [Ho Hne]. destruct (Hc _ Ho) as (z & Hz').
        exists z. apply (Permutation_in _ P1) in Hz'. destruct Hz' as [E|Hz']; [congruence|].
        apply (Permutation_in _ (Permutation_sym P2)).
        destruct (bs =? size)%N; [exact Hz'|now right].
    + intros x. specialize (C x). specialize (Hd x). lia.
    + pose proof (size_sum_set l _ s s' sz Es) as H. cbn [s' s_fb] in H.
      rewrite (size_sum_perm _ _ P1), (size_sum_perm _ _ P2) in H. rewrite ?total_cons, ?total_nil in H; cbn [snd] in H.
      unfold set_shard at 1; cbn [l_size]. unfold sz at 1. rewrite Hz.
      destruct (N.eqb_spec bs size) as [->|Hne]; [lia|]. rewrite ?total_cons, ?total_nil in H; cbn [snd] in H. lia.
  - exists off, bs. split; [|lia]. eapply in_ranges; eassumption.
Qed.

(** Histories: a free list together with the ranges in use. *)
Inductive history : lease -> list range -> Prop :=
| h_new find min live :
    (forall k, (find k < nShards)%nat) -> Forall block_ok live -> disjoint live ->
    history (newLease find min) live
| h_append l live r :           (* data appended to the file *)
    history l live -> block_ok r -> disjoint (r :: ranges l ++ live) -> history l (r :: live)
| h_free l live1 off size live2 l' :
    history l (live1 ++ (off, size) :: live2) -> freeBlock l off size = Some l' ->
    history l' (live1 ++ live2)
| h_alloc l live size off l' :
    history l live -> (0 < size < 2 ^ 32)%N -> allocate l size = (l', AOff off) ->
    history l' ((off, size) :: live)
| h_alloc_none l live size l' :
    history l live -> (0 < size < 2 ^ 32)%N -> allocate l size = (l', ANone) ->
    history l' live.

Lemma ranges_new find min : ranges (newLease find min) = [].
Proof. reflexivity. Qed.

Lemma newLease_ok find min : (forall k, (find k < nShards)%nat) -> lease_ok (newLease find min).
Proof.
  intros H. split; [exact H|]. split; [|split].
  - unfold newLease; cbn [l_blocks]. apply Forall_forall. intros s Hs. apply repeat_spec in Hs. subst.
    split; cbn; [constructor|intros o []].
  - intros x. rewrite ranges_new. cbn. lia.
  - reflexivity.
Qed.

Lemma history_ok l live : history l live ->
  lease_ok l /\ Forall block_ok live /\ disjoint (ranges l ++ live).
Proof.
  induction 1 as [find min live Hf Hl Hd | l live r H (IH1 & IH2 & IH3) Hr Hd
    | l live1 off size live2 l' H (IH1 & IH2 & IH3) E
    | l live size off l' H (IH1 & IH2 & IH3) Hs E
    | l live size l' H (IH1 & IH2 & IH3) Hs E].
  - split; [now apply newLease_ok|]. split; [exact Hl|]. rewrite ranges_new. exact Hd.
  - split; [exact IH1|]. split; [now constructor|]. intros x. specialize (Hd x).
    rewrite cover_cons, cover_app in Hd. rewrite cover_app, cover_cons. lia.
  - apply Forall_app in IH2 as [Ha Hb]. inversion Hb as [|? ? Hr Hb']; subst.
    assert (Hfree : forall x, in_range x (off, size) -> ~ is_free (ranges l) x).
    { intros x Hx Hc. specialize (IH3 x). rewrite !cover_app, cover_cons in IH3.
      apply is_free_cover in Hc. apply in_rangeb_spec in Hx. rewrite Hx in IH3. lia. }
    destruct Hr as [Hr1 Hr2]. cbn [fst snd] in Hr1, Hr2.
    destruct (freeBlock_ok l off size IH1 Hr1 Hr2 Hfree) as (l2 & E2 & Hok & C).
    rewrite E2 in E. apply Some_inj in E. subst l2.
    split; [exact Hok|]. split; [apply Forall_app; now split|].
    intros x. specialize (IH3 x). rewrite !cover_app, cover_cons in IH3.
    rewrite !cover_app, C. destruct (in_rangeb x (off, size)); lia.
  - pose proof (allocate_ok l size IH1 ltac:(lia)) as A. rewrite E in A.
    destruct A as (Hok & Hoff & _ & C). split; [exact Hok|].
    split; [constructor; [split; cbn [fst snd]; lia|exact IH2]|].
    intros x. specialize (IH3 x). rewrite cover_app in IH3. rewrite C in IH3.
    rewrite cover_app, cover_cons. destruct (in_rangeb x (off, size)); lia.
  - pose proof (allocate_ok l size IH1 ltac:(lia)) as A. rewrite E in A. destruct A as [_ ->]. auto.
Qed.

Lemma history_free l live1 off size live2 : history l (live1 ++ (off, size) :: live2) ->
  exists l', freeBlock l off size = Some l' /\
    forall x, is_free (ranges l') x <-> is_free (ranges l) x \/ in_range x (off, size).
Proof.
  intros H. apply history_ok in H as (IH1 & IH2 & IH3).
  apply Forall_app in IH2 as [Ha Hb]. inversion Hb as [|? ? Hr Hb']; subst.
  assert (Hfree : forall x, in_range x (off, size) -> ~ is_free (ranges l) x).
  { intros x Hx Hc. specialize (IH3 x). rewrite !cover_app, cover_cons in IH3.
    apply is_free_cover in Hc. apply in_rangeb_spec in Hx. rewrite Hx in IH3. lia. }
  destruct Hr as [Hr1 Hr2]. cbn [fst snd] in Hr1, Hr2.
  destruct (freeBlock_ok l off size IH1 Hr1 Hr2 Hfree) as (l2 & E2 & Hok & C).
  exists l2. split; [exact E2|]. intros x. rewrite !is_free_cover, C, <- in_rangeb_spec.
  destruct (in_rangeb x (off, size)); lia || (split; [lia|]; intros [?|?]; [lia|discriminate]).
Qed.

Lemma history_alloc l live size : history l live -> (0 < size < 2 ^ 32)%N ->
  let (l', r) := allocate l size in
  match r with
  | APanic => False
  | ANone => l' = l
  | AOff off =>
      0 <= off /\
      (exists o n, In (o, n) (ranges l) /\ o <= off /\ off + Z.of_N size <= o + Z.of_N n) /\
      (forall x, in_range x (off, size) -> ~ is_free (ranges l') x) /\
      (forall x, is_free (ranges l) x <-> is_free (ranges l') x \/ in_range x (off, size))
  end.
Proof.
  intros H Hs. apply history_ok in H as (IH1 & _ & _).
  pose proof (allocate_ok l size IH1 ltac:(lia)) as A. destruct (allocate l size) as [l' r].
  destruct A as [Hok A]. destruct r as [| |off]; [exact A|exact A|]. destruct A as (H1 & H2 & C).
  pose proof IH1 as (_ & _ & Hd & _).
  split; [exact H1|]. split; [exact H2|]. split.
  - intros x Hx. rewrite is_free_cover. specialize (C x). specialize (Hd x).
    apply in_rangeb_spec in Hx. rewrite Hx in C. lia.
  - intros x. rewrite !is_free_cover, C, <- in_rangeb_spec.
    destruct (in_rangeb x (off, size)); lia || (split; [lia|]; intros [?|?]; [lia|discriminate]).
Qed.

(** ** Defragmentation *)
Lemma insert_by_perm lt x l : Permutation (insert_by lt x l) (x :: l).
Proof.
  induction l as [|y r IH]; cbn [insert_by]; [reflexivity|].
  destruct (lt x y); [reflexivity|]. rewrite IH. apply perm_swap.
Qed.
Lemma sort_by_perm lt l : Permutation (sort_by lt l) l.
Proof.
  unfold sort_by. assert (G : forall l acc, Permutation (fold_left (fun acc x => insert_by lt x acc) l acc) (l ++ acc)).
  { clear. induction l as [|x l IH]; intros acc; cbn [fold_left app]; [reflexivity|].
    rewrite IH, insert_by_perm. rewrite <- Permutation_middle. reflexivity. }
  rewrite G, app_nil_r. reflexivity.
Qed.

(** The merged list itself covers the same bytes (uint32 sizes permitting). *)
Lemma merge_loop_cover : forall rest cur x,
  Forall (fun b => (0 < snd b)%N) (cur :: rest) ->
  total (cur :: rest) < 2 ^ 32 ->
  cover (fst (merge_loop cur rest)) x = cover (cur :: rest) x.
Proof.
  induction rest as [|b rest IH]; intros cur x Hp Hsum; cbn [merge_loop]; [reflexivity|].
  assert (Hsum' : forall l : list range, 0 <= total l).
  { clear. induction l as [|a l IH]; rewrite ?total_cons, ?total_nil in *; lia. }
  inversion Hp as [|? ? Hp1 Hp2]; subst. inversion Hp2 as [|? ? Hp3 Hp4]; subst.
  rewrite !total_cons in Hsum. specialize (Hsum' rest) as Hr.
  destruct (Z.eqb_spec (fst cur + Z.of_N (snd cur)) (fst b)) as [E|E].
  - assert (U : u32 (snd cur + snd b) = (snd cur + snd b)%N) by (unfold u32; apply N.mod_small; lia).
    specialize (IH (fst cur, u32 (snd cur + snd b)) x). rewrite U in IH |- *.
    destruct (merge_loop (fst cur, (snd cur + snd b)%N) rest) as [m d]. cbn [fst] in *.
    rewrite IH; [|constructor; [cbn [snd]; lia|exact Hp4]|rewrite ?total_cons in *; cbn [snd] in *; lia].
    rewrite !cover_cons. unfold in_rangeb. cbn [fst snd]. rewrite <- E.
    destruct (Z.leb_spec (fst cur) x), (Z.ltb_spec x (fst cur + Z.of_N (snd cur + snd b))),
      (Z.ltb_spec x (fst cur + Z.of_N (snd cur))), (Z.leb_spec (fst cur + Z.of_N (snd cur)) x),
      (Z.ltb_spec x (fst cur + Z.of_N (snd cur) + Z.of_N (snd b))); cbn [andb]; lia.
  - specialize (IH b x). destruct (merge_loop b rest) as [m d]. cbn [fst] in *.
    rewrite cover_cons, IH; [rewrite !cover_cons; reflexivity|exact Hp2|rewrite ?total_cons, ?total_nil in *; lia].
Qed.

Lemma merge_loop_length rest cur : (length (fst (merge_loop cur rest)) <= S (length rest))%nat.
Proof.
  revert cur; induction rest as [|b rest IH]; intros cur; cbn [merge_loop length fst]; [lia|].
  destruct (_ =? _).
  - specialize (IH (fst cur, u32 (snd cur + snd b))).
    destruct (merge_loop (fst cur, u32 (snd cur + snd b)) rest). cbn [fst] in *. lia.
  - specialize (IH b). destruct (merge_loop b rest). cbn [fst length] in *. lia.
Qed.

(** Two neighbours in the list touch. *)
Definition touch (a b : range) : Prop := fst a + Z.of_N (snd a) = fst b.

Lemma merge_loop_none rest cur :
  (forall a b, In a (cur :: rest) -> In b (cur :: rest) -> ~ touch a b) ->
  merge_loop cur rest = (cur :: rest, []).
Proof.
  revert cur; induction rest as [|b rest IH]; intros cur H; cbn [merge_loop]; [reflexivity|].
  destruct (Z.eqb_spec (fst cur + Z.of_N (snd cur)) (fst b)) as [E|E].
  - exfalso. apply (H cur b); [now left|right; now left|exact E].
  - rewrite IH; [reflexivity|]. intros a c Ha Hc. apply H; now right.
Qed.

Lemma shard_defrag_none s :
  (forall a b, In a (s_fb s) -> In b (s_fb s) -> ~ touch a b) ->
  Permutation (s_fb (shard_defrag s)) (s_fb s) /\ s_cache (shard_defrag s) = s_cache s.
Proof.
  intros H. unfold shard_defrag. destruct (Nat.leb (length (s_fb s)) 1); [split; reflexivity|].
  pose proof (sort_by_perm by_offset (s_fb s)) as P.
  destruct (sort_by by_offset (s_fb s)) as [|b0 rest] eqn:E; [split; reflexivity|].
  rewrite merge_loop_none.
  - cbn [s_fb s_cache fold_left]. split; [|reflexivity].
    pose proof (sort_by_perm by_size (b0 :: rest)) as P2.
    rewrite skipn_all2 by (rewrite (Permutation_length P2); lia). rewrite app_nil_r, P2. exact P.
  - intros a b Ha Hb. apply H; eapply Permutation_in; eassumption || exact P.
Qed.

Lemma defrag_none l :
  (forall s a b, In s (l_blocks l) -> In a (s_fb s) -> In b (s_fb s) -> ~ touch a b) ->
  Permutation (ranges (defrag l)) (ranges l) /\ l_size (defrag l) = l_size l.
Proof.
  intros H. split; [|reflexivity]. unfold ranges, defrag; cbn [l_blocks].
  revert H. generalize (l_blocks l) as ss. induction ss as [|s ss IH]; intros H; cbn [map concat]; [reflexivity|].
  apply Permutation_app.
  - apply shard_defrag_none. intros a b. apply H. now left.
  - apply IH. intros s' a b Hs. apply H. now right.
Qed.

(** In general every byte stays covered at least as often: nothing free is lost. *)
Lemma cover_skipn (l : list range) n x : (cover (skipn n l) x <= cover l x)%nat.
Proof. rewrite <- (firstn_skipn n l) at 2. rewrite cover_app. lia. Qed.

Lemma shard_defrag_cover s x : Forall (fun b => (0 < snd b)%N) (s_fb s) ->
  total (s_fb s) < 2 ^ 32 ->
  (cover (s_fb s) x <= cover (s_fb (shard_defrag s)) x <= 2 * cover (s_fb s) x)%nat.
Proof.
  intros Hp Hs. unfold shard_defrag. destruct (Nat.leb (length (s_fb s)) 1); [lia|].
  pose proof (sort_by_perm by_offset (s_fb s)) as P.
  destruct (sort_by by_offset (s_fb s)) as [|b0 rest] eqn:E; [lia|].
  assert (C : cover (fst (merge_loop b0 rest)) x = cover (s_fb s) x).
  { rewrite merge_loop_cover; [now apply cover_perm| |].
    - eapply Permutation_Forall; [symmetry; exact P|exact Hp].
    - rewrite (size_sum_perm _ _ P). exact Hs. }
  destruct (merge_loop b0 rest) as [m d]. cbn [s_fb fst] in *.
  rewrite cover_app, (cover_perm _ _ x (sort_by_perm by_size m)), C.
  pose proof (cover_skipn (b0 :: rest) (length (sort_by by_size m)) x).
  rewrite (cover_perm _ _ x P) in H. lia.
Qed.

Lemma defrag_cover l x :
  (forall s, In s (l_blocks l) -> Forall (fun b => (0 < snd b)%N) (s_fb s) /\
     total (s_fb s) < 2 ^ 32) ->
  (cover (ranges l) x <= cover (ranges (defrag l)) x <= 2 * cover (ranges l) x)%nat.
Proof.
  unfold ranges, defrag; cbn [l_blocks]. generalize (l_blocks l) as ss.
  induction ss as [|s ss IH]; intros H; cbn [map concat]; [cbn; lia|].
  rewrite !cover_app. specialize (IH (fun s' Hs => H s' (or_intror Hs))).
  destruct (H s (or_introl eq_refl)) as [H1 H2]. pose proof (shard_defrag_cover s x H1 H2). lia.
Qed.

Lemma defrag_free_set l x :
  (forall s, In s (l_blocks l) -> Forall (fun b => (0 < snd b)%N) (s_fb s) /\
     total (s_fb s) < 2 ^ 32) ->
  (is_free (ranges (defrag l)) x <-> is_free (ranges l) x).
Proof. intros H. pose proof (defrag_cover l x H). rewrite !is_free_cover. lia. Qed.

(** ** Persistence *)
Lemma fb_marshal_length fb :
  length (concat (map (fun b : fblock => le 8 (to_unsigned 64 (fst b)) ++ le 4 (snd b)) fb)) = (12 * length fb)%nat.
Proof.
  induction fb as [|b fb IH]; cbn [map concat length]; [reflexivity|].
  rewrite !app_length, !le_length, IH. lia.
Qed.

Definition block64 (b : fblock) : Prop := 0 < fst b < 2 ^ 63 /\ (snd b < 2 ^ 32)%N.

Lemma fb_unmarshal_marshal fb : Forall block64 fb ->
  fb_unmarshal (length fb)
    (concat (map (fun b => le 8 (to_unsigned 64 (fst b)) ++ le 4 (snd b)) fb)) = Some fb.
Proof.
  induction 1 as [|b fb Hb H IH]; cbn [length fb_unmarshal map concat]; [reflexivity|].
  set (tl := concat _) in *. rewrite <- app_assoc.
  replace (Nat.ltb _ 12) with false
    by (symmetry; apply Nat.ltb_ge; rewrite !app_length, !le_length; lia).
  replace (skipn 12 (le 8 (to_unsigned 64 (fst b)) ++ le 4 (snd b) ++ tl)) with tl.
  2:{ rewrite app_assoc. rewrite skipn_app_len; [reflexivity|]. now rewrite app_length, !le_length. }
  rewrite IH. rewrite slice_head by apply le_length.
  replace (slice (le 8 (to_unsigned 64 (fst b)) ++ le 4 (snd b) ++ tl) 8 4) with (le 4 (snd b)).
  2:{ unfold slice. rewrite skipn_app_len by apply le_length.
      rewrite firstn_app_len; [reflexivity|apply le_length]. }
  destruct Hb as [Hb1 Hb2]. destruct b as [off sz]; cbn [fst snd] in *.
  assert (U : to_unsigned 64 off = Z.to_N off).
  { unfold to_unsigned. rewrite Z.mod_small; [reflexivity|]. cbn. lia. }
  rewrite U. rewrite unle_le8 by (change (2^64)%N with 18446744073709551616%N; lia).
  rewrite unle_le_small by (cbn; lia).
  assert (S : to_signed 64 (Z.to_N off) = off).
  { unfold to_signed. change (2 ^ (64 - 1))%N with 9223372036854775808%N.
    destruct (N.ltb_spec (Z.to_N off) 9223372036854775808); lia. }
  rewrite S. destruct (Z.eqb_spec off 0); [lia|reflexivity].
Qed.

Definition read_all (fb : list fblock) (l : lease) : option lease :=
  fold_left (fun acc b => match acc with Some l => freeBlock l (fst b) (snd b) | None => None end) fb (Some l).

Lemma read_all_ok : forall fb l, lease_ok l -> Forall block_ok fb -> disjoint (ranges l ++ fb) ->
  exists l', read_all fb l = Some l' /\ lease_ok l' /\ Permutation (ranges l') (ranges l ++ fb).
Proof.
  induction fb as [|b fb IH]; intros l Hok Hb Hd.
  - exists l. rewrite app_nil_r. now repeat split; try apply Hok.
  - inversion Hb as [|? ? Hb1 Hb2]; subst. destruct b as [off size].
    assert (Hfree : forall x, in_range x (off, size) -> ~ is_free (ranges l) x).
    { intros x Hx Hc. specialize (Hd x). rewrite cover_app, cover_cons in Hd.
      apply is_free_cover in Hc. apply in_rangeb_spec in Hx. rewrite Hx in Hd. lia. }
    destruct Hb1 as [H1 H2]. cbn [fst snd] in *.
    destruct (freeBlock_ok l off size Hok H1 H2 Hfree) as (l1 & E1 & Hok1 & C1).
    assert (P1 : Permutation (ranges l1) ((off, size) :: ranges l)).
    { destruct (freeBlock_perm _ _ _ _ E1) as [->|P1]; [|exact P1]. exfalso.
      specialize (C1 off). replace (in_rangeb off (off, size)) with true in C1; [lia|].
      unfold in_rangeb; cbn [fst snd]. lia. }
    destruct (IH l1 Hok1 Hb2) as (l' & E & Hok' & C).
    { intros x. rewrite cover_app, C1. specialize (Hd x). rewrite cover_app, cover_cons in Hd. lia. }
    exists l'. split; [|split; [exact Hok'|]].
    + unfold read_all in *. cbn [fold_left fst snd]. rewrite E1. exact E.
    + rewrite C, P1. cbn [app]. apply Permutation_middle.
Qed.

Lemma ranges_blocks l : lease_ok l -> Forall block_ok (ranges l).
Proof.
  intros (_ & Hs & _). apply Forall_forall. intros b Hin. unfold ranges in Hin.
  apply in_concat in Hin as (fb & Hfb & Hin). apply in_map_iff in Hfb as (s & <- & Hs').
  rewrite Forall_forall in Hs. destruct (Hs s Hs') as [Hf _]. rewrite Forall_forall in Hf. now apply Hf.
Qed.

Lemma lease_file_roundtrip l l0 : lease_ok l -> ranges l0 = [] -> lease_ok l0 ->
  Forall block64 (ranges l) -> (12 * N.of_nat (length (ranges l)) < 2 ^ 32)%N ->
  exists l', lease_read l0 (lease_write l) = RdOk l' /\ lease_ok l' /\
    Permutation (ranges l') (ranges l) /\ l_size l' = l_size l.
Proof.
  intros Hok H0 Hok0 Hb Hn. unfold lease_read, lease_write. fold (ranges l).
  unfold fb_marshal. set (body := concat _).
  assert (Lb : length body = (12 * length (ranges l))%nat) by apply fb_marshal_length.
  replace (Nat.ltb _ 4) with false
    by (symmetry; apply Nat.ltb_ge; rewrite !app_length, !le_length; lia).
  rewrite slice_head by apply le_length. rewrite unle_le_small by (cbn; lia).
  assert (U : u32 (12 * N.of_nat (length (ranges l))) = (12 * N.of_nat (length (ranges l)))%N).
  { unfold u32. apply N.mod_small. exact Hn. }
  rewrite U. rewrite app_length, le_length, Lb.
  replace (_ <? _)%N with false by (symmetry; apply N.ltb_ge; lia).
  rewrite Nat2N.id.
  replace (slice (le 4 (N.of_nat (length (ranges l))) ++ body) 4
             (N.to_nat (12 * N.of_nat (length (ranges l))))) with body.
  2:{ unfold slice. rewrite skipn_app_len by apply le_length. rewrite firstn_all2; [reflexivity|lia]. }
  unfold body. rewrite fb_unmarshal_marshal by exact Hb.
  pose proof Hok as (_ & Hs & Hd & Hz).
  pose proof (ranges_blocks l Hok) as Hbo.
  destruct (read_all_ok (ranges l) l0 Hok0 Hbo) as (l' & E & Hok' & C).
  { rewrite H0. exact Hd. }
  unfold read_all in E. rewrite E. exists l'. split; [reflexivity|]. split; [exact Hok'|].
  rewrite H0 in C. cbn [app] in C. split; [exact C|].
  rewrite Hz. destruct Hok' as (_ & _ & _ & ->). now apply size_sum_perm.
Qed.

Lemma history_file_roundtrip l live find min : history l live -> (forall k, (find k < nShards)%nat) ->
  Forall (fun r => 0 < fst r < 2 ^ 63) (ranges l) -> (12 * N.of_nat (length (ranges l)) < 2 ^ 32)%N ->
  exists l', lease_read (newLease find min) (lease_write l) = RdOk l' /\
    Permutation (ranges l') (ranges l) /\ l_size l' = l_size l.
Proof.
  intros H Hf Hr Hn. apply history_ok in H as (Hok & _ & _).
  destruct (lease_file_roundtrip l (newLease find min) Hok eq_refl (newLease_ok find min Hf))
    as (l' & H1 & _ & H2 & H3); [|exact Hn|eauto].
  pose proof (ranges_blocks l Hok) as Hb. rewrite Forall_forall in *. intros b Hin.
  specialize (Hr b Hin). destruct (Hb b Hin). split; lia.
Qed.

(** ** Witnesses *)
Definition find0 : N -> nat := fun _ => 0%nat.
Definition run_free (l : lease) (rs : list range) : option lease := read_all rs l.

Definition two_free : lease :=
  mkLease (mkShard [(10, 5%N); (15, 5%N)] [15; 10] :: repeat (mkShard [] []) 26) 10 0 find0.

Lemma two_free_history : history two_free [].
Proof.
  assert (H0 : history (newLease find0 0) [(10, 5%N); (15, 5%N)]).
  { apply h_new; [intros k; unfold find0, nShards; lia| |].
    - repeat constructor; cbn; lia.
    - intros x. rewrite !cover_cons, cover_nil. unfold in_rangeb; cbn [fst snd].
      destruct (Z.leb_spec 10 x), (Z.ltb_spec x (10 + Z.of_N 5)), (Z.leb_spec 15 x),
        (Z.ltb_spec x (15 + Z.of_N 5)); cbn [andb]; lia. }
  eapply (h_free _ [] 15 5 []).
  - eapply (h_free _ [] 10 5 [(15, 5%N)]); [exact H0|vm_compute; reflexivity].
  - vm_compute; reflexivity.
Qed.

(** Two touching ranges: after defragmentation byte 17 is free twice, and
    three allocations hand offset 15 out twice. *)
Lemma defrag_overlaps :
  cover (ranges two_free) 17 = 1%nat /\ cover (ranges (defrag two_free)) 17 = 2%nat /\
  exists l1 l2 l3, allocate (defrag two_free) 5 = (l1, AOff 10) /\
    allocate l1 5 = (l2, AOff 15) /\ allocate l2 5 = (l3, AOff 15).
Proof.
  split; [vm_compute; reflexivity|]. split; [vm_compute; reflexivity|].
  eexists; eexists; eexists. split; [|split]; vm_compute; reflexivity.
Qed.

(** A free range at offset 0 is dropped by the file. *)
Definition zero_free : lease := mkLease (mkShard [(0, 9%N)] [0] :: repeat (mkShard [] []) 26) 9 0 find0.
Lemma zero_free_history : history zero_free [].
Proof.
  eapply (h_free (newLease find0 0) [] 0 9 []); [|vm_compute; reflexivity].
  apply h_new; [intros k; unfold find0, nShards; lia| |].
  - repeat constructor; cbn; lia.
  - intros x. change (cover [(0%Z, 9%N)] x <= 1)%nat. rewrite cover_cons, cover_nil. destruct (in_rangeb x (0, 9%N)); lia.
Qed.
Lemma zero_free_lost : ranges zero_free = [(0, 9%N)] /\
  lease_read (newLease find0 0) (lease_write zero_free) = RdOk (newLease find0 0).
Proof. split; vm_compute; reflexivity. Qed.

Lemma defrag_not_disjoint : ~ disjoint (ranges (defrag two_free)).
Proof. intros H. specialize (H 17). destruct defrag_overlaps as (_ & E & _). lia. Qed.

Lemma total_nonneg l : 0 <= total l.
Proof. induction l as [|a l IH]; rewrite ?total_cons, ?total_nil; lia. Qed.

Lemma total_concat_in (ls : list (list range)) l : In l ls -> total l <= total (concat ls).
Proof.
  induction ls as [|a ls IH]; intros []; cbn [concat]; rewrite size_sum_app.
  - subst. pose proof (total_nonneg (concat ls)). lia.
  - specialize (IH H). pose proof (total_nonneg a). lia.
Qed.

Lemma history_defrag_bytes l live x : history l live -> l_size l < 2 ^ 32 ->
  (is_free (ranges (defrag l)) x <-> is_free (ranges l) x) /\
  (cover (ranges (defrag l)) x <= 2)%nat.
Proof.
  intros H Hs. apply history_ok in H as (Hok & _ & _). pose proof Hok as (_ & Hsh & Hd & Hz).
  assert (HH : forall s, In s (l_blocks l) -> Forall (fun b => (0 < snd b)%N) (s_fb s) /\ total (s_fb s) < 2 ^ 32).
  { intros s Hin. rewrite Forall_forall in Hsh. destruct (Hsh s Hin) as [Hb _]. split.
    - eapply Forall_impl; [|exact Hb]. intros b [_ Hb2]. lia.
    - pose proof (total_concat_in (map s_fb (l_blocks l)) (s_fb s) (in_map _ _ _ Hin)) as T.
      fold (ranges l) in T. lia. }
  split; [now apply defrag_free_set|].
  pose proof (defrag_cover l x HH). specialize (Hd x). lia.
Qed.
