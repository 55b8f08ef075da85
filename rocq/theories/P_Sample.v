(** Proofs about the time samples (C79). *)
From Verif Require Import M_Bytes M_Sample S_Streams P_Bytes.
From Coq Require Import Lia Sorted Permutation.
Open Scope nat_scope.

(** Sorting. *)
Lemma ins_perm : forall x l, Permutation (x :: l) (ins x l).
Proof.
  induction l as [|y l IH]; cbn; [auto|]. destruct (x <=? y)%Z; [auto|].
  eapply perm_trans; [apply perm_swap|]. constructor. exact IH.
Qed.
Lemma sort_perm : forall l, Permutation l (sort_times l).
Proof. induction l as [|x l IH]; cbn; [auto|]. eapply perm_trans; [constructor; exact IH|apply ins_perm]. Qed.
Lemma ins_sorted : forall x l, StronglySorted Z.le l -> StronglySorted Z.le (ins x l).
Proof.
  induction l as [|y l IH]; intros H; cbn; [constructor; constructor|].
  inversion H as [|? ? H1 H2]; subst. destruct (x <=? y)%Z eqn:E.
  - apply Z.leb_le in E. constructor; [exact H|]. constructor; [exact E|].
    eapply Forall_impl; [|exact H2]. intros; lia.
  - apply Z.leb_gt in E. constructor; [auto|].
    eapply Permutation_Forall; [apply ins_perm|]. constructor; [lia|exact H2].
Qed.
Lemma sort_sorted : forall l, StronglySorted Z.le (sort_times l).
Proof. induction l; cbn; [constructor|]. apply ins_sorted. exact IHl. Qed.

(** The ring. *)
Lemma set_nth_app : forall {A} (a : list A) x b r, set_nth (length a) x (a ++ b :: r) = a ++ x :: r.
Proof. induction a; intros; cbn; [reflexivity|]. f_equal. apply IHa. Qed.

Record ring (size : nat) (s : sample) (l : list Z) : Prop := mkRing {
  r_size : sm_size s = size;
  r_count : sm_count s = N.of_nat (length l);
  r_times : exists a b, sm_times s = a ++ b /\ length (sm_times s) = size /\ length a = length l mod size /\
    (length l < size -> a = l) /\ (size <= length l -> newest size l = b ++ a) }.

Lemma newest_snoc : forall n l t, n <= length l -> 0 < n -> newest n (l ++ [t]) = tl (newest n l) ++ [t].
Proof.
  intros n l t H Hn. unfold newest. rewrite app_length. cbn [length].
  rewrite skipn_app. replace (length l + 1 - n - length l) with 0 by lia. cbn [skipn]. f_equal.
  replace (length l + 1 - n) with (S (length l - n)) by lia.
  generalize (length l - n). clear. intros k. revert l. induction k as [|k IH]; intros [|x l]; cbn; auto.
  rewrite <- IH. destruct l; reflexivity.
Qed.

Lemma newest_all : forall n l, length l <= n -> newest n l = l.
Proof. intros. unfold newest. replace (length l - n) with 0 by lia. reflexivity. Qed.

Lemma ring_add : forall size s l t, 0 < size -> (N.of_nat (length l) + 1 < 2 ^ 64)%N -> ring size s l ->
  exists s', sample_add s t = Some s' /\ ring size s' (l ++ [t]).
Proof.
  intros size s l t Hs Hc [R1 R2 (a & b & R3 & R4 & R5 & R6 & R7)].
  unfold sample_add. rewrite R1, R2. destruct size as [|size']; [lia|]. set (size := S size') in *.
  assert (Hu : u64 (N.of_nat (length l) + 1) = (N.of_nat (length l) + 1)%N) by (apply N.mod_small; exact Hc).
  rewrite Hu.
  assert (Hi : u64 (N.of_nat (length l) + 1 + (2 ^ 64 - 1)) = N.of_nat (length l)).
  { unfold u64. replace (N.of_nat (length l) + 1 + (2 ^ 64 - 1))%N with (N.of_nat (length l) + 1 * 2 ^ 64)%N by lia.
    rewrite N.mod_add by discriminate. apply N.mod_small. lia. }
  rewrite Hi.
  assert (Hx : N.to_nat (N.of_nat (length l) mod N.of_nat size) = length a).
  { rewrite R5. rewrite <- Nnat.Nat2N.inj_mod. apply Nnat.Nat2N.id. }
  rewrite Hx. eexists. split; [reflexivity|].
  assert (Hlt : length a < size) by (rewrite R5; apply Nat.mod_upper_bound; lia).
  assert (Lb : length b = size - length a) by (rewrite R3, app_length in R4; lia).
  destruct b as [|b0 b']; [cbn [length] in Lb; lia|]. cbn [length] in Lb.
  rewrite R3, set_nth_app. split; cbn [sm_size sm_count sm_times]; auto.
  { rewrite app_length. cbn [length]. lia. }
  destruct (Nat.eq_dec (S (length a)) size) as [E|E].
  - (* wraps *)
    assert (b' = []) as -> by (destruct b'; [reflexivity|cbn [length] in Lb; lia]).
    assert (Hm : length (l ++ [t]) mod size = 0).
    { rewrite app_length. cbn [length]. 
      rewrite (Nat.div_mod (length l) size) at 1 by lia. rewrite <- R5.
      replace (size * (length l / size) + length a + 1) with ((length l / size + 1) * size) by lia.
      apply Nat.mod_mul. lia. }
    exists [], (a ++ [t]). split; [reflexivity|]. split; [rewrite app_length; cbn [length]; lia|].
    split; [cbn; symmetry; exact Hm|]. split.
    + intros H. rewrite Nat.mod_small in Hm by exact H. rewrite app_length in Hm. cbn [length] in Hm. lia.
    + intros _. rewrite app_nil_r. destruct (Nat.lt_ge_cases (length l) size) as [G|G].
      * rewrite (R6 G) in *. apply newest_all. rewrite app_length. cbn [length]. lia.
      * rewrite newest_snoc by lia. rewrite (R7 G). reflexivity.
  - assert (Hm : length (l ++ [t]) mod size = S (length a)).
    { rewrite app_length. cbn [length]. 
      rewrite (Nat.div_mod (length l) size) at 1 by lia. rewrite <- R5.
      replace (size * (length l / size) + length a + 1) with (S (length a) + (length l / size) * size) by lia.
      rewrite Nat.mod_add by lia. apply Nat.mod_small. lia. }
    exists (a ++ [t]), b'. split; [rewrite <- app_assoc; reflexivity|].
    split; [rewrite app_length; cbn [length]; lia|]. split; [rewrite Hm, app_length; cbn [length]; lia|].
    rewrite app_length. cbn [length]. split.
    + intros H. rewrite R6 by lia. reflexivity.
    + intros H. destruct (Nat.lt_ge_cases (length l) size) as [G|G].
      * rewrite (R6 G) in *. assert (S (length l) = size) by lia. congruence.
      * rewrite newest_snoc by lia. rewrite (R7 G). cbn. rewrite app_assoc. reflexivity.
Qed.

Lemma ring_reset : forall size s l, 0 < size -> ring size s l -> ring size (sample_reset s) [].
Proof.
  intros size s l Hs [R1 R2 (a & b & R3 & R4 & R5 & R6 & R7)]. split; cbn; auto.
  exists [], (sm_times s). rewrite Nat.mod_0_l by lia. repeat split; auto. lia.
Qed.
Lemma ring_new : forall size, 0 < size -> ring size (sample_new size) [].
Proof.
  intros. split; cbn; auto. exists [], (repeat 0%Z size). rewrite Nat.mod_0_l by lia.
  rewrite repeat_length. repeat split; auto. lia.
Qed.

Lemma since_len : forall ops acc, length (since ops acc) <= length acc + length ops.
Proof.
  induction ops as [|[t|] ops IH]; intros acc; cbn [since length]; [lia| |].
  - specialize (IH (acc ++ [t])). rewrite app_length in IH. cbn in IH. lia.
  - specialize (IH []). cbn in IH. lia.
Qed.
Lemma since_app : forall a b acc, since (a ++ b) acc = since b (since a acc).
Proof. induction a as [|[t|] a IH]; intros; cbn; auto. Qed.

Lemma ring_run : forall size ops, 0 < size -> (N.of_nat (length ops) < 2 ^ 64)%N ->
  exists s, fold_left sample_step ops (Some (sample_new size)) = Some s /\ ring size s (since ops []).
Proof.
  intros size ops Hs. induction ops as [|o ops IH] using rev_ind; intros Hl.
  - eexists. split; [reflexivity|]. apply ring_new. exact Hs.
  - rewrite app_length in Hl. cbn [length] in Hl.
    destruct IH as (s & E & R); [lia|].
    rewrite fold_left_app, E, since_app. cbn [fold_left sample_step].
    destruct o as [t|]; cbn [since].
    + apply ring_add; auto. pose proof (since_len ops []). cbn in H. lia.
    + eexists. split; [reflexivity|]. eapply ring_reset; eauto.
Qed.

Lemma ring_perm : forall size s l, 0 < size -> ring size s l -> Permutation (newest size l) (snapshot s).
Proof.
  intros size s l Hs [R1 R2 (a & b & R3 & R4 & R5 & R6 & R7)]. unfold snapshot.
  eapply perm_trans; [|apply sort_perm]. rewrite R1, R2, Nnat.Nat2N.id.
  destruct (Nat.lt_ge_cases (length l) size) as [G|G].
  - rewrite Nat.min_l by lia. rewrite newest_all by lia. rewrite R3, (R6 G), firstn_app, Nat.sub_diag, firstn_all. cbn.
    rewrite app_nil_r. auto.
  - rewrite Nat.min_r by lia. rewrite (R7 G). rewrite <- R4, firstn_all. rewrite R3. apply Permutation_app_comm.
Qed.

Lemma sorted_first : forall l x, StronglySorted Z.le l -> nth_error l 0 = Some x -> In x l /\ Forall (Z.le x) l.
Proof.
  intros [|y l] x H E; [discriminate|]. injection E as <-. inversion H; subst.
  split; [left; reflexivity|]. constructor; [lia|assumption].
Qed.
Lemma sorted_nth : forall l i x, StronglySorted Z.le l -> nth_error l i = Some x ->
  Forall (fun y => y <= x)%Z (firstn (S i) l) /\ Forall (Z.le x) (skipn i l).
Proof.
  induction l as [|y l IH]; intros i x H E; [destruct i; discriminate|].
  inversion H as [|? ? H1 H2]; subst. destruct i as [|i].
  - injection E as <-. split; [constructor; [lia|constructor]|]. cbn. constructor; [lia|exact H2].
  - cbn [nth_error] in E. destruct (IH i x H1 E) as [A B]. split; [|exact B].
    cbn [firstn]. constructor; [|exact A]. rewrite Forall_forall in H2. apply H2. eapply nth_error_In; eauto.
Qed.

Lemma answers : forall size ops, 0 < size -> (N.of_nat (length ops) < 2 ^ 64)%N ->
  exists s, fold_left sample_step ops (Some (sample_new size)) = Some s /\
  let w := newest size (since ops []) in
  Permutation w (snapshot s) /\ StronglySorted Z.le (snapshot s) /\
  (w <> [] ->
   (exists m, ts_min (snapshot s) = Some m /\ In m w /\ Forall (Z.le m) w) /\
   (exists m, ts_max (snapshot s) = Some m /\ In m w /\ Forall (fun y => y <= m)%Z w) /\
   (exists m lo hi, ts_p50 (snapshot s) = Some m /\ Permutation w (lo ++ m :: hi) /\
      Forall (fun y => y <= m)%Z lo /\ Forall (Z.le m) hi /\ length lo = length w / 2)).
Proof.
  intros size ops Hs Hl. destruct (ring_run size ops Hs Hl) as (s & E & R). exists s. split; [exact E|].
  cbv zeta. set (w := newest size (since ops [])). set (q := snapshot s).
  assert (P : Permutation w q) by (apply ring_perm; assumption).
  assert (S : StronglySorted Z.le q) by apply sort_sorted.
  split; [exact P|]. split; [exact S|]. intros Hw.
  assert (Lq : length q = length w) by (symmetry; apply Permutation_length; exact P).
  assert (Hq : 0 < length q). { rewrite Lq. destruct w; [congruence|cbn; lia]. }
  assert (N : forall i, i < length q -> exists m, nth_error q i = Some m).
  { intros i Hi. destruct (nth_error q i) eqn:X; eauto. apply nth_error_None in X. lia. }
  split; [|split].
  - destruct (N 0 Hq) as (m & Em). exists m. split; [exact Em|].
    destruct (sorted_first _ _ S Em) as [A B]. split.
    + eapply Permutation_in; [apply Permutation_sym; exact P|exact A].
    + eapply Permutation_Forall; [apply Permutation_sym; exact P|exact B].
  - destruct (N (length q - 1)) as (m & Em); [lia|]. exists m.
    split. { unfold ts_max. destruct q; [cbn in Hq; lia|exact Em]. }
    destruct (sorted_nth _ _ _ S Em) as [A _]. rewrite firstn_all2 in A by lia. split.
    + eapply Permutation_in; [apply Permutation_sym; exact P|]. eapply nth_error_In; eauto.
    + eapply Permutation_Forall; [apply Permutation_sym; exact P|exact A].
  - destruct (N (length q / 2)) as (m & Em); [apply Nat.div_lt; lia|]. exists m.
    destruct (sorted_nth _ _ _ S Em) as [A B].
    destruct (nth_error_split _ _ Em) as (lo & hi & Eq & Llo).
    exists lo, hi. split; [exact Em|]. split; [rewrite <- Eq; exact P|].
    rewrite <- Llo, Eq in A, B. rewrite firstn_app in A. rewrite skipn_app, skipn_all, Nat.sub_diag in B.
    cbn [skipn app] in B. rewrite firstn_all2 in A by lia. apply Forall_app in A. destruct A as [A _].
    inversion B; subst. split; [exact A|]. split; [assumption|]. rewrite <- Lq. exact Llo.
Qed.

Lemma i64_id : forall z, (0 <= z < 2 ^ 63)%Z -> i64 z = z.
Proof. intros z H. apply to_signed_unsigned; [lia|]. change (Z.of_N 64 - 1)%Z with 63%Z. lia. Qed.
Lemma total_nonneg : forall l, Forall (Z.le 0) l -> (0 <= total l)%Z.
Proof. induction 1; cbn [total fold_right]; [lia|]. unfold total in IHForall. lia. Qed.
Lemma cumulative_from : forall l a, Forall (Z.le 0) l -> (0 <= a)%Z -> (a + total l < 2 ^ 63)%Z ->
  fold_left (fun a t => i64 (a + t)) l a = (a + total l)%Z.
Proof.
  induction l as [|x l IH]; intros a H Ha L; cbn [fold_left]; [cbn; lia|]. inversion H; subst. cbn [total fold_right] in *.
  fold (total l) in *. pose proof (total_nonneg l H3). rewrite i64_id by lia. rewrite IH; [lia|assumption|lia|lia].
Qed.
Lemma total_perm : forall l l', Permutation l l' -> total l = total l'.
Proof. induction 1; cbn [total fold_right] in *; unfold total in *; lia. Qed.
Lemma total_ge : forall l x, Forall (Z.le 0) l -> In x l -> (x <= total l)%Z.
Proof.
  induction l as [|y l IH]; intros x H I; [destruct I|]. destruct I as [->|I]; inversion H; subst; cbn [total fold_right]; fold (total l); pose proof (total_nonneg l H3); [lia|].
  specialize (IH x H3 I). lia.
Qed.
Lemma sums : forall size ops, 0 < size -> (N.of_nat (length ops) < 2 ^ 64)%N ->
  exists s, fold_left sample_step ops (Some (sample_new size)) = Some s /\
  let w := newest size (since ops []) in
  Forall (Z.le 0) w -> (total w < 2 ^ 63)%Z ->
  ts_cumulative (snapshot s) = total w /\
  (w <> [] ->
   (exists a, ts_avg (snapshot s) = Some a /\ (a * Z.of_nat (length w) <= total w < (a + 1) * Z.of_nat (length w))%Z) /\
   (exists lo hi, ts_range (snapshot s) = Some (hi - lo)%Z /\ In lo w /\ In hi w /\ Forall (fun y => lo <= y <= hi)%Z w)).
Proof.
  intros size ops Hs Hl. destruct (answers size ops Hs Hl) as (s & E & P & S & M). exists s. split; [exact E|].
  cbv zeta in *. set (w := newest size (since ops [])) in *. set (q := snapshot s) in *. intros F T.
  assert (C : ts_cumulative q = total w).
  { unfold ts_cumulative. rewrite (total_perm _ _ P). rewrite cumulative_from; [lia| |lia|].
    - eapply Permutation_Forall; [exact P|exact F].
    - rewrite <- (total_perm _ _ P). lia. }
  split; [exact C|]. intro Hw. destruct (M Hw) as ((lo & E1 & I1 & F1) & (hi & E2 & I2 & F2) & _).
  assert (Lq : length q = length w) by (symmetry; apply Permutation_length; exact P).
  assert (Hq : 0 < length w). { destruct w; [congruence|cbn; lia]. }
  split.
  - exists (Z.quot (total w) (Z.of_nat (length w))). split.
    + unfold ts_avg. destruct q as [|x q'] eqn:Q; [cbn in Lq; lia|]. rewrite <- Q in *. rewrite C, Lq. reflexivity.
    + pose proof (total_nonneg w F). rewrite Z.quot_div_nonneg by lia.
      pose proof (Z.div_mod (total w) (Z.of_nat (length w)) ltac:(lia)).
      pose proof (Z.mod_pos_bound (total w) (Z.of_nat (length w)) ltac:(lia)). lia.
  - exists lo, hi. split.
    + unfold ts_range. rewrite E1, E2. rewrite i64_id; [reflexivity|].
      rewrite Forall_forall in F, F1, F2. pose proof (F lo I1). pose proof (F1 hi I2).
      pose proof (total_ge w hi ltac:(apply Forall_forall; exact F) I2). lia.
    + split; [exact I1|]. split; [exact I2|]. rewrite Forall_forall in *. intros y I. split; [apply F1|apply F2]; exact I.
Qed.
Lemma empty_panics : ts_min (snapshot (sample_new 50)) = None /\ ts_max (snapshot (sample_new 50)) = None /\
  ts_p50 (snapshot (sample_new 50)) = None /\ ts_avg (snapshot (sample_new 50)) = None.
Proof. vm_compute. auto. Qed.
Lemma live_wrong : exists s, fold_left sample_step [MAdd 5; MAdd 3]%Z (Some (sample_new 50)) = Some s /\
  ts_min (sm_times s) = Some 5%Z /\ ts_max (sm_times s) = Some 0%Z /\ ts_avg (sm_times s) = Some 0%Z.
Proof. eexists. split; [vm_compute; reflexivity|]. vm_compute. auto. Qed.
