(** Proofs about percentiles (C121). *)
From Verif Require Import M_Bytes M_Sample M_Percent S_Streams S_Percent P_Bytes P_Sample.
From Coq Require Import Lia Sorted Permutation ZifyBool ZifyNat ZifyN.
Open Scope nat_scope.

Definition ratios : list (nat * nat) := [(75, 100); (95, 100); (99, 100); (999, 1000); (5, 100)].
Definition rank_is (a b n : nat) : bool :=
  match rank (Z.of_nat a) (Z.of_nat b) n with Some k => (k =? (2 * Z.of_nat a * Z.of_nat n + Z.of_nat b) / (2 * Z.of_nat b))%Z | None => false end.
Lemma ranks_checked : forallb (fun ab => forallb (rank_is (fst ab) (snd ab)) (seq 0 51)) ratios = true.
Proof. vm_compute. reflexivity. Qed.
Lemma rank_ok a b n : In (a, b) ratios -> n <= 50 -> exists k, rank (Z.of_nat a) (Z.of_nat b) n = Some (Z.of_nat k) /\ nearest n a b k.
Proof.
  intros I Hn. pose proof ranks_checked as H. rewrite forallb_forall in H. specialize (H _ I). cbn [fst snd] in H.
  rewrite forallb_forall in H. specialize (H n ltac:(apply in_seq; lia)). unfold rank_is in H.
  destruct (rank (Z.of_nat a) (Z.of_nat b) n) as [k|]; [|discriminate]. apply Z.eqb_eq in H.
  assert (Hb : 0 < b) by (clear -I; unfold ratios in I; cbn [In] in I; repeat (destruct I as [I|I]; [inversion I; subst; lia|]); destruct I).
  pose proof (Z.div_mod (2 * Z.of_nat a * Z.of_nat n + Z.of_nat b) (2 * Z.of_nat b) ltac:(lia)) as Hd.
  pose proof (Z.mod_pos_bound (2 * Z.of_nat a * Z.of_nat n + Z.of_nat b) (2 * Z.of_nat b) ltac:(lia)) as Hm.
  rewrite <- H in Hd. assert (0 <= k)%Z by (rewrite H; apply Z.div_pos; nia).
  exists (Z.to_nat k). rewrite Z2Nat.id by lia. split; [reflexivity|]. unfold nearest.
  assert (E : Z.of_nat (Z.to_nat k) = k) by lia. split; apply Nat2Z.inj_le || apply Nat2Z.inj_lt; rewrite ?Nat2Z.inj_add, ?Nat2Z.inj_mul, ?Nat2Z.inj_add, E; change (Z.of_nat 2) with 2%Z; change (Z.of_nat 1) with 1%Z; nia.
Qed.

Lemma sorted_parts q : StronglySorted Z.le q -> forall k, all_below (firstn k q) (skipn k q).
Proof.
  induction 1 as [|x q S IH F]; intros k y z Iy Iz; [destruct k; destruct Iy|].
  destruct k as [|k]; [destruct Iy|]. cbn [firstn skipn] in *. destruct Iy as [<-|Iy].
  - rewrite Forall_forall in F. apply F. rewrite <- (firstn_skipn k q). apply in_or_app. now right.
  - exact (IH k y z Iy Iz).
Qed.
Lemma sorted_at q i j x y : StronglySorted Z.le q -> nth_error q i = Some x -> nth_error q j = Some y -> i <= j -> (x <= y)%Z.
Proof.
  intros S Hx Hy L. destruct (Nat.eq_dec i j) as [->|N]; [assert (x = y) by congruence; lia|].
  destruct (nth_error_split _ _ Hx) as (lo & hi & -> & Ll). apply (sorted_parts _ S (i + 1)).
  - rewrite firstn_app. replace (i + 1 - length lo) with 1 by lia. cbn. apply in_or_app. right. now left.
  - rewrite nth_error_app2 in Hy by lia. rewrite skipn_app. apply in_or_app. right.
    replace (i + 1 - length lo) with 1 by lia. destruct (j - length lo) as [|j'] eqn:Ej; [lia|]. cbn in Hy |- *. eapply nth_error_In; eauto.
Qed.

Lemma newest_length n l : length (newest n l) <= n.
Proof. unfold newest. rewrite skipn_length. lia. Qed.
Lemma mean_is l : Forall (Z.le 0) l -> (total l < 2 ^ 63)%Z -> l <> [] -> mean_of (ts_mean l) l.
Proof.
  intros F T Hl. unfold mean_of, ts_mean. assert (0 < length l) by (destruct l; [congruence|cbn; lia]).
  assert (C : ts_cumulative l = total l) by (unfold ts_cumulative; rewrite cumulative_from; [lia|exact F|lia|lia]). rewrite C.
  split; [exact Hl|]. pose proof (total_nonneg l F). rewrite Z.quot_div_nonneg by lia.
  pose proof (Z.div_mod (total l) (Z.of_nat (length l)) ltac:(lia)).
  pose proof (Z.mod_pos_bound (total l) (Z.of_nat (length l)) ltac:(lia)). lia.
Qed.
Lemma mean_one m : mean_of m [m].
Proof. unfold mean_of. cbn. split; [discriminate|lia]. Qed.
Lemma total_app a b : total (a ++ b) = (total a + total b)%Z.
Proof. induction a as [|x a IH]; cbn [app]; [reflexivity|]. change (total (x :: a ++ b)) with (x + total (a ++ b))%Z. change (total (x :: a)) with (x + total a)%Z. lia. Qed.
Lemma mean_ge m l x : mean_of m l -> Forall (Z.le x) l -> (x <= m)%Z.
Proof.
  intros (Hl & _ & H) F. assert (L : 0 < length l) by (destruct l; [congruence|cbn; lia]).
  assert (T : (x * Z.of_nat (length l) <= total l)%Z).
  { clear -F. induction F as [|y l Hy F IH]; [cbn; lia|]. cbn [total fold_right length]. fold (total l). lia. }
  nia.
Qed.
Lemma mean_le m l x : mean_of m l -> Forall (fun y => y <= x)%Z l -> (m <= x)%Z.
Proof.
  intros (Hl & H & _) F. assert (L : 0 < length l) by (destruct l; [congruence|cbn; lia]).
  assert (T : (total l <= x * Z.of_nat (length l))%Z).
  { clear -F. induction F as [|y l Hy F IH]; [cbn; lia|]. cbn [total fold_right length]. fold (total l). lia. }
  nia.
Qed.

Definition asked (a b : nat) : Prop := In (a, b) [(75, 100); (95, 100); (99, 100); (999, 1000)].
Lemma asked_in a b : asked a b -> In (a, b) ratios /\ b <= 2 * a /\ a <= b /\ 0 < b.
Proof. unfold asked, ratios. cbn. intros H. repeat (destruct H as [H|H]; [inversion H; subst; intuition lia|]). destruct H. Qed.
Lemma p_at q a b : asked a b -> 0 < length q <= 50 -> exists k m, nearest (length q) a b (S k) /\ k < length q /\ ts_p (Z.of_nat a) (Z.of_nat b) q = Some m /\ nth_error q k = Some m.
Proof.
  intros A L. destruct (asked_in a b A) as (I & H1 & H2 & H3). destruct (rank_ok a b (length q) I ltac:(lia)) as (k & E & Hn).
  unfold nearest in Hn. assert (0 < k /\ k <= length q) as [K1 K2] by (split; nia). destruct k as [|k]; [lia|].
  destruct (nth_error q k) as [m|] eqn:Em; [|apply nth_error_None in Em; lia].
  exists k, m. split; [exact Hn|]. split; [lia|]. split; [|exact Em]. unfold ts_p. rewrite E.
  replace (Z.of_nat (S k) - 1 <? 0)%Z with false by lia. replace (Z.to_nat (Z.of_nat (S k) - 1)) with k by lia. exact Em.
Qed.
Lemma percentiles : forall ops, (N.of_nat (length ops) < 2 ^ 64)%N ->
  exists s, fold_left sample_step ops (Some (sample_new 50)) = Some s /\
  let w := newest 50 (since ops []) in
  w <> [] -> forall a b, In (a, b) [(75, 100); (95, 100); (99, 100); (999, 1000)] ->
  exists m lo hi, ts_p (Z.of_nat a) (Z.of_nat b) (snapshot s) = Some m /\ Permutation w (lo ++ m :: hi) /\
    Forall (fun y => y <= m)%Z lo /\ Forall (Z.le m) hi /\ nearest (length w) a b (length lo + 1).
Proof.
  intros ops Hl. destruct (answers 50 ops ltac:(lia) Hl) as (s & E & P & S & _). exists s. split; [exact E|]. cbv zeta in *.
  set (w := newest 50 (since ops [])) in *. set (q := snapshot s) in *. intros Hw a b A.
  assert (Lq : length q = length w) by (symmetry; apply Permutation_length; exact P).
  assert (0 < length w <= 50) by (split; [destruct w; [congruence|cbn; lia]|apply newest_length]).
  destruct (p_at q a b A ltac:(lia)) as (k & m & Hn & Hk & Ep & Em).
  destruct (nth_error_split _ _ Em) as (lo & hi & Eq & Ll). exists m, lo, hi. split; [exact Ep|]. rewrite Eq in P. split; [exact P|].
  pose proof (sorted_parts q S (length lo)) as B1. pose proof (sorted_parts q S (length lo + 1)) as B2. rewrite Eq in B1, B2.
  rewrite firstn_app, firstn_all, Nat.sub_diag, skipn_app, skipn_all, Nat.sub_diag in B1. cbn in B1. rewrite app_nil_r in B1.
  split; [apply Forall_forall; intros x I; apply B1; [exact I|now left]|].
  split; [|rewrite Ll; replace (k + 1) with (Datatypes.S k) by lia; rewrite <- Lq; exact Hn].
  apply Forall_forall. intros y I. apply B2.
  - rewrite firstn_app. replace (length lo + 1 - length lo) with 1 by lia. apply in_or_app. right. now left.
  - rewrite skipn_app. replace (length lo + 1 - length lo) with 1 by lia. apply in_or_app. right. exact I.
Qed.

Lemma long_at q : 0 < length q <= 50 -> Forall (Z.le 0) q -> (total q < 2 ^ 63)%Z -> exists k l lo hi,
  nearest (length q) 95 100 k /\ ts_long5p q = Some l /\ q = lo ++ hi /\ length hi = Nat.max 1 (length q - k) /\ mean_of l hi.
Proof.
  intros L F T. destruct (rank_ok 95 100 (length q) ltac:(cbn; auto) ltac:(lia)) as (k & E & Hn). unfold nearest in Hn.
  unfold ts_long5p. change (rank 95 100 (length q)) with (rank (Z.of_nat 95) (Z.of_nat 100) (length q)). rewrite E.
  replace ((Z.of_nat k <? 0)%Z || (Z.of_nat (length q) <? Z.of_nat k)%Z)%bool with false by lia. rewrite Nat2Z.id.
  pose proof (skipn_length k q) as Ls. exists k. destruct (Nat.leb_spec (length (skipn k q)) 1) as [C|C].
  - destruct (exists_last (l := q)) as (lo & m & Eq); [destruct q; [cbn in L; lia|discriminate]|]. exists m, lo, [m].
    split; [exact Hn|]. split; [|split; [exact Eq|split; [change (length [m]) with 1; lia|apply mean_one]]].
    unfold ts_max. rewrite Eq, app_length. cbn [length]. destruct (lo ++ [m]) eqn:Z; [destruct lo; discriminate|]. rewrite <- Z.
    replace (length lo + 1 - 1) with (length lo) by lia. rewrite nth_error_app2, Nat.sub_diag by lia. reflexivity.
  - exists (ts_mean (skipn k q)), (firstn k q), (skipn k q). split; [exact Hn|]. split; [reflexivity|].
    split; [symmetry; apply firstn_skipn|]. split; [lia|]. rewrite <- (firstn_skipn k q) in F, T. apply Forall_app in F. destruct F as [F1 F2].
    rewrite total_app in T. pose proof (total_nonneg _ F1). apply mean_is; [exact F2|lia|]. intros X. rewrite X in C. cbn in C. lia.
Qed.
Lemma short_at q : 0 < length q <= 50 -> Forall (Z.le 0) q -> (total q < 2 ^ 63)%Z -> exists k l lo hi,
  nearest (length q) 5 100 k /\ ts_short5p q = Some l /\ q = lo ++ hi /\ length lo = Nat.max 1 k /\ mean_of l lo.
Proof.
  intros L F T. destruct (rank_ok 5 100 (length q) ltac:(cbn; auto 6) ltac:(lia)) as (k & E & Hn). unfold nearest in Hn.
  unfold ts_short5p. change (rank 5 100 (length q)) with (rank (Z.of_nat 5) (Z.of_nat 100) (length q)). rewrite E.
  replace ((Z.of_nat k <? 0)%Z || (Z.of_nat (length q) <? Z.of_nat k)%Z)%bool with false by lia. rewrite Nat2Z.id.
  pose proof (firstn_length k q) as Ls. exists k. destruct (Nat.leb_spec (length (firstn k q)) 1) as [C|C].
  - destruct q as [|m q]; [cbn in L; lia|]. exists m, [m], q. cbn [length] in *.
    split; [exact Hn|]. split; [reflexivity|]. split; [reflexivity|]. split; [change (length [m]) with 1; lia|apply mean_one].
  - exists (ts_mean (firstn k q)), (firstn k q), (skipn k q). split; [exact Hn|]. split; [reflexivity|].
    split; [symmetry; apply firstn_skipn|]. split; [lia|]. rewrite <- (firstn_skipn k q) in F, T. apply Forall_app in F. destruct F as [F1 F2].
    rewrite total_app in T. pose proof (total_nonneg _ F2). apply mean_is; [exact F1|lia|]. intros X. rewrite X in C. cbn in C. lia.
Qed.
Lemma sorted_app lo hi : StronglySorted Z.le (lo ++ hi) -> all_below lo hi.
Proof.
  intros S. pose proof (sorted_parts _ S (length lo)) as B. rewrite firstn_app, firstn_all, Nat.sub_diag, skipn_app, skipn_all, Nat.sub_diag in B.
  cbn in B. now rewrite app_nil_r in B.
Qed.
Lemma ends : forall ops, (N.of_nat (length ops) < 2 ^ 64)%N ->
  exists s, fold_left sample_step ops (Some (sample_new 50)) = Some s /\
  let w := newest 50 (since ops []) in
  w <> [] -> Forall (Z.le 0) w -> (total w < 2 ^ 63)%Z ->
  (exists k l lo hi, ts_long5p (snapshot s) = Some l /\ Permutation w (lo ++ hi) /\ all_below lo hi /\
     nearest (length w) 95 100 k /\ length hi = Nat.max 1 (length w - k) /\ mean_of l hi) /\
  (exists k l lo hi, ts_short5p (snapshot s) = Some l /\ Permutation w (lo ++ hi) /\ all_below lo hi /\
     nearest (length w) 5 100 k /\ length lo = Nat.max 1 k /\ mean_of l lo).
Proof.
  intros ops Hl. destruct (answers 50 ops ltac:(lia) Hl) as (s & E & P & S & _). exists s. split; [exact E|]. cbv zeta in *.
  set (w := newest 50 (since ops [])) in *. set (q := snapshot s) in *. intros Hw F T.
  assert (Lq : length q = length w) by (symmetry; apply Permutation_length; exact P).
  assert (0 < length w <= 50) by (split; [destruct w; [congruence|cbn; lia]|apply newest_length]).
  assert (Fq : Forall (Z.le 0) q) by (eapply Permutation_Forall; eauto). rewrite (total_perm _ _ P) in T. split.
  - destruct (long_at q ltac:(lia) Fq T) as (k & l & lo & hi & H1 & H2 & H3 & H4 & H5). exists k, l, lo, hi.
    rewrite <- Lq. split; [exact H2|]. split; [now rewrite <- H3|]. rewrite H3 in S. split; [now apply sorted_app|auto].
  - destruct (short_at q ltac:(lia) Fq T) as (k & l & lo & hi & H1 & H2 & H3 & H4 & H5). exists k, l, lo, hi.
    rewrite <- Lq. split; [exact H2|]. split; [now rewrite <- H3|]. rewrite H3 in S. split; [now apply sorted_app|auto].
Qed.
Lemma order : forall ops, (N.of_nat (length ops) < 2 ^ 64)%N ->
  exists s, fold_left sample_step ops (Some (sample_new 50)) = Some s /\
  let w := newest 50 (since ops []) in
  w <> [] -> Forall (Z.le 0) w -> (total w < 2 ^ 63)%Z ->
  exists lowest short p50 p75 p95 p99 p999 long highest,
    ts_min (snapshot s) = Some lowest /\ ts_short5p (snapshot s) = Some short /\ ts_p50 (snapshot s) = Some p50 /\
    ts_p 75 100 (snapshot s) = Some p75 /\ ts_p 95 100 (snapshot s) = Some p95 /\ ts_p 99 100 (snapshot s) = Some p99 /\
    ts_p 999 1000 (snapshot s) = Some p999 /\ ts_long5p (snapshot s) = Some long /\ ts_max (snapshot s) = Some highest /\
    (lowest <= short <= p50 /\ p50 <= p75 <= p95 /\ p95 <= p99 <= p999 /\ p999 <= highest /\ p95 <= long <= highest)%Z.
Proof.
  intros ops Hl. destruct (answers 50 ops ltac:(lia) Hl) as (s & E & P & S & M). exists s. split; [exact E|]. cbv zeta in *.
  set (w := newest 50 (since ops [])) in *. set (q := snapshot s) in *. intros Hw F T.
  assert (Lq : length q = length w) by (symmetry; apply Permutation_length; exact P).
  assert (L : 0 < length q <= 50) by (rewrite Lq; split; [destruct w; [congruence|cbn; lia]|apply newest_length]).
  assert (Fq : Forall (Z.le 0) q) by (eapply Permutation_Forall; eauto). rewrite (total_perm _ _ P) in T.
  destruct (M Hw) as ((m0 & E0 & _ & B0) & (m1 & E1 & _ & B1) & (m2 & _ & _ & E2 & _)).
  assert (B0' : Forall (Z.le m0) q) by (eapply Permutation_Forall; eauto).
  assert (B1' : Forall (fun y => (y <= m1)%Z) q) by (eapply Permutation_Forall; eauto).
  destruct (p_at q 75 100 ltac:(cbn; auto) L) as (k75 & p75 & N75 & L75 & E75 & X75).
  destruct (p_at q 95 100 ltac:(cbn; auto) L) as (k95 & p95 & N95 & L95 & E95 & X95).
  destruct (p_at q 99 100 ltac:(cbn; auto) L) as (k99 & p99 & N99 & L99 & E99 & X99).
  destruct (p_at q 999 1000 ltac:(cbn; auto) L) as (k999 & p999 & N999 & L999 & E999 & X999).
  destruct (long_at q L Fq T) as (kl & l & lo & hi & Nl & El & Ql & Ll & Ml).
  destruct (short_at q L Fq T) as (ks & sh & lo' & hi' & Ns & Es & Qs & Ls & Ms).
  unfold nearest in *. pose proof (Nat.div_mod (length q) 2 ltac:(lia)) as Hd. pose proof (Nat.mod_upper_bound (length q) 2 ltac:(lia)) as Hm.
  unfold ts_p50 in E2. exists m0, sh, m2, p75, p95, p99, p999, l, m1.
  do 9 (split; [assumption|]).
  assert (A : forall i j x y, nth_error q i = Some x -> nth_error q j = Some y -> i <= j -> (x <= y)%Z) by (intros; eapply sorted_at; eauto).
  assert (Hi : forall k x, nth_error q k = Some x -> (x <= m1)%Z) by (intros k x X; rewrite Forall_forall in B1'; apply B1'; eapply nth_error_In; eauto).
  repeat split.
  - eapply mean_ge; [exact Ms|]. rewrite Qs in B0'. apply Forall_app in B0'. tauto.
  - eapply mean_le; [exact Ms|]. apply Forall_forall. intros x I. apply In_nth_error in I. destruct I as (i & I).
    assert (i < length lo') by (apply nth_error_Some; congruence).
    apply (A i (length q / 2) x m2); [rewrite Qs, nth_error_app1 by lia; exact I|exact E2|lia].
  - eapply A; [exact E2|exact X75|nia].
  - eapply A; [exact X75|exact X95|nia].
  - eapply A; [exact X95|exact X99|nia].
  - eapply A; [exact X99|exact X999|nia].
  - eapply Hi; exact X999.
  - eapply mean_ge; [exact Ml|]. apply Forall_forall. intros x I. apply In_nth_error in I. destruct I as (i & I).
    apply (A k95 (length lo + i) p95 x); [exact X95| |].
    + rewrite Ql, nth_error_app2 by lia. replace (length lo + i - length lo) with i by lia. exact I.
    + assert (length q = length lo + length hi) by (rewrite Ql, app_length; reflexivity). lia.
  - eapply mean_le; [exact Ml|]. rewrite Ql in B1'. apply Forall_app in B1'. tauto.
Qed.
Lemma empty_percent :
  ts_p 75 100 (snapshot (sample_new 50)) = None /\ ts_p 999 1000 (snapshot (sample_new 50)) = None /\
  ts_long5p (snapshot (sample_new 50)) = None /\ ts_short5p (snapshot (sample_new 50)) = None.
Proof. vm_compute. repeat split. Qed.
