(** Lemmas about [M_Ring]. *)
From Verif Require Import M_Bytes M_Ring S_Ring.
From Coq Require Import Lia Permutation Sorted ZifyN ZifyNat.
Open Scope N_scope.

Lemma str_lt_irrefl a : str_lt a a = false.
Proof. induction a as [|x a IH]; [reflexivity|]. cbn. rewrite N.ltb_irrefl. exact IH. Qed.
Lemma str_lt_trans a : forall b c, str_lt a b = true -> str_lt b c = true -> str_lt a c = true.
Proof.
  induction a as [|x a IH]; intros [|y b] [|z c]; cbn; try congruence.
  destruct (N.ltb_spec x y), (N.ltb_spec y x), (N.ltb_spec y z), (N.ltb_spec z y), (N.ltb_spec x z), (N.ltb_spec z x);
    try congruence; try lia. apply IH.
Qed.
Lemma str_lt_total a : forall b, str_lt a b = false -> str_lt b a = false -> a = b.
Proof.
  induction a as [|x a IH]; intros [|y b]; cbn; try congruence.
  destruct (N.ltb_spec x y), (N.ltb_spec y x); try congruence; try lia.
  intros H1 H2. f_equal; [lia|]. apply IH; assumption.
Qed.
Lemma str_lt_asym a b : str_lt a b = true -> str_lt b a = false.
Proof.
  intros H. destruct (str_lt b a) eqn:E; [|reflexivity].
  pose proof (str_lt_trans _ _ _ H E) as K. rewrite str_lt_irrefl in K. discriminate.
Qed.

(** [before] is a total order. *)
Lemma before_refl v n : before v n v n. Proof. right. auto. Qed.
Lemma before_total v1 n1 v2 n2 : before v1 n1 v2 n2 \/ before v2 n2 v1 n1.
Proof.
  unfold before. destruct (N.lt_trichotomy v1 v2) as [H|[H|H]]; [auto| |auto].
  destruct (str_lt n1 n2) eqn:E1; [left; right; auto|]. destruct (str_lt n2 n1) eqn:E2; [right; right; auto|].
  left. right. split; [exact H|]. left. apply str_lt_total; assumption.
Qed.
Lemma before_antisym v1 n1 v2 n2 : before v1 n1 v2 n2 -> before v2 n2 v1 n1 -> v1 = v2 /\ n1 = n2.
Proof.
  unfold before. intros [H|[H [K|K]]] [H'|[H' [K'|K']]]; try lia; try (split; congruence).
  apply str_lt_asym in K. congruence.
Qed.
Lemma before_trans v1 n1 v2 n2 v3 n3 : before v1 n1 v2 n2 -> before v2 n2 v3 n3 -> before v1 n1 v3 n3.
Proof.
  unfold before. intros [H|[H [K|K]]] [H'|[H' [K'|K']]]; try (left; lia); right; (split; [lia|]); subst; auto.
  right. eapply str_lt_trans; eassumption.
Qed.

Lemma not_less_before a b : not_less a b <-> before (e_hash a) (e_key a) (e_hash b) (e_key b).
Proof.
  unfold not_less, less, before. destruct (N.ltb_spec (e_hash b) (e_hash a)).
  - split; [discriminate|]. intros [K|[K _]]; lia.
  - destruct (N.eqb_spec (e_hash b) (e_hash a)).
    + split; [|intros [K|[K [->|K2]]]; [lia|apply str_lt_irrefl|apply str_lt_asym, K2]].
      intros E. right. split; [congruence|]. destruct (str_lt (e_key a) (e_key b)) eqn:E2; [auto|].
      left. apply str_lt_total; assumption.
    + split; [|reflexivity]. intros _. left. lia.
Qed.
Lemma at_or_after_before h k e : at_or_after h k e = true <-> before h k (e_hash e) (e_key e).
Proof.
  unfold at_or_after, before. rewrite orb_true_iff, andb_true_iff, negb_true_iff, N.ltb_lt, N.eqb_eq.
  split; (intros [H|[H K]]; [left; exact H|right; split; [congruence|]]).
  - destruct (str_lt k (e_key e)) eqn:E2; [auto|]. left. apply str_lt_total; assumption.
  - destruct K as [->|K]; [apply str_lt_irrefl|apply str_lt_asym, K].
Qed.

(** Binary search finds the first index of a monotone predicate. *)
Lemma search_spec fuel : forall f i j, (i <= j)%nat -> (j - i < fuel)%nat ->
  (forall a b, (a <= b)%nat -> f a = true -> f b = true) ->
  let r := search fuel f i j in
  (i <= r <= j)%nat /\ (forall a, (i <= a < r)%nat -> f a = false) /\ ((r < j)%nat -> f r = true).
Proof.
  induction fuel as [|fuel IH]; intros f i j Hij Hf Hm; [lia|]. cbn [search].
  destruct (Nat.ltb_spec i j) as [Hlt|Hge].
  - assert (Hh : (i <= Nat.div2 (i + j) < j)%nat).
    { rewrite Nat.div2_div. split; [apply Nat.div_le_lower_bound; lia|apply Nat.div_lt_upper_bound; lia]. }
    set (h := Nat.div2 (i + j)) in *. clearbody h. destruct (f h) eqn:E; cbv zeta.
    + destruct (IH f i h) as (A & B & C); [lia|lia|exact Hm|]. split; [lia|]. split; [exact B|].
      intros H. destruct (Nat.eq_dec (search fuel f i h) h) as [->|]; [exact E|apply C; lia].
    + destruct (IH f (S h) j) as (A & B & C); [lia|lia|exact Hm|]. split; [lia|]. split; [|exact C].
      intros a Ha. destruct (Nat.le_gt_cases a h); [|apply B; lia].
      destruct (f a) eqn:Ea; [|reflexivity]. rewrite (Hm a h) in E by assumption. discriminate.
  - cbv zeta. split; [lia|]. split; [intros a; lia|lia].
Qed.

Lemma sorted_nth l (d : elem) : StronglySorted not_less l -> forall i j, (i <= j < length l)%nat ->
  before (e_hash (nth i l d)) (e_key (nth i l d)) (e_hash (nth j l d)) (e_key (nth j l d)).
Proof.
  induction 1 as [|a l HS IH HF]; intros i j Hij; [cbn in Hij; lia|].
  destruct i as [|i], j as [|j]; cbn [nth length] in *; try lia.
  - apply before_refl.
  - rewrite Forall_forall in HF. apply not_less_before, HF, nth_In. lia.
  - apply IH. lia.
Qed.

(** Beyond the end [nth] gives the default, so the predicate is made false
    before and true after by position. *)
Lemma get_owner r key : r_keys r <> [] -> StronglySorted not_less (r_keys r) ->
  exists e, In e (r_keys r) /\ e_key e = ring_get r key /\
    ((before (r_hash r key) key (e_hash e) (e_key e) /\
      forall e', In e' (r_keys r) -> before (r_hash r key) key (e_hash e') (e_key e') ->
        before (e_hash e) (e_key e) (e_hash e') (e_key e'))
     \/
     ((forall e', In e' (r_keys r) -> ~ before (r_hash r key) key (e_hash e') (e_key e')) /\
      forall e', In e' (r_keys r) -> before (e_hash e) (e_key e) (e_hash e') (e_key e'))).
Proof.
  intros Hne HS. unfold ring_get. destruct (r_keys r) as [|e0 l0] eqn:El; [congruence|]. rewrite <- El in *.
  set (l := r_keys r) in *. set (h := r_hash r key). set (n := length l).
  assert (Hn : (0 < n)%nat) by (unfold n; rewrite El; cbn; lia).
  (* the code's predicate and a total version of it agree below n *)
  set (f := fun i => at_or_after h key (nth i l e0)).
  set (g := fun i => (f i || Nat.leb n i)%bool).
  assert (FG : forall fuel i j, (j <= n)%nat -> search fuel f i j = search fuel g i j).
  { induction fuel as [|fuel IH]; intros i j Hj; [reflexivity|]. cbn [search].
    destruct (Nat.ltb_spec i j) as [Hlt|]; [|reflexivity]. cbv zeta.
    assert (Hh : (Nat.div2 (i + j) < j)%nat) by (rewrite Nat.div2_div; apply Nat.div_lt_upper_bound; lia).
    unfold g at 1. rewrite (proj2 (Nat.leb_gt n (Nat.div2 (i + j)))) by lia. rewrite orb_false_r.
    rewrite !IH by lia. reflexivity. }
  rewrite FG by lia.
  assert (Mono : forall a b, (a <= b)%nat -> g a = true -> g b = true).
  { intros a b Hab Ha. unfold g in *. destruct (Nat.leb_spec n b) as [|Hb]; [apply orb_true_r|].
    rewrite (proj2 (Nat.leb_gt n a)) in Ha by lia. rewrite orb_false_r in *.
    unfold f in *. apply at_or_after_before in Ha. apply at_or_after_before.
    eapply before_trans; [exact Ha|]. apply sorted_nth; [exact HS|fold n; lia]. }
  destruct (search_spec (S n) g 0 n ltac:(lia) ltac:(lia) Mono) as (R1 & R2 & R3).
  set (idx := search (S n) g 0 n) in *. clearbody idx.
  destruct (Nat.eqb_spec idx n) as [E|E].
  - exists (nth 0 l e0). split; [apply nth_In; exact Hn|]. split; [reflexivity|]. right. split.
    + intros e' He' HB. destruct (In_nth _ _ e0 He') as (i & Hi & <-). fold n in Hi.
      specialize (R2 i ltac:(lia)). unfold g, f in R2. apply orb_false_iff in R2. destruct R2 as [R2 _].
      apply at_or_after_before in HB. congruence.
    + intros e' He'. destruct (In_nth _ _ e0 He') as (i & Hi & <-). apply sorted_nth; [exact HS|lia].
  - exists (nth idx l e0). split; [apply nth_In; fold n; lia|]. split; [reflexivity|]. left.
    specialize (R3 ltac:(lia)). unfold g in R3. rewrite (proj2 (Nat.leb_gt n idx)) in R3 by lia.
    rewrite orb_false_r in R3. unfold f in R3. apply at_or_after_before in R3. split; [exact R3|].
    intros e' He' HB. destruct (In_nth _ _ e0 He') as (i & Hi & <-). fold n in Hi.
    apply sorted_nth; [exact HS|]. fold n. split; [|lia]. destruct (Nat.le_gt_cases idx i); [assumption|].
    specialize (R2 i ltac:(lia)). unfold g, f in R2. apply orb_false_iff in R2. destruct R2 as [R2 _].
    apply at_or_after_before in HB. congruence.
Qed.

(** The ring after a sequence of [Add] calls. *)
Lemma built_inv replicas h itoa srt adds : sorts srt ->
  let r := built replicas h itoa srt adds in
  r_hash r = h /\ Permutation (flat_map (points replicas h itoa) (concat adds)) (r_keys r) /\
  StronglySorted not_less (r_keys r) /\ r_replicas r = replicas /\ r_itoa r = itoa /\ r_sort r = srt.
Proof.
  intros Hs. induction adds as [|a adds IH] using rev_ind; cbv zeta.
  - cbn. repeat split; constructor.
  - unfold built in *. rewrite fold_left_app. cbn [fold_left].
    set (r := fold_left ring_add adds _) in *. clearbody r. destruct IH as (H1 & H2 & H3 & H4 & H5 & H6).
    unfold ring_add. cbn. rewrite H1, H4, H5, H6.
    destruct (Hs (r_keys r ++ flat_map (points replicas h itoa) a)) as [P S].
    split; [reflexivity|]. split; [|auto].
    rewrite concat_app, flat_map_app. cbn [concat]. rewrite app_nil_r.
    eapply Permutation_trans; [apply Permutation_app_tail, H2|exact P].
Qed.

Lemma in_points replicas h itoa nodes e :
  In e (flat_map (points replicas h itoa) nodes) <-> is_point replicas h itoa nodes (e_key e) (e_hash e).
Proof.
  rewrite in_flat_map. unfold points, is_point. split.
  - intros (n & Hn & H). apply in_map_iff in H. destruct H as (i & <- & Hi). apply in_seq in Hi. cbn. split; [exact Hn|].
    exists i. split; [lia|reflexivity].
  - intros (Hn & i & Hi & E). exists (e_key e). split; [exact Hn|]. apply in_map_iff. exists i. split; [|apply in_seq; lia].
    rewrite <- E. destruct e; reflexivity.
Qed.

Lemma get_owns replicas h itoa srt adds key : sorts srt -> (0 < replicas)%nat -> concat adds <> [] ->
  owns replicas h itoa (concat adds) key (ring_get (built replicas h itoa srt adds) key).
Proof.
  intros Hs Hr Hne. destruct (built_inv replicas h itoa srt adds Hs) as (H1 & H2 & H3 & H4 & H5 & H6).
  set (r := built replicas h itoa srt adds) in *. clearbody r.
  assert (IN : forall e, In e (r_keys r) <-> is_point replicas h itoa (concat adds) (e_key e) (e_hash e)).
  { intros e. rewrite <- in_points. split; apply Permutation_in; [apply Permutation_sym|]; exact H2. }
  assert (NE : r_keys r <> []).
  { intros E. destruct (concat adds) as [|n ns]; [congruence|].
    assert (In (mkElem n (h (itoa O ++ n))) (r_keys r)) as H.
    { apply IN. cbn. split; [left; reflexivity|]. exists O. auto. }
    rewrite E in H. destruct H. }
  destruct (get_owner r key NE H3) as (e & He & Ek & Hc). rewrite H1 in Hc. rewrite <- Ek. exists (e_hash e).
  split; [apply IN, He|]. destruct Hc as [[A B]|[A B]]; [left|right]; (split; [try exact A|]).
  - intros n' v' Hp. apply (B (mkElem n' v')). apply IN. exact Hp.
  - intros n' v' Hp. apply (A (mkElem n' v')). apply IN. exact Hp.
  - intros n' v' Hp. apply (B (mkElem n' v')). apply IN. exact Hp.
Qed.

Lemma owns_unique replicas h itoa ns1 ns2 key o1 o2 : (forall n, In n ns1 <-> In n ns2) ->
  owns replicas h itoa ns1 key o1 -> owns replicas h itoa ns2 key o2 -> o1 = o2.
Proof.
  intros E (v1 & P1 & H1) (v2 & P2 & H2).
  assert (S : forall n v, is_point replicas h itoa ns1 n v <-> is_point replicas h itoa ns2 n v).
  { intros n v. unfold is_point. rewrite E. reflexivity. }
  pose proof (proj1 (S _ _) P1) as P1'. pose proof (proj2 (S _ _) P2) as P2'.
  assert (M : before v1 o1 v2 o2 /\ before v2 o2 v1 o1).
  { destruct H1 as [[A1 B1]|[A1 B1]], H2 as [[A2 B2]|[A2 B2]].
    - split; [apply B1|apply B2]; assumption.
    - exfalso. exact (A2 _ _ P1' A1).
    - exfalso. exact (A1 _ _ P2' A2).
    - split; [apply B1|apply B2]; assumption. }
  destruct M as [M1 M2]. apply (before_antisym _ _ _ _ M1 M2).
Qed.

(** Taking nodes away moves only the keys they owned. *)
Lemma owns_less replicas h itoa ns1 ns2 key o : (forall n, In n ns2 -> In n ns1) -> In o ns2 ->
  owns replicas h itoa ns1 key o -> owns replicas h itoa ns2 key o.
Proof.
  intros Sub Ho (v & [_ P] & H). exists v. split; [split; assumption|].
  assert (S : forall n v, is_point replicas h itoa ns2 n v -> is_point replicas h itoa ns1 n v).
  { intros n v' [A B]. split; [apply Sub, A|exact B]. }
  destruct H as [[A B]|[A B]]; [left|right]; (split; [try exact A|]); auto.
Qed.

(** Sorting has one result. *)
Lemma sorted_perm_eq l : forall l', StronglySorted not_less l -> StronglySorted not_less l' -> Permutation l l' -> l = l'.
Proof.
  induction l as [|a l IH]; intros l' S S' P.
  - apply Permutation_nil in P. congruence.
  - destruct l' as [|b l']; [apply Permutation_sym, Permutation_nil in P; discriminate|].
    inversion S as [|? ? S1 F1]; inversion S' as [|? ? S1' F1']; subst.
    assert (a = b) as <-.
    { assert (Ha : In a (b :: l')) by (eapply Permutation_in; [exact P|left; reflexivity]).
      assert (Hb : In b (a :: l)) by (eapply Permutation_in; [apply Permutation_sym, P|left; reflexivity]).
      destruct Ha as [->|Ha]; [reflexivity|]. destruct Hb as [->|Hb]; [reflexivity|].
      rewrite Forall_forall in F1, F1'. specialize (F1 b Hb). specialize (F1' a Ha).
      apply not_less_before in F1. apply not_less_before in F1'.
      destruct (before_antisym _ _ _ _ F1 F1'). destruct a, b; cbn in *. congruence. }
    f_equal. apply IH; [assumption|assumption|]. eapply Permutation_cons_inv, P.
Qed.
Lemma built_same replicas h itoa srt srt' adds adds' : sorts srt -> sorts srt' ->
  Permutation (concat adds) (concat adds') ->
  r_keys (built replicas h itoa srt adds) = r_keys (built replicas h itoa srt' adds').
Proof.
  intros Hs Hs' P. destruct (built_inv replicas h itoa srt adds Hs) as (_ & H2 & H3 & _).
  destruct (built_inv replicas h itoa srt' adds' Hs') as (_ & H2' & H3' & _).
  apply sorted_perm_eq; [exact H3|exact H3'|].
  eapply Permutation_trans; [apply Permutation_sym, H2|]. eapply Permutation_trans; [|exact H2'].
  apply Permutation_flat_map, P.
Qed.

(** Insertion sort, to show that [sorts] can be met. *)
Fixpoint ins (e : elem) (l : list elem) : list elem :=
  match l with [] => [e] | x :: r => if less e x then e :: l else x :: ins e r end.
Definition isort (l : list elem) : list elem := fold_right ins [] l.
Lemma ins_perm e l : Permutation (e :: l) (ins e l).
Proof.
  induction l as [|x l IH]; cbn; [reflexivity|]. destruct (less e x); [reflexivity|].
  eapply Permutation_trans; [apply perm_swap|]. constructor. exact IH.
Qed.
Lemma ins_sorted e l : StronglySorted not_less l -> StronglySorted not_less (ins e l).
Proof.
  induction 1 as [|x l S IH F]; cbn; [repeat constructor|]. destruct (less e x) eqn:E.
  - assert (EB : not_less e x).
    { unfold not_less. apply not_less_before. destruct (before_total (e_hash e) (e_key e) (e_hash x) (e_key x)) as [B|B]; [exact B|].
      apply not_less_before in B. unfold not_less in B. congruence. }
    constructor; [constructor; assumption|]. constructor; [exact EB|]. rewrite Forall_forall in *. intros y Hy.
    apply not_less_before. eapply before_trans; apply not_less_before; [exact EB|apply F, Hy].
  - constructor; [exact IH|]. rewrite Forall_forall in *. intros y Hy.
    apply (Permutation_in _ (Permutation_sym (ins_perm e l))) in Hy. destruct Hy as [<-|Hy]; [exact E|apply F, Hy].
Qed.
Lemma isort_sorts : sorts isort.
Proof.
  intros l. induction l as [|e l [P S]]; cbn; [split; constructor|]. split; [|apply ins_sorted, S].
  eapply Permutation_trans; [constructor; exact P|apply ins_perm].
Qed.

Lemma owner_member replicas h itoa srt adds key : sorts srt -> (0 < replicas)%nat -> concat adds <> [] ->
  In (ring_get (built replicas h itoa srt adds) key) (concat adds).
Proof. intros Hs Hr Hne. destruct (get_owns replicas h itoa srt adds key Hs Hr Hne) as (v & [H _] & _). exact H. Qed.
Lemma same_owner replicas h itoa srt srt' adds adds' key : sorts srt -> sorts srt' ->
  (0 < replicas)%nat -> concat adds <> [] -> (forall n, In n (concat adds) <-> In n (concat adds')) ->
  ring_get (built replicas h itoa srt adds) key = ring_get (built replicas h itoa srt' adds') key.
Proof.
  intros Hs Hs' Hr Hne E. eapply owns_unique; [exact E|apply get_owns; assumption|apply get_owns; try assumption].
  destruct (concat adds) as [|n l]; [congruence|]. intros Z. rewrite Z in E. apply (E n). left. reflexivity.
Qed.
Lemma owner_removal replicas h itoa srt adds adds' key : sorts srt -> (0 < replicas)%nat ->
  (forall n, In n (concat adds') -> In n (concat adds)) ->
  In (ring_get (built replicas h itoa srt adds) key) (concat adds') ->
  ring_get (built replicas h itoa srt adds') key = ring_get (built replicas h itoa srt adds) key.
Proof.
  intros Hs Hr Sub Hin.
  eapply (owns_unique replicas h itoa (concat adds') (concat adds')); [reflexivity| |].
  - apply get_owns; try assumption. intros Z. rewrite Z in Hin. destruct Hin.
  - eapply owns_less; [exact Sub|exact Hin|]. apply get_owns; try assumption.
    intros Z. specialize (Sub _ Hin). rewrite Z in Sub. destruct Sub.
Qed.
