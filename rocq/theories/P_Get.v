(** Proofs about the reading loop of Get. *)
From Verif Require Import M_Bytes M_Get S_Get.
From Coq Require Import Lia ZifyBool ZifyNat ZifyN Sorted Permutation.
Open Scope Z_scope.

(** * Sorting *)

Lemma insert_desc_perm x l : Permutation (insert_desc x l) (x :: l).
Proof.
  induction l as [|y r IH]; cbn [insert_desc]; [reflexivity|].
  destruct (y <=? x)%N; [reflexivity|]. rewrite IH. apply perm_swap.
Qed.
Lemma seq_desc_perm l : Permutation (seq_desc l) l.
Proof.
  induction l as [|x r IH]; cbn [seq_desc fold_right]; [reflexivity|].
  rewrite insert_desc_perm. now constructor.
Qed.
Lemma insert_desc_sorted x l : StronglySorted N.ge l -> StronglySorted N.ge (insert_desc x l).
Proof.
  induction 1 as [|y r Hs IH Hf]; cbn [insert_desc]; [now repeat constructor|].
  destruct (y <=? x)%N eqn:E.
  - constructor; [now constructor|]. constructor; [lia|].
    eapply Forall_impl; [|exact Hf]. cbn. lia.
  - constructor; [exact IH|]. eapply Permutation_Forall; [symmetry; apply insert_desc_perm|].
    constructor; [lia|exact Hf].
Qed.
Lemma seq_desc_sorted l : StronglySorted N.ge (seq_desc l).
Proof. induction l as [|x r IH]; cbn [seq_desc fold_right]; [constructor|now apply insert_desc_sorted]. Qed.

(** Descending lists with the same elements are the same. *)
Lemma sorted_perm_eq a : forall b, StronglySorted N.ge a -> StronglySorted N.ge b -> Permutation a b -> a = b.
Proof.
  induction a as [|x a IH]; intros b Ha Hb Hp.
  - symmetry. now apply Permutation_nil.
  - destruct b as [|y b]; [symmetry in Hp; now apply Permutation_nil in Hp|].
    assert (x = y).
    { apply N.le_antisymm.
      - assert (H : In x (y :: b)) by (rewrite <- Hp; now left). destruct H as [->|H]; [lia|].
        inversion Hb as [|? ? _ Hf]; subst. rewrite Forall_forall in Hf. specialize (Hf _ H). lia.
      - assert (H : In y (x :: a)) by (rewrite Hp; now left). destruct H as [->|H]; [lia|].
        inversion Ha as [|? ? _ Hf]; subst. rewrite Forall_forall in Hf. specialize (Hf _ H). lia. }
    subst y. f_equal. inversion Ha; inversion Hb; subst. apply IH; auto. now apply Permutation_cons_inv in Hp.
Qed.
Lemma seq_desc_eq a b : StronglySorted N.ge b -> Permutation a b -> seq_desc a = b.
Proof. intros Hb Hp. apply sorted_perm_eq; [apply seq_desc_sorted|exact Hb|]. now rewrite seq_desc_perm. Qed.

(** * The loop *)
Section Loop.
Context {S : Type} (rd : S -> N -> S * outcome).

Lemma pass_spec qs : forall s items inv s' items' inv' e,
  pass rd s qs items inv = (s', items', inv', e) ->
  exists qs1 qs2 rs vs, qs = qs1 ++ qs2 /\ items' = items ++ vs /\ Forall2 (read_of rd) rs vs /\
    (forall q, In q rs -> In q qs1) /\ (StronglySorted N.ge qs1 -> StronglySorted N.ge rs) /\
    (e = PDone -> qs2 = []) /\
    inv <= inv' /\ Z.of_nat (length vs) + (inv' - inv) <= Z.of_nat (length qs).
Proof.
  induction qs as [|q r IH]; intros s items inv s' items' inv' e H; cbn [pass] in H.
  - injection H as <- <- <- <-. exists [], [], [], []. cbn. rewrite app_nil_r. repeat split; auto; lia.
  - assert (Hskip : forall s0 (d : Z), 0 <= d <= 1 -> pass rd s0 r items (inv + d) = (s', items', inv', e) ->
      exists qs1 qs2 rs vs, q :: r = qs1 ++ qs2 /\ items' = items ++ vs /\ Forall2 (read_of rd) rs vs /\
        (forall q, In q rs -> In q qs1) /\ (StronglySorted N.ge qs1 -> StronglySorted N.ge rs) /\
        (e = PDone -> qs2 = []) /\
        inv <= inv' /\ Z.of_nat (length vs) + (inv' - inv) <= Z.of_nat (length (q :: r))).
    { intros s0 d Hd H0. destruct (IH _ _ _ _ _ _ _ H0) as (a & b & rs & vs & E1 & E2 & F & Hin & Hs & He & Hi & Hl).
      exists (q :: a), b, rs, vs. rewrite E1. repeat split; auto.
      - intros x Hx. right. now apply Hin.
      - intro Hss. apply Hs. now inversion Hss.
      - lia.
      - cbn [length]. rewrite <- E1. lia. }
    destruct (q =? 0)%N.
    { apply (Hskip s 0); [lia|]. now replace (inv + 0) with inv by lia. }
    destruct (rd s q) as [s1 o] eqn:Er. destruct o as [v| | |].
    + destruct (IH _ _ _ _ _ _ _ H) as (a & b & rs & vs & E1 & E2 & F & Hin & Hs & He & Hi & Hl).
      exists (q :: a), b, (q :: rs), (v :: vs). rewrite E1. repeat split; auto.
      * now rewrite E2, <- app_assoc.
      * constructor; [now exists s, s1|exact F].
      * intros x [->|Hx]; [now left|right; now apply Hin].
      * intro Hss. inversion Hss as [|? ? Hs1 Hf]; subst. constructor; [now apply Hs|].
        rewrite Forall_forall in Hf |- *. intros x Hx. apply Hf. now apply Hin.
      * cbn [length]. rewrite <- E1. lia.
    + apply (Hskip s1 1); [lia|exact H].
    + injection H as <- <- <- <-. exists [], (q :: r), [], []. cbn [length app]. rewrite app_nil_r. repeat split; auto; try lia; try discriminate; try constructor.
    + injection H as <- <- <- <-. exists [], (q :: r), [], []. cbn [length app]. rewrite app_nil_r. repeat split; auto; try lia; try discriminate; try constructor.
Qed.

Lemma cut_length win cap a b qs : cut win cap a b = Some qs -> Z.of_nat (length win) <= cap ->
  0 <= a <= b /\ b <= cap /\ Z.of_nat (length qs) = b - a.
Proof.
  unfold cut. destruct ((0 <=? a) && (a <=? b) && (b <=? cap))%bool eqn:E; [|discriminate].
  intro H. injection H as <-. intro Hc. rewrite firstn_length, skipn_length, app_length, repeat_length. lia.
Qed.

(** The extended list of entries and its parts. *)
Definition ext (win : list N) (cap : Z) : list N := win ++ repeat 0%N (Z.to_nat (cap - Z.of_nat (length win))).
Lemma cut_firstn win cap a b qs : cut win cap a b = Some qs ->
  firstn (Z.to_nat b) (ext win cap) = firstn (Z.to_nat a) (ext win cap) ++ qs.
Proof.
  unfold cut. destruct ((0 <=? a) && (a <=? b) && (b <=? cap))%bool eqn:E; [|discriminate].
  intro H. injection H as <-. fold (ext win cap).
  replace (Z.to_nat b) with (Z.to_nat a + Z.to_nat (b - a))%nat by lia.
  generalize (Z.to_nat a) (Z.to_nat (b - a)) (ext win cap). clear.
  induction n as [|n IH]; intros m l; [reflexivity|]. destruct l as [|x l]; [cbn; now rewrite firstn_nil|].
  cbn. f_equal. apply IH.
Qed.

(** What holds before each pass: no more items and invalid ones than the limit. *)
Lemma loop_spec fuel : forall s win cap L a b items rs s' res,
  Z.of_nat (length win) <= cap -> StronglySorted N.ge (ext win cap) ->
  Forall2 (read_of rd) rs items -> (forall q, In q rs -> In q (firstn (Z.to_nat a) (ext win cap))) ->
  StronglySorted N.ge rs -> Z.of_nat (length items) + (b - a) <= L -> 0 <= a ->
  (b = Z.of_nat (length win) \/ L <= b) ->
  get_loop fuel rd s win cap L a b items = (s', res) ->
  match res with
  | GotItems l | GotErr l => Z.of_nat (length l) <= L /\
      exists rs, Forall2 (read_of rd) rs l /\ StronglySorted N.ge rs /\ (forall q, In q rs -> In q (ext win cap))
  | GotPanic => True
  | GotLoop => fuel = 0%nat \/ (b <> Z.of_nat (length win) /\ Z.of_nat fuel < cap + 2 - b)
  end.
Proof.
  induction fuel as [|fuel IH]; intros s win cap L a b items rs s' res Hc Hss HF Hin Hrs Hl Ha Hb H; cbn [get_loop] in H.
  { injection H as <- <-. auto. }
  destruct (cut win cap a b) as [qs|] eqn:Ec; [|injection H as <- <-; exact I].
  destruct (cut_length _ _ _ _ _ Ec Hc) as (Hab & Hbc & Hn).
  pose proof (cut_firstn _ _ _ _ _ Ec) as Hf.
  destruct (pass rd s qs items 0) as [[[s1 items1] inv] e] eqn:Ep.
  destruct (pass_spec _ _ _ _ _ _ _ _ Ep) as (qs1 & qs2 & rs1 & vs & E1 & E2 & F1 & Hin1 & Hs1 & He & Hi & Hl1).
  assert (Hall : firstn (Z.to_nat b) (ext win cap) = (firstn (Z.to_nat a) (ext win cap) ++ qs1) ++ qs2)
    by now rewrite Hf, E1, app_assoc.
  assert (Hsub : forall q, In q (rs ++ rs1) -> In q (firstn (Z.to_nat b) (ext win cap))).
  { intros q Hq. rewrite Hall. apply in_app_iff. left. apply in_app_iff. apply in_app_iff in Hq as [Hq|Hq]; [left; now apply Hin|right; now apply Hin1]. }
  assert (Hsb : StronglySorted N.ge (firstn (Z.to_nat b) (ext win cap))).
  { revert Hss. generalize (Z.to_nat b) (ext win cap). clear. induction n as [|n IH]; intros l Hl; [constructor|].
    destruct l as [|x l]; [constructor|]. cbn. inversion Hl as [|? ? H1 H2]; subst. constructor; [now apply IH|].
    rewrite Forall_forall in H2 |- *. intros y Hy. apply H2.
    rewrite <- (firstn_skipn n l). apply in_or_app. now left. }
  assert (Happ : forall u v : list N, StronglySorted N.ge (u ++ v) -> StronglySorted N.ge u /\ StronglySorted N.ge v /\ forall x y, In x u -> In y v -> (x >= y)%N).
  { clear. induction u as [|x u IHu]; intros v Hv; cbn in Hv; [repeat split; auto; [constructor|intros ? ? []]|].
    inversion Hv as [|? ? H1 H2]; subst. destruct (IHu _ H1) as (A & B & C).
    rewrite Forall_forall in H2. repeat split; auto.
    - constructor; [exact A|]. rewrite Forall_forall. intros y Hy. apply H2. apply in_or_app. now left.
    - intros x0 y [->|Hx] Hy; [apply H2; apply in_or_app; now right|now apply C]. }
  assert (Happ2 : forall u v : list N, StronglySorted N.ge u -> StronglySorted N.ge v -> (forall x y, In x u -> In y v -> (x >= y)%N) -> StronglySorted N.ge (u ++ v)).
  { clear. induction u as [|x u IHu]; intros v A B C; cbn; [exact B|]. inversion A; subst. constructor.
    - apply IHu; auto. intros; apply C; auto. now right.
    - rewrite Forall_forall in *. intros y Hy. apply in_app_iff in Hy as [Hy|Hy]; [auto|apply C; [now left|exact Hy]]. }
  assert (Hrs1 : StronglySorted N.ge (rs ++ rs1)).
  { rewrite Hall in Hsb. destruct (Happ _ _ Hsb) as (A & _ & _). destruct (Happ _ _ A) as (_ & B & C).
    apply Happ2; auto. }
  assert (HF1 : Forall2 (read_of rd) (rs ++ rs1) items1) by (rewrite E2; now apply Forall2_app).
  assert (Hlen : length items1 = (length items + length vs)%nat) by now rewrite E2, app_length.
  assert (Hext : forall q, In q (rs ++ rs1) -> In q (ext win cap)).
  { intros q Hq. rewrite <- (firstn_skipn (Z.to_nat b)). apply in_or_app. left. now apply Hsub. }
  destruct e.
  - destruct ((inv =? 0) || (Z.of_nat (length items1) =? L) || (Z.of_nat (length win) =? b))%bool eqn:Ed.
    + injection H as <- <-. split; [lia|]. now exists (rs ++ rs1).
    + destruct (Z.of_nat (length win) <=? L + inv) eqn:Ew.
      * specialize (IH s1 win cap L b (Z.of_nat (length win)) items1 (rs ++ rs1) s' res Hc Hss HF1 Hsub Hrs1).
        assert (P : Z.of_nat (length items1) + (Z.of_nat (length win) - b) <= L) by lia.
        specialize (IH P ltac:(lia) ltac:(now left) H). destruct res; auto. lia.
      * specialize (IH s1 win cap L b (b + inv) items1 (rs ++ rs1) s' res Hc Hss HF1 Hsub Hrs1).
        specialize (IH ltac:(lia) ltac:(lia) ltac:(right; lia) H). destruct res; auto. lia.
  - injection H as <- <-. split; [lia|]. now exists (rs ++ rs1).
  - injection H as <- <-. exact I.
Qed.

Lemma ext_sorted win cap : StronglySorted N.ge win -> StronglySorted N.ge (ext win cap).
Proof.
  unfold ext. generalize (Z.to_nat (cap - Z.of_nat (length win))). intros n H.
  induction H as [|x l Hs IH Hf]; cbn.
  - induction n as [|n IHn]; cbn; constructor; auto. rewrite Forall_forall. intros y Hy. apply repeat_spec in Hy. lia.
  - constructor; [exact IH|]. rewrite Forall_forall in *. intros y Hy. apply in_app_iff in Hy as [Hy|Hy]; [auto|].
    apply repeat_spec in Hy. lia.
Qed.

Lemma get_spec s win cap L s' res :
  Z.of_nat (length win) <= cap -> StronglySorted N.ge win ->
  get_entries rd s win cap L = (s', res) ->
  match res with
  | GotItems l | GotErr l => Z.of_nat (length l) <= Z.max 0 L /\
      exists rs, Forall2 (read_of rd) rs l /\ StronglySorted N.ge rs /\ (forall q, In q rs -> In q win \/ q = 0%N)
  | GotPanic => True
  | GotLoop => False
  end.
Proof.
  intros Hc Hs H. unfold get_entries in H. destruct win as [|w0 wr] eqn:Ew.
  { injection H as <- <-. split; [cbn; lia|]. exists []. repeat split; [constructor|constructor|intros q []]. }
  rewrite <- Ew in *. clear Ew w0 wr. set (b := if Z.of_nat (length win) <? L then Z.of_nat (length win) else L) in *.
  assert (Hz : b < 0 -> res = GotPanic).
  { intro Hb. replace (Z.to_nat cap + 2)%nat with (Datatypes.S (Z.to_nat cap + 1)) in H by lia. cbn [get_loop] in H.
    assert (E : cut win cap 0 b = None) by (unfold cut; destruct ((0 <=? 0) && (0 <=? b) && (b <=? cap))%bool eqn:E; [lia|reflexivity]).
    rewrite E in H. now injection H as _ <-. }
  destruct (Z.ltb_spec b 0) as [Hb|Hb]; [rewrite (Hz Hb); exact I|].
  assert (HL : 0 <= L) by (unfold b in Hb; destruct (Z.ltb_spec (Z.of_nat (length win)) L); lia).
  pose proof (loop_spec (Z.to_nat cap + 2) s win cap L 0 b [] [] s' res Hc (ext_sorted _ cap Hs)) as HH.
  specialize (HH ltac:(constructor) ltac:(intros q []) ltac:(constructor)).
  specialize (HH ltac:(cbn [length]; unfold b; destruct (Z.ltb_spec (Z.of_nat (length win)) L); lia) ltac:(lia)).
  specialize (HH ltac:(unfold b; destruct (Z.ltb_spec (Z.of_nat (length win)) L); lia) H).
  assert (Hext : forall q, In q (ext win cap) -> In q win \/ q = 0%N).
  { intros q Hq. apply in_app_iff in Hq as [Hq|Hq]; [now left|right; now apply repeat_spec in Hq]. }
  destruct res; auto.
  - destruct HH as (A & rs & B & C & D). split; [lia|]. exists rs. repeat split; auto.
  - destruct HH as (A & rs & B & C & D). split; [lia|]. exists rs. repeat split; auto.
  - lia.
Qed.

(** * Steady readers *)
Variables (I : S -> Prop) (val : N -> option bytes).
Hypothesis Hst : steady rd I val.

Definition invalids (qs : list N) : Z := Z.of_nat (length (filter (fun q => (negb (q =? 0)%N && match val q with Some _ => false | None => true end)%bool) qs)).
Definition pays (qs : list N) : list bytes := payloads val (filter (fun q => negb (q =? 0)%N) qs).
Lemma pass_steady qs : forall s items inv, I s ->
  exists s', I s' /\ pass rd s qs items inv = (s', items ++ pays qs, inv + invalids qs, PDone).
Proof.
  induction qs as [|q r IH]; intros s items inv Hi; cbn [pass].
  - exists s. split; [exact Hi|]. unfold pays, invalids. cbn. now rewrite app_nil_r, Z.add_0_r.
  - destruct (q =? 0)%N eqn:E.
    + destruct (IH s items inv Hi) as (s' & Hi' & Es). exists s'. split; [exact Hi'|]. rewrite Es.
      unfold pays, invalids. cbn [filter]. now rewrite E.
    + destruct (Hst s q Hi ltac:(lia)) as (s1 & Er & Hi1). rewrite Er. destruct (val q) as [v|] eqn:Ev.
      * destruct (IH s1 (items ++ [v]) inv Hi1) as (s' & Hi' & Es). exists s'. split; [exact Hi'|]. rewrite Es.
        unfold pays, invalids, payloads. cbn [filter]. rewrite E, Ev. cbn [flat_map negb andb]. rewrite Ev. cbn [app]. now rewrite <- app_assoc.
      * destruct (IH s1 items (inv + 1) Hi1) as (s' & Hi' & Es). exists s'. split; [exact Hi'|]. rewrite Es.
        unfold pays, invalids, payloads. cbn [filter]. rewrite E, Ev. cbn [flat_map negb andb app length]. rewrite Ev. cbn [app].
        f_equal. f_equal. lia.
Qed.

Lemma pays_app a b : pays (a ++ b) = pays a ++ pays b.
Proof. unfold pays, payloads. now rewrite filter_app, flat_map_app. Qed.
Lemma pays_zero n : pays (repeat 0%N n) = [].
Proof. unfold pays. induction n as [|n IH]; [reflexivity|exact IH]. Qed.
Lemma pays_length qs : Z.of_nat (length (pays qs)) + invalids qs <= Z.of_nat (length qs).
Proof.
  induction qs as [|q r IH]; [cbn; lia|]. unfold pays, payloads, invalids in *. cbn [filter].
  destruct (q =? 0)%N; cbn [negb andb flat_map length]; [lia|].
  destruct (val q) eqn:E; cbn [flat_map]; rewrite ?E; cbn [app length]; lia.
Qed.
Lemma pays_length_eq qs : Forall (fun q => q <> 0%N) qs -> Z.of_nat (length (pays qs)) + invalids qs = Z.of_nat (length qs).
Proof.
  induction 1 as [|q r Hq _ IH]; [reflexivity|]. unfold pays, payloads, invalids in *. cbn [filter].
  destruct (q =? 0)%N eqn:E0; [lia|]; cbn [negb andb flat_map length].
  destruct (val q) eqn:E; cbn [flat_map]; rewrite ?E; cbn [app length]; lia.
Qed.

Lemma pays_firstn_zero n m : pays (firstn n (repeat 0%N m)) = [].
Proof.
  revert m. induction n as [|n IH]; intro m; [reflexivity|]. destruct m as [|m]; [reflexivity|]. exact (IH m).
Qed.
Lemma ext_split win cap b :
  pays (firstn b (ext win cap)) = pays (firstn b win).
Proof. unfold ext. now rewrite firstn_app, pays_app, pays_firstn_zero, app_nil_r. Qed.

Lemma invalids_app a b : invalids (a ++ b) = invalids a + invalids b.
Proof. unfold invalids. rewrite filter_app, app_length. lia. Qed.
Lemma invalids_pos a : 0 <= invalids a.
Proof. unfold invalids. lia. Qed.
Lemma invalids_firstn n l : invalids (firstn n l) <= invalids l.
Proof. rewrite <- (firstn_skipn n l) at 2. rewrite invalids_app. pose proof (invalids_pos (skipn n l)). lia. Qed.
Lemma invalids_zero n : invalids (repeat 0%N n) = 0.
Proof. induction n as [|n IH]; [reflexivity|exact IH]. Qed.
Lemma skipn_repeat {A} (x : A) n m : skipn n (repeat x m) = repeat x (m - n).
Proof. revert m. induction n as [|n IH]; intro m; [now rewrite Nat.sub_0_r|]. destruct m as [|m]; [reflexivity|]. exact (IH m). Qed.
Lemma invalids_cut win cap a b qs : cut win cap a b = Some qs ->
  invalids qs <= Z.max 0 (Z.of_nat (length win) - a).
Proof.
  unfold cut. destruct ((0 <=? a) && (a <=? b) && (b <=? cap))%bool eqn:E; [|discriminate].
  intro H. injection H as <-. etransitivity; [apply invalids_firstn|]. rewrite skipn_app, invalids_app, skipn_repeat, invalids_zero.
  pose proof (pays_length (skipn (Z.to_nat a) win)). rewrite skipn_length in *. lia.
Qed.

Lemma firstn_prefix (L k : nat) win : length (pays (firstn k win)) = L -> firstn L (pays win) = pays (firstn k win).
Proof.
  intro H. rewrite <- (firstn_skipn k win) at 1. rewrite pays_app, firstn_app, H, Nat.sub_diag. cbn [firstn].
  rewrite app_nil_r. apply firstn_all2. lia.
Qed.

Lemma loop_steady fuel : forall s win cap L a b items,
  I s -> Z.of_nat (length win) <= cap -> Forall (fun q => q <> 0%N) win ->
  items = pays (firstn (Z.to_nat a) win) -> 0 <= a <= b ->
  Z.of_nat (length items) + (b - a) <= L ->
  (Z.of_nat (length win) <= b \/ Z.of_nat (length items) + (b - a) = L) ->
  (b = Z.of_nat (length win) \/ L <= b) ->
  (b <= Z.of_nat (length win) \/ Z.of_nat (length win) > L + (b - a)) ->
  b <= Z.of_nat (length win) + L ->
  exists s', I s' /\
   (get_loop fuel rd s win cap L a b items = (s', GotItems (firstn (Z.to_nat L) (pays win))) \/
    (cap < Z.of_nat (length win) + L /\ get_loop fuel rd s win cap L a b items = (s', GotPanic)) \/
    get_loop fuel rd s win cap L a b items = (s', GotLoop)).
Proof.
  induction fuel as [|fuel IH]; intros s win cap L a b items Hi Hc Hnz Hit Hab Hle H3 H4 H5 H6; cbn [get_loop].
  { exists s. auto. }
  destruct (cut win cap a b) as [qs|] eqn:Ec.
  2:{ exists s. split; [exact Hi|]. right. left. split; [|reflexivity]. unfold cut in Ec.
      destruct ((0 <=? a) && (a <=? b) && (b <=? cap))%bool eqn:E; [discriminate|]. lia. }
  destruct (cut_length _ _ _ _ _ Ec Hc) as (_ & Hbc & Hn).
  pose proof (cut_firstn _ _ _ _ _ Ec) as Hf. pose proof (invalids_cut _ _ _ _ _ Ec) as Hiv.
  destruct (pass_steady qs s items 0 Hi) as (s1 & Hi1 & Ep). rewrite Ep, Z.add_0_l.
  assert (E1 : items ++ pays qs = pays (firstn (Z.to_nat b) win)).
  { rewrite <- (ext_split win cap), Hf, pays_app, ext_split. now rewrite Hit. }
  rewrite E1. pose proof (pays_length qs) as Hpl. pose proof (invalids_pos qs) as Hpos.
  assert (El : length (pays (firstn (Z.to_nat b) win)) = (length items + length (pays qs))%nat) by now rewrite <- E1, app_length.
  assert (Eq : b <= Z.of_nat (length win) -> Z.of_nat (length (pays qs)) + invalids qs = b - a).
  { intro Hbn. rewrite <- Hn. apply pays_length_eq. unfold cut in Ec.
    destruct ((0 <=? a) && (a <=? b) && (b <=? cap))%bool; [|discriminate]. injection Ec as <-.
    rewrite skipn_app, firstn_app, skipn_length.
    replace (Z.to_nat (b - a) - (length win - Z.to_nat a))%nat with 0%nat by lia. rewrite firstn_O, app_nil_r.
    rewrite Forall_forall in *. intros q Hq. apply Hnz. rewrite <- (firstn_skipn (Z.to_nat a) win). apply in_or_app. right.
    rewrite <- (firstn_skipn (Z.to_nat (b - a)) (skipn (Z.to_nat a) win)). apply in_or_app. now left. }
  assert (Hall : Z.of_nat (length win) <= b -> firstn (Z.to_nat L) (pays win) = pays (firstn (Z.to_nat b) win)).
  { intro Hbn. rewrite (firstn_all2 win) in * by lia. apply firstn_all2. lia. }
  destruct ((invalids qs =? 0) || (Z.of_nat (length (pays (firstn (Z.to_nat b) win))) =? L) || (Z.of_nat (length win) =? b))%bool eqn:Ed.
  - exists s1. split; [exact Hi1|]. left. do 2 f_equal.
    destruct (Z.leb_spec (Z.of_nat (length win)) b) as [Hb|Hb]; [symmetry; now apply Hall|].
    symmetry. apply firstn_prefix. rewrite El. specialize (Eq ltac:(lia)). lia.
  - destruct (Z.of_nat (length win) <=? L + invalids qs) eqn:Ew.
    + apply IH; auto; lia.
    + apply IH; auto; try lia.
Qed.

Lemma get_steady s win cap L :
  I s -> 0 <= L -> Z.of_nat (length win) <= cap -> StronglySorted N.ge win -> Forall (fun q => q <> 0%N) win ->
  exists s', I s' /\
   (get_entries rd s win cap L = (s', GotItems (firstn (Z.to_nat L) (payloads val win))) \/
    (cap < Z.of_nat (length win) + L /\ L < Z.of_nat (length win) /\ get_entries rd s win cap L = (s', GotPanic))).
Proof.
  intros Hi HL Hc Hss Hnz.
  assert (Ep : pays win = payloads val win).
  { unfold pays. f_equal. clear - Hnz. induction Hnz as [|q r Hq _ IHr]; [reflexivity|]. cbn.
    destruct (q =? 0)%N eqn:E; [lia|]. cbn. now rewrite IHr. }
  destruct (get_entries rd s win cap L) as [s' res] eqn:Hg.
  pose proof (get_spec _ _ _ _ _ _ Hc Hss Hg) as Hsp.
  unfold get_entries in Hg. destruct win as [|w0 wr] eqn:Ew.
  { injection Hg as <- <-. exists s. split; [exact Hi|]. left. cbn. now rewrite firstn_nil. }
  rewrite <- Ew in *. clear Ew w0 wr.
  destruct (loop_steady (Z.to_nat cap + 2) s win cap L 0 (if Z.of_nat (length win) <? L then Z.of_nat (length win) else L) []) as (s1 & Hi1 & Hr); auto.
  - destruct (Z.ltb_spec (Z.of_nat (length win)) L); lia.
  - cbn [length]. destruct (Z.ltb_spec (Z.of_nat (length win)) L); lia.
  - cbn [length]. destruct (Z.ltb_spec (Z.of_nat (length win)) L); lia.
  - destruct (Z.ltb_spec (Z.of_nat (length win)) L); lia.
  - destruct (Z.ltb_spec (Z.of_nat (length win)) L); lia.
  - destruct (Z.ltb_spec (Z.of_nat (length win)) L); lia.
  - rewrite Hg, Ep in Hr. destruct Hr as [Hr|[[Hcap Hr]|Hr]]; injection Hr as -> ->.
    + exists s1. split; auto.
    + destruct (Z.leb_spec (Z.of_nat (length win)) L) as [Hnl|Hnl].
      * exfalso. replace (Z.to_nat cap + 2)%nat with (Datatypes.S (Z.to_nat cap + 1)) in Hg by lia. cbn [get_loop] in Hg.
        assert (Eb : (if Z.of_nat (length win) <? L then Z.of_nat (length win) else L) = Z.of_nat (length win))
          by (destruct (Z.ltb_spec (Z.of_nat (length win)) L); lia).
        rewrite Eb in Hg.
        assert (Ecut : exists qs, cut win cap 0 (Z.of_nat (length win)) = Some qs).
        { unfold cut. destruct ((0 <=? 0) && (0 <=? Z.of_nat (length win)) && (Z.of_nat (length win) <=? cap))%bool eqn:E; [eauto|lia]. }
        destruct Ecut as [qs Ecut]. rewrite Ecut in Hg. destruct (pass_steady qs s [] 0 Hi) as (s2 & _ & Ep2). rewrite Ep2 in Hg.
        rewrite Z.eqb_refl, Bool.orb_true_r in Hg. discriminate.
      * exists s1. split; auto.
    + contradiction.
Qed.
End Loop.
