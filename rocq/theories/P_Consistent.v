(** Proofs about consistent hashing. *)
From Verif Require Import M_Bytes M_Consistent S_Consistent.
From Coq Require Import Lia ZifyBool ZifyNat ZifyN.
Open Scope N_scope.

(** * Slices *)
Lemma set_nth_spec : forall l i v l', set_nth l i v = Some l' -> length l' = length l /\ (i < length l)%nat /\
  forall j, nth_error l' j = if (j =? i)%nat then Some v else nth_error l j.
Proof.
  induction l as [|x r IH]; intros i v l' E; [discriminate|]. destruct i as [|i]; cbn [set_nth] in E.
  - injection E as <-. cbn [length]. split; [reflexivity|]. split; [lia|]. intros [|j]; reflexivity.
  - destruct (set_nth r i v) as [r'|] eqn:Er; [|discriminate]. injection E as <-. apply IH in Er as (H1 & H2 & H3). cbn [length].
    split; [lia|]. split; [lia|]. intros [|j]; [reflexivity|]. cbn [nth_error]. rewrite H3. reflexivity.
Qed.
Lemma set_nth_some : forall l i v, (i < length l)%nat -> exists l', set_nth l i v = Some l'.
Proof.
  induction l as [|x r IH]; intros i v H; cbn [length] in H; [lia|]. destruct i as [|i]; cbn [set_nth]; [eauto|].
  destruct (IH i v) as [l' ->]; [lia|]. eauto.
Qed.
Lemma upd_spec l i v l' : upd l i v = Some l' -> length l' = length l /\ i < N.of_nat (length l) /\
  forall j, idx l' j = if j =? i then Some v else idx l j.
Proof.
  unfold upd, idx. intros E. apply set_nth_spec in E as (H1 & H2 & H3). split; [exact H1|]. split; [lia|]. intros j. rewrite H3.
  destruct (Nat.eqb_spec (N.to_nat j) (N.to_nat i)); destruct (N.eqb_spec j i); try reflexivity; lia.
Qed.
Lemma upd_some l i v : i < N.of_nat (length l) -> exists l', upd l i v = Some l'.
Proof. intros H. apply set_nth_some. lia. Qed.
Lemma idx_some l i : i < N.of_nat (length l) -> exists v, idx l i = Some v.
Proof. intros H. unfold idx. destruct (nth_error l (N.to_nat i)) eqn:E; [eauto|]. apply nth_error_None in E. lia. Qed.
Lemma idx_len l i v : idx l i = Some v -> i < N.of_nat (length l).
Proof. unfold idx. intros E. assert (nth_error l (N.to_nat i) <> None) as H by congruence. apply nth_error_Some in H. lia. Qed.
Lemma idx_ext : forall l1 l2, (forall i, idx l1 i = idx l2 i) -> l1 = l2.
Proof.
  assert (H : forall l1 l2 : list N, (forall i, nth_error l1 i = nth_error l2 i) -> l1 = l2).
  { induction l1 as [|x r IH]; intros [|y r2] H; [reflexivity|specialize (H 0%nat); discriminate..|].
    pose proof (H 0%nat) as H0. cbn in H0. injection H0 as ->. f_equal. apply IH. intros i. apply (H (S i)). }
  intros l1 l2 E. apply H. intros i. specialize (E (N.of_nat i)). unfold idx in E. now rewrite Nat2N.id in E.
Qed.

(** * Random numbers *)
Lemma wrap32_lt x : wrap32 x < 2 ^ 32. Proof. unfold wrap32. apply N.mod_upper_bound. discriminate. Qed.
Lemma fastMod_lt x m : x < 2 ^ 32 -> 0 < m < 2 ^ 16 -> fastMod x m < m /\ wrap16 (fastMod x m) = fastMod x m.
Proof.
  intros Hx Hm. assert (fastMod x m < m) as H.
  { unfold fastMod, wrap32. assert (x * m < 2 ^ 64).
    { eapply N.le_lt_trans; [apply N.mul_le_mono; [apply N.lt_le_incl, Hx|apply N.lt_le_incl, Hm]|]. vm_compute. reflexivity. }
    rewrite (N.mod_small (x * m)) by assumption. eapply N.le_lt_trans; [apply N.mod_le; discriminate|].
    apply N.div_lt_upper_bound; [discriminate|]. apply N.mul_lt_mono_pos_r; lia. }
  split; [exact H|]. unfold wrap16. apply N.mod_small. lia.
Qed.
Lemma fleaRound_d s : fl_d (fleaRound s) < 2 ^ 32. Proof. cbn [fleaRound fl_d]. apply wrap32_lt. Qed.
Lemma start_lt A key : 0 < N.of_nat (length A) < 2 ^ 16 -> start A key < N.of_nat (length A).
Proof.
  intros H. unfold start. destruct (fastMod_lt (fl_d (fleaInit key)) (N.of_nat (length A))) as [H1 ->]; [|exact H|exact H1].
  unfold fleaInit. apply fleaRound_d.
Qed.

(** * Walks *)
Inductive ends (A K : list N) (lim : N) : N -> N -> Prop :=
| en_stop x v : idx A x = Some v -> v < lim -> ends A K lim x x
| en_step x v x' y : idx A x = Some v -> lim <= v -> idx K x = Some x' -> ends A K lim x' y -> ends A K lim x y.
Lemma ends_chain A K lim x y : ends A K lim x y -> exists n, forall fuel, (n <= fuel)%nat -> chain A K lim x fuel = Found y.
Proof.
  induction 1 as [x v E H|x v x' y E H Ek _ [n IH]].
  - exists O. intros f _. destruct f; cbn [chain]; rewrite E; destruct (N.leb_spec lim v); try lia; reflexivity.
  - exists (S n). intros [|f] Hf; [lia|]. cbn [chain]. rewrite E. destruct (N.leb_spec lim v); [|lia]. rewrite Ek. apply IH. lia.
Qed.
Lemma ends_stop A K lim x y : ends A K lim x y -> exists v, idx A y = Some v /\ v < lim.
Proof. induction 1; eauto. Qed.
(** All limits above 0 and at most the smallest entry stop at the same place. *)
Lemma ends_lim A K x y n : (forall i v, idx A i = Some v -> v <> 0 -> n <= v) -> 0 < n -> ends A K 1 x y -> ends A K n x y.
Proof.
  intros Hn Hp H. induction H as [x v E H|x v x' y E H Ek _ IH].
  - eapply en_stop; [exact E|lia].
  - eapply en_step; [exact E| |exact Ek|exact IH]. eapply Hn; [exact E|lia].
Qed.

Record good (a : N) (A K : list N) : Prop := {
  gd_size : 0 < a < 2 ^ 16;
  gd_A : N.of_nat (length A) = a;
  gd_below : forall b v, idx A b = Some v -> v < a;
  gd_ends : forall b v h, idx A b = Some v -> h < v -> exists y, ends A K v h y
}.
Lemma walk_ends a A K : good a A K -> forall m s b v, idx A b = Some v -> v < m ->
  exists y n, idx A y = Some 0 /\ forall fuel, (n <= fuel)%nat -> walk A K s b fuel = Found y.
Proof.
  intros Hg m. induction m as [|m IH] using N.peano_ind; intros s b v E Hv; [lia|]. destruct (N.eq_dec v 0) as [->|Hz].
  - exists b, O. split; [exact E|]. intros [|f] _; cbn [walk]; rewrite E; reflexivity.
  - pose proof (gd_size _ _ _ Hg) as Hs. pose proof (gd_below _ _ _ Hg b v E) as Hb.
    destruct (fastMod_lt (fl_d (fleaRound s)) v) as [Hl Hw]; [apply fleaRound_d|lia|].
    destruct (gd_ends _ _ _ Hg b v _ E Hl) as (y & Hy). destruct (ends_stop _ _ _ _ _ Hy) as (w & Ey & Hwv).
    apply ends_chain in Hy as [n1 Hn1]. destruct (IH (fleaRound s) y w Ey ltac:(lia)) as (z & n2 & Ez & Hn2).
    exists z, (S (n1 + n2)). split; [exact Ez|]. intros [|f] Hf; [lia|]. cbn [walk]. rewrite E.
    destruct (N.eqb_spec v 0); [contradiction|]. rewrite Hw, Hn1 by lia. apply Hn2. lia.
Qed.

(** Removal of [b] leaves the walks that do not end there. *)
Lemma chain_keep A K A' K' b n w lim : idx A b = Some 0 -> n < lim ->
  (forall j, idx A' j = if j =? b then Some n else idx A j) -> (forall j, idx K' j = if j =? b then Some w else idx K j) ->
  forall fuel h, chain A' K' lim h fuel = chain A K lim h fuel.
Proof.
  intros Eb Hl HA HK. induction fuel as [|f IH]; intros h; cbn [chain]; rewrite HA; destruct (N.eqb_spec h b) as [->|Hh].
  1,3: rewrite Eb; destruct (N.leb_spec lim n); [lia|]; destruct (N.leb_spec lim 0); [lia|reflexivity].
  - reflexivity.
  - destruct (idx A h) as [v|]; [|reflexivity]. destruct (lim <=? v); [|reflexivity]. rewrite HK. destruct (N.eqb_spec h b); [contradiction|].
    destruct (idx K h); [apply IH|reflexivity].
Qed.
Lemma walk_keep A K A' K' b n w : idx A b = Some 0 -> (forall i v, idx A i = Some v -> v <> 0 -> n < v) ->
  (forall j, idx A' j = if j =? b then Some n else idx A j) -> (forall j, idx K' j = if j =? b then Some w else idx K j) ->
  forall fuel s p x, walk A K s p fuel = Found x -> x <> b -> walk A' K' s p fuel = Found x.
Proof.
  intros Eb Hl HA HK. induction fuel as [|f IH]; intros s p x E Hx; cbn [walk] in *; rewrite HA; destruct (N.eqb_spec p b) as [->|Hp].
  1,3: rewrite Eb in E; cbn in E; congruence.
  - exact E.
  - destruct (idx A p) as [v|] eqn:Ep; [|discriminate]. destruct (N.eqb_spec v 0); [exact E|].
    rewrite (chain_keep A K A' K' b n w v Eb (Hl _ _ Ep n0) HA HK). destruct (chain A K v _ (S f)); try discriminate. now apply IH.
Qed.

(** * The tables *)
Record inv (a : N) (c : anchor) (R : list N) : Prop := {
  i_size : 0 < a < 2 ^ 16;
  i_lens : N.of_nat (length (an_A c)) = a /\ N.of_nat (length (an_K c)) = a /\ N.of_nat (length (an_W c)) = a /\ N.of_nat (length (an_L c)) = a;
  i_N : an_N c + N.of_nat (length R) = a /\ 0 < an_N c;
  i_R : an_R c = rev R;
  i_work : forall b, b < a -> ~ In b R -> idx (an_A c) b = Some 0 /\ idx (an_K c) b = Some b /\
             exists p, p < an_N c /\ idx (an_L c) b = Some p /\ idx (an_W c) p = Some b;
  i_gone : forall b, In b R -> b < a /\ exists v, idx (an_A c) b = Some v /\ an_N c <= v < a /\ forall h, h < v -> exists y, ends (an_A c) (an_K c) v h y;
  i_pos : forall p, p < an_N c -> exists b, idx (an_W c) p = Some b /\ b < a /\ ~ In b R /\ idx (an_L c) b = Some p /\ ends (an_A c) (an_K c) 1 p b
}.

Lemma inv_good a c R : inv a c R -> good a (an_A c) (an_K c).
Proof.
  intros Hi. pose proof (i_lens _ _ _ Hi) as (HA & _). split; [exact (i_size _ _ _ Hi)|exact HA| |].
  - intros b v E. pose proof (idx_len _ _ _ E) as Hb. destruct (in_dec N.eq_dec b R) as [Hr|Hr].
    + destruct (i_gone _ _ _ Hi b Hr) as (_ & v' & E' & H & _). rewrite E in E'. injection E' as <-. lia.
    + destruct (i_work _ _ _ Hi b) as (E' & _); [lia|exact Hr|]. rewrite E in E'. injection E' as ->. pose proof (i_size _ _ _ Hi). lia.
  - intros b v h E Hh. pose proof (idx_len _ _ _ E) as Hb. destruct (in_dec N.eq_dec b R) as [Hr|Hr].
    + destruct (i_gone _ _ _ Hi b Hr) as (_ & v' & E' & _ & H). rewrite E in E'. injection E' as <-. now apply H.
    + destruct (i_work _ _ _ Hi b) as (E' & _); [lia|exact Hr|]. rewrite E in E'. injection E' as ->. lia.
Qed.
Lemma inv_find a c R key : inv a c R -> exists b, placed c key b /\ b < a /\ ~ In b R.
Proof.
  intros Hi. pose proof (inv_good _ _ _ Hi) as Hg. pose proof (gd_size _ _ _ Hg) as Hs. pose proof (gd_A _ _ _ Hg) as HA.
  pose proof (start_lt (an_A c) key ltac:(lia)) as Hb. destruct (idx_some _ _ Hb) as [v E].
  destruct (walk_ends _ _ _ Hg a (fleaInit key) _ v E (gd_below _ _ _ Hg _ _ E)) as (y & n & Ey & Hn).
  exists y. split; [exists n; exact Hn|]. pose proof (idx_len _ _ _ Ey). split; [lia|]. intros Hr.
  destruct (i_gone _ _ _ Hi y Hr) as (_ & v' & E' & H' & _). pose proof (i_N _ _ _ Hi). rewrite Ey in E'. injection E' as <-. lia.
Qed.

(** The result of a removal. *)
Lemma remove_spec a c R b : inv a c R -> b < a -> ~ In b R -> 1 < an_N c ->
  exists c' w l, removeBlock c b = Some c' /\ idx (an_W c) (an_N c - 1) = Some w /\ idx (an_L c) b = Some l /\ l < an_N c /\
    w < a /\ ~ In w R /\ idx (an_L c) w = Some (an_N c - 1) /\ idx (an_W c) l = Some b /\
    an_N c' = an_N c - 1 /\ an_R c' = an_R c ++ [b] /\
    length (an_A c') = length (an_A c) /\ length (an_K c') = length (an_K c) /\ length (an_W c') = length (an_W c) /\ length (an_L c') = length (an_L c) /\
    (forall j, idx (an_A c') j = if j =? b then Some (an_N c - 1) else idx (an_A c) j) /\
    (forall j, idx (an_K c') j = if j =? b then Some w else idx (an_K c) j) /\
    (forall j, idx (an_W c') j = if j =? l then Some w else idx (an_W c) j) /\
    (forall j, idx (an_L c') j = if j =? w then Some l else idx (an_L c) j).
Proof.
  intros Hi Hb Hn HN. pose proof (i_lens _ _ _ Hi) as (LA & LK & LW & LL). pose proof (i_N _ _ _ Hi) as [HNa _]. pose proof (i_size _ _ _ Hi) as Hs.
  destruct (i_work _ _ _ Hi b Hb Hn) as (EA & EK & l & Hl & EL & EW). destruct (i_pos _ _ _ Hi (an_N c - 1) ltac:(lia)) as (w & Ew & Hw & Hwr & ELw & _).
  assert (En : wrap16 (an_N c + 65535) = an_N c - 1).
  { unfold wrap16. replace (an_N c + 65535) with (an_N c - 1 + 1 * 2 ^ 16) by lia. rewrite N.mod_add by discriminate. apply N.mod_small. lia. }
  destruct (upd_some (an_A c) b (an_N c - 1) ltac:(lia)) as [A' UA]. destruct (upd_some (an_W c) l w ltac:(lia)) as [W' UW].
  destruct (upd_some (an_K c) b w ltac:(lia)) as [K' UK]. destruct (upd_some (an_L c) w l ltac:(lia)) as [L' UL].
  destruct (upd_spec _ _ _ _ UA) as (A1 & _ & A2). destruct (upd_spec _ _ _ _ UW) as (W1 & _ & W2). destruct (upd_spec _ _ _ _ UK) as (K1 & _ & K2).
  destruct (upd_spec _ _ _ _ UL) as (L1 & _ & L2).
  assert (EW' : idx W' (an_N c - 1) = Some w) by (rewrite W2; destruct (N.eqb_spec (an_N c - 1) l); [reflexivity|exact Ew]).
  exists (mkAnchor A' K' W' L' (an_R c ++ [b]) (an_N c - 1)), w, l. split.
  { unfold removeBlock. rewrite EA. cbn [N.eqb negb]. rewrite En, UA, Ew, EL, UW, UK, EW', UL. reflexivity. }
  cbn [an_A an_K an_W an_L an_R an_N]. repeat (split; [assumption || reflexivity|]). assumption.
Qed.

Lemma remove_inv a c R b c' : inv a c R -> b < a -> ~ In b R -> 1 < an_N c -> removeBlock c b = Some c' -> inv a c' (b :: R).
Proof.
  intros Hi Hb Hn HN E. destruct (remove_spec a c R b Hi Hb Hn HN) as (c2 & w & l & E2 & Ew & EL & Hl & Hw & Hwr & ELw & EWl & HN' & HR & LA & LK & LW & LL & FA & FK & FW & FL).
  rewrite E in E2. injection E2 as <-. pose proof (i_lens _ _ _ Hi) as (LA' & LK' & LW' & LL'). pose proof (i_N _ _ _ Hi) as [HNa _]. pose proof (i_size _ _ _ Hi) as Hs.
  destruct (i_work _ _ _ Hi b Hb Hn) as (EAb & EKb & _).
  assert (Hge : forall i v, idx (an_A c) i = Some v -> v <> 0 -> an_N c <= v).
  { intros i v Ei Hv. pose proof (idx_len _ _ _ Ei). destruct (in_dec N.eq_dec i R) as [Hr|Hr].
    - destruct (i_gone _ _ _ Hi i Hr) as (_ & v' & E' & H' & _). rewrite Ei in E'. injection E' as <-. lia.
    - destruct (i_work _ _ _ Hi i) as (E' & _); [lia|exact Hr|]. congruence. }
  (* old walks *)
  assert (Hold : forall lim x y, an_N c <= lim -> ends (an_A c) (an_K c) lim x y -> ends (an_A c') (an_K c') lim x y).
  { intros lim x y Hlim H. induction H as [x v Ex Hx|x v x' y Ex Hx Ek _ IH].
    - eapply en_stop with (v := if x =? b then an_N c - 1 else v); [rewrite FA; destruct (x =? b); [reflexivity|exact Ex]|]. destruct (x =? b); lia.
    - eapply en_step with (v := v) (x' := x'); [|exact Hx| |exact IH]; rewrite ?FA, ?FK; destruct (N.eqb_spec x b) as [->|_]; try assumption; rewrite EAb in Ex; injection Ex as <-; lia. }
  (* walks to working blocks *)
  assert (Hone : forall x y, ends (an_A c) (an_K c) 1 x y -> y <> b -> ends (an_A c') (an_K c') 1 x y).
  { intros x y H Hy. induction H as [x v Ex Hx|x v x' y Ex Hx Ek _ IH].
    - eapply en_stop with (v := v); [|exact Hx]. rewrite FA. destruct (N.eqb_spec x b); [contradiction|exact Ex].
    - eapply en_step with (v := v) (x' := x'); [|exact Hx| |exact (IH Hy)]; rewrite ?FA, ?FK; destruct (N.eqb_spec x b) as [->|_]; try assumption; rewrite EAb in Ex; injection Ex as <-; lia. }
  assert (Htob : forall x, ends (an_A c) (an_K c) 1 x b -> w <> b -> ends (an_A c') (an_K c') 1 x w).
  { intros x H Hwb. remember b as z eqn:Ez in H. induction H as [x v Ex Hx|x v x' y Ex Hx Ek _ IH].
    - subst x. eapply en_step with (v := an_N c - 1) (x' := w); [rewrite FA, N.eqb_refl; reflexivity|lia|rewrite FK, N.eqb_refl; reflexivity|].
      eapply en_stop with (v := 0); [|lia]. rewrite FA. destruct (N.eqb_spec w b); [contradiction|]. apply (i_work _ _ _ Hi w Hw Hwr).
    - eapply en_step with (v := v) (x' := x'); [|exact Hx| |exact (IH Ez)]; rewrite ?FA, ?FK; destruct (N.eqb_spec x b) as [->|_]; try assumption; rewrite EAb in Ex; injection Ex as <-; lia. }
  assert (Hpos : forall p, p < an_N c - 1 -> exists y, idx (an_W c') p = Some y /\ y < a /\ y <> b /\ ~ In y R /\ idx (an_L c') y = Some p /\ ends (an_A c') (an_K c') 1 p y).
  { intros p Hp. destruct (i_pos _ _ _ Hi p ltac:(lia)) as (y & Ey & Hy & Hyr & ELy & Hends). rewrite FW. destruct (N.eqb_spec p l) as [->|Hpl].
    - assert (y = b) as -> by congruence. assert (w <> b) by (intros ->; rewrite EL in ELw; injection ELw as ->; lia).
      exists w. rewrite FL, N.eqb_refl. repeat (split; [assumption || reflexivity|]). now apply Htob.
    - assert (y <> b) by (intros ->; congruence). exists y. rewrite FL.
      destruct (N.eqb_spec y w) as [->|_]; [rewrite ELw in ELy; injection ELy as Ep; lia|]. repeat (split; [assumption|]). now apply Hone. }
  constructor.
  - exact Hs.
  - lia.
  - cbn [length]. lia.
  - rewrite HR, (i_R _ _ _ Hi). reflexivity.
  - intros x Hx Hxr. cbn [In] in Hxr. assert (x <> b) by (intros ->; tauto). destruct (i_work _ _ _ Hi x Hx) as (H1 & H2 & p & Hp & H3 & H4); [tauto|].
    rewrite FA, FK. destruct (N.eqb_spec x b); [contradiction|]. split; [exact H1|]. split; [exact H2|]. rewrite FL. destruct (N.eqb_spec x w) as [->|Hxw].
    + rewrite ELw in H3. injection H3 as <-. exists l. split; [|split; [reflexivity|rewrite FW, N.eqb_refl; reflexivity]].
      assert (l <> an_N c - 1) by (intros ->; rewrite EWl in Ew; congruence). lia.
    + exists p. assert (p <> l) by (intros ->; rewrite EWl in H4; congruence). assert (p <> an_N c - 1) by (intros ->; rewrite Ew in H4; congruence).
      split; [lia|]. split; [exact H3|]. rewrite FW. destruct (N.eqb_spec p l); [contradiction|exact H4].
  - intros x [<-|Hx].
    + split; [exact Hb|]. exists (an_N c - 1). rewrite FA, N.eqb_refl. split; [reflexivity|]. split; [lia|]. intros h Hh.
      destruct (Hpos h Hh) as (y & _ & _ & _ & _ & _ & He). exists y. apply ends_lim; [|lia|exact He].
      intros i v Ei Hv. rewrite FA in Ei. destruct (N.eqb_spec i b); [injection Ei as <-; lia|]. specialize (Hge i v Ei Hv). lia.
    + destruct (i_gone _ _ _ Hi x Hx) as (Hxa & v & Ev & Hv & He). split; [exact Hxa|]. exists v. rewrite FA.
      destruct (N.eqb_spec x b) as [->|_]; [contradiction|]. split; [exact Ev|]. split; [lia|]. intros h Hh. destruct (He h Hh) as [y Hy]. exists y. apply Hold; [lia|exact Hy].
  - intros p Hp. destruct (Hpos p ltac:(lia)) as (y & H1 & H2 & H3 & H4 & H5 & H6). exists y. cbn [In]. repeat (split; [assumption || intuition congruence|]). exact H6.
Qed.

Lemma undo a c R b c' : inv a c R -> b < a -> ~ In b R -> 1 < an_N c -> removeBlock c b = Some c' -> addBlock c' = Some (c, b).
Proof.
  intros Hi Hb Hn HN E. destruct (remove_spec a c R b Hi Hb Hn HN) as (c2 & w & l & E2 & Ew & EL & Hl & Hw & Hwr & ELw & EWl & HN' & HR & LA & LK & LW & LL & FA & FK & FW & FL).
  rewrite E in E2. injection E2 as <-. pose proof (i_lens _ _ _ Hi) as (LA' & LK' & LW' & LL'). pose proof (i_N _ _ _ Hi) as [HNa _]. pose proof (i_size _ _ _ Hi) as Hs.
  destruct (i_work _ _ _ Hi b Hb Hn) as (EAb & EKb & _).
  unfold addBlock. rewrite HR, last_last, removelast_last. destruct (an_R c ++ [b]) eqn:Er; [destruct (an_R c); discriminate|]. clear Er.
  destruct (upd_some (an_A c') b 0 ltac:(lia)) as [A2 UA]. rewrite UA, HN'.
  assert (idx (an_W c') (an_N c - 1) = Some w) as -> by (rewrite FW; destruct (N.eqb_spec (an_N c - 1) l); [reflexivity|exact Ew]).
  destruct (upd_some (an_L c') w (an_N c - 1) ltac:(lia)) as [L2 UL]. rewrite UL. destruct (upd_spec _ _ _ _ UL) as (_ & _ & F2L).
  assert (L2 = an_L c) as ->.
  { apply idx_ext. intros j. rewrite F2L, FL. destruct (N.eqb_spec j w) as [->|]; [now symmetry|reflexivity]. }
  rewrite EL. destruct (upd_some (an_W c') l b ltac:(lia)) as [W2 UW]. rewrite UW. destruct (upd_some (an_K c') b b ltac:(lia)) as [K2 UK]. rewrite UK.
  destruct (upd_spec _ _ _ _ UA) as (_ & _ & F2A). destruct (upd_spec _ _ _ _ UW) as (_ & _ & F2W). destruct (upd_spec _ _ _ _ UK) as (_ & _ & F2K).
  assert (A2 = an_A c) as ->.
  { apply idx_ext. intros j. rewrite F2A, FA. destruct (N.eqb_spec j b) as [->|]; [now symmetry|reflexivity]. }
  assert (K2 = an_K c) as ->.
  { apply idx_ext. intros j. rewrite F2K, FK. destruct (N.eqb_spec j b) as [->|]; [now symmetry|reflexivity]. }
  assert (W2 = an_W c) as ->.
  { apply idx_ext. intros j. rewrite F2W, FW. destruct (N.eqb_spec j l) as [->|]; [now symmetry|reflexivity]. }
  assert (wrap16 (an_N c - 1 + 1) = an_N c) as -> by (unfold wrap16; rewrite N.mod_small; lia).
  destruct c; reflexivity.
Qed.

(** * Histories *)
Lemma count_up_idx n i : i < N.of_nat n -> idx (count_up n) i = Some i.
Proof.
  intros H. unfold idx, count_up. rewrite nth_error_map. rewrite (nth_error_nth' _ 0%nat) by (rewrite seq_length; lia).
  rewrite seq_nth by lia. cbn. f_equal. lia.
Qed.
Lemma init_full a c : initConsistent a a = Some c -> exists u, wrap16 a = u /\ 0 < u <= a /\
  c = mkAnchor (repeat 0 (N.to_nat a)) (count_up (N.to_nat u) ++ repeat 0 (N.to_nat (a - u))) (count_up (N.to_nat u) ++ repeat 0 (N.to_nat (a - u)))
        (count_up (N.to_nat u) ++ repeat 0 (N.to_nat (a - u))) [] u.
Proof.
  unfold initConsistent. cbv zeta. set (u := wrap16 a). set (top := wrap16 (a + 65535)). set (loops := if u <=? top then top - u + 1 else 0).
  intros E. exists u. split; [reflexivity|]. destruct (N.eqb_spec u 0) as [|Hu]; [discriminate|]. destruct (N.ltb_spec a a); [lia|].
  destruct (N.ltb_spec (a - a) loops) as [|Hl]; [discriminate|]. cbn [orb] in E.
  assert (loops = 0) as El by lia. assert (u <= a) by (subst u; unfold wrap16; apply N.mod_le; discriminate). split; [lia|].
  rewrite El in E. rewrite !N.sub_0_r, N.sub_diag in E. cbn [N.to_nat seq map rev app repeat] in E.
  injection E as <-. f_equal. rewrite <- repeat_app. f_equal. lia.
Qed.
Lemma init_inv a c : a <= 65535 -> initConsistent a a = Some c -> inv a c [].
Proof.
  intros Ha E. apply init_full in E as (u & Eu & Hu & ->). unfold wrap16 in Eu. rewrite N.mod_small in Eu by lia. subst u.
  rewrite N.sub_diag. cbn [N.to_nat repeat]. rewrite app_nil_r. assert (1 <= a) as H1 by lia.
  assert (Lc : N.of_nat (length (count_up (N.to_nat a))) = a) by (unfold count_up; rewrite map_length, seq_length; lia).
  assert (EA : forall b, b < a -> idx (repeat 0 (N.to_nat a)) b = Some 0).
  { intros b Hb. unfold idx. rewrite nth_error_repeat by lia. reflexivity. }
  constructor; cbn [an_A an_K an_W an_L an_R an_N length rev].
  - lia.
  - rewrite repeat_length. lia.
  - lia.
  - reflexivity.
  - intros b Hb _. split; [now apply EA|]. rewrite count_up_idx by lia. split; [reflexivity|]. exists b. auto using count_up_idx with arith.
    rewrite count_up_idx by lia. auto.
  - intros b [].
  - intros p Hp. exists p. rewrite count_up_idx by lia. split; [reflexivity|]. split; [exact Hp|]. split; [auto|]. split; [reflexivity|].
    eapply en_stop; [apply EA, Hp|lia].
Qed.

Inductive built (a : N) : anchor -> list N -> Prop :=
| bl_init c : a <= 65535 -> initConsistent a a = Some c -> built a c []
| bl_remove c R b c' : built a c R -> b < a -> ~ In b R -> N.of_nat (length R) + 1 < a -> removeBlock c b = Some c' -> built a c' (b :: R).
Lemma built_inv a c R : built a c R -> inv a c R.
Proof.
  induction 1 as [c Ha E|c R b c' _ IH Hb Hn HR E]; [now apply init_inv|]. eapply remove_inv; eauto. pose proof (i_N _ _ _ IH). lia.
Qed.
Lemma again a c R b : inv a c R -> In b R -> removeBlock c b = Some c.
Proof.
  intros Hi Hb. destruct (i_gone _ _ _ Hi b Hb) as (_ & v & E & Hv & _). pose proof (i_N _ _ _ Hi). unfold removeBlock. rewrite E.
  destruct (N.eqb_spec v 0); [lia|reflexivity].
Qed.
Lemma table_built a c R : table a c R -> built a c R.
Proof.
  induction 1 as [c Ha E|c R b c' _ IH Hb Hn HR E|c R b c' _ IH Hb E|c b R c' x _ IH E].
  - now constructor.
  - econstructor; eauto.
  - rewrite (again _ _ _ _ (built_inv _ _ _ IH) Hb) in E. now injection E as <-.
  - inversion IH as [|c0 R0 b0 c1 H0 Hb Hn HR Er]; subst. pose proof (built_inv _ _ _ H0) as Hi. pose proof (i_N _ _ _ Hi).
    rewrite (undo a c0 R b c Hi Hb Hn ltac:(lia) Er) in E. injection E as <- _. exact H0.
Qed.

Lemma find_working a c R key : table a c R -> exists b, placed c key b /\ b < a /\ ~ In b R.
Proof. intros H. eapply inv_find, built_inv, table_built, H. Qed.
Lemma placed_same c key x y : placed c key x -> placed c key y -> x = y.
Proof. intros [n Hn] [m Hm]. specialize (Hn (n + m)%nat ltac:(lia)). specialize (Hm (n + m)%nat ltac:(lia)). congruence. Qed.
Lemma remove_total a c R b : table a c R -> b < a -> ~ In b R -> N.of_nat (length R) + 1 < a -> exists c', removeBlock c b = Some c'.
Proof.
  intros H Hb Hn HR. pose proof (built_inv _ _ _ (table_built _ _ _ H)) as Hi. pose proof (i_N _ _ _ Hi).
  destruct (remove_spec a c R b Hi Hb Hn ltac:(lia)) as (c' & _ & _ & E & _). eauto.
Qed.
Lemma remove_moves a c R b c' key x : table a c R -> b < a -> ~ In b R -> N.of_nat (length R) + 1 < a -> removeBlock c b = Some c' ->
  placed c key x -> x <> b -> placed c' key x.
Proof.
  intros H Hb Hn HR E [n Hx] Hxb. pose proof (built_inv _ _ _ (table_built _ _ _ H)) as Hi. pose proof (i_N _ _ _ Hi) as [HNa _].
  destruct (remove_spec a c R b Hi Hb Hn ltac:(lia)) as (c2 & w & l & E2 & _ & _ & _ & _ & _ & _ & _ & _ & _ & LA & _ & _ & _ & FA & FK & _ & _).
  rewrite E in E2. injection E2 as <-. exists n. intros f Hf. unfold findBlock, start in *. rewrite LA.
  destruct (i_work _ _ _ Hi b Hb Hn) as (EAb & _). eapply walk_keep; [exact EAb| |exact FA|exact FK|now apply Hx|exact Hxb].
  intros i v Ei Hv. pose proof (idx_len _ _ _ Ei). pose proof (i_lens _ _ _ Hi). destruct (in_dec N.eq_dec i R) as [Hr|Hr].
  - destruct (i_gone _ _ _ Hi i Hr) as (_ & v' & E' & H' & _). rewrite Ei in E'. injection E' as <-. lia.
  - destruct (i_work _ _ _ Hi i) as (E' & _); [lia|exact Hr|]. congruence.
Qed.
Lemma add_moves a c b R : table a c (b :: R) -> exists c', addBlock c = Some (c', b) /\ table a c' R /\
  forall key x, placed c key x -> placed c' key x \/ placed c' key b.
Proof.
  intros H. pose proof (table_built _ _ _ H) as Hbt. inversion Hbt as [|c0 R0 b0 c1 H0 Hb Hn HR Er]; subst. pose proof (built_inv _ _ _ H0) as Hi. pose proof (i_N _ _ _ Hi).
  pose proof (undo a c0 R b c Hi Hb Hn ltac:(lia) Er) as E. exists c0. split; [exact E|]. split; [eapply tb_add; eauto|]. intros key x Hx.
  assert (Ht : table a c0 R) by (eapply tb_add; eauto). destruct (find_working a c0 R key Ht) as (y & Hy & _).
  destruct (N.eq_dec y b) as [->|Hyb]; [now right|]. left. pose proof (remove_moves _ _ _ _ _ _ _ Ht Hb Hn HR Er Hy Hyb) as Hy'.
  rewrite (placed_same _ _ _ _ Hx Hy'). exact Hy.
Qed.
Lemma remove_add a c R b c' : table a c R -> b < a -> ~ In b R -> N.of_nat (length R) + 1 < a -> removeBlock c b = Some c' -> addBlock c' = Some (c, b).
Proof.
  intros H Hb Hn HR E. pose proof (built_inv _ _ _ (table_built _ _ _ H)) as Hi. pose proof (i_N _ _ _ Hi). eapply undo; eauto. lia.
Qed.
(** As the database uses it: all blocks in use. *)
Lemma find_full a c key : a < 2 ^ 32 -> initConsistent a a = Some c -> exists b, b < a /\ b < 65536 /\ forall fuel, findBlock c key fuel = Found b.
Proof.
  intros Ha E. apply init_full in E as (u & Eu & Hu & ->). set (A := repeat 0 (N.to_nat a)). assert (HA : N.of_nat (length A) = a) by (unfold A; rewrite repeat_length; lia).
  exists (start A key). assert (Hs : start A key < a /\ start A key < 65536).
  { unfold start. rewrite HA. pose proof (fleaRound_d (fleaRound (fleaRound (mkFlea fleaSeed (wrap32 (N.lxor (key / 2 ^ 32) key)) (wrap32 (N.lxor (key / 2 ^ 32) key)) (wrap32 (N.lxor (key / 2 ^ 32) key)))))) as Hd.
    fold (fleaInit key) in Hd. split; [|unfold wrap16; apply N.mod_upper_bound; discriminate]. eapply N.le_lt_trans; [apply N.mod_le; discriminate|].
    unfold fastMod, wrap32. eapply N.le_lt_trans; [apply N.mod_le; discriminate|]. apply N.div_lt_upper_bound; [discriminate|].
    eapply N.le_lt_trans; [apply N.mod_le; discriminate|]. apply N.mul_lt_mono_pos_r; lia. }
  split; [apply Hs|]. split; [apply Hs|]. intros f. unfold findBlock. cbn [an_A an_K].
  assert (idx A (start A key) = Some 0) as E0 by (unfold idx, A; rewrite nth_error_repeat; [reflexivity|fold A; lia]).
  destruct f; cbn [walk]; rewrite E0; reflexivity.
Qed.

(** * Tables that go wrong *)
Definition grown : anchor := mkAnchor [1; 0] [0; 1] [1; 0] [1; 0] [0] 1.
Lemma grown_hangs : exists key, hangs grown key.
Proof.
  exists 2. assert (start (an_A grown) 2 = 0) as Es by (vm_compute; reflexivity).
  assert (Hc : forall f, chain [1; 0] [0; 1] 1 0 f = More) by (induction f as [|f IH]; [reflexivity|exact IH]).
  intros f. unfold findBlock. rewrite Es. destruct f as [|f]; [reflexivity|]. cbn [walk an_A an_K grown idx N.to_nat nth_error].
  change (1 =? 0) with false. cbv iota. destruct (fastMod_lt (fl_d (fleaRound (fleaInit 2))) 1) as [H ->]; [apply fleaRound_d|lia|].
  assert (fastMod (fl_d (fleaRound (fleaInit 2))) 1 = 0) as -> by lia. rewrite Hc. reflexivity.
Qed.
Lemma grow_bad : exists c c1 b c2 key, initConsistent 2 1 = Some c /\ addBlock c = Some (c1, b) /\ removeBlock c1 0 = Some c2 /\ hangs c2 key.
Proof.
  destruct grown_hangs as [key Hk]. do 3 eexists. exists grown, key. split; [reflexivity|]. split; [reflexivity|]. split; [vm_compute; reflexivity|exact Hk].
Qed.
Lemma last_bad : exists c c1, initConsistent 1 1 = Some c /\ removeBlock c 0 = Some c1 /\ (forall key, placed c1 key 0) /\ removeBlock c1 0 = None.
Proof.
  do 2 eexists. split; [reflexivity|]. split; [vm_compute; reflexivity|]. split; [|vm_compute; reflexivity].
  intros key. exists O. intros f _. unfold findBlock. cbn [an_A].
  pose proof (start_lt [0] key ltac:(cbn; lia)) as H. cbn in H. assert (start [0] key = 0) as -> by lia. destruct f; reflexivity.
Qed.
Lemma previous_bad : exists c c1 c2 key b, initConsistent 2 2 = Some c /\ removeBlock c 0 = Some c1 /\
  findPrevious c1 key 5 = Some (c2, Found b) /\ placed c1 key 1 /\ placed c2 key 0.
Proof.
  do 3 eexists. exists 2. eexists. split; [reflexivity|]. split; [vm_compute; reflexivity|]. split; [vm_compute; reflexivity|]. split.
  - exists 2%nat. intros [|[|f]] H; [lia|lia|]. unfold findBlock.
    match goal with |- walk ?A ?K ?s ?b _ = _ => assert (b = 0) as -> by (vm_compute; reflexivity) end.
    cbn [walk an_A an_K idx N.to_nat nth_error]. change (1 =? 0) with false. cbv iota.
    destruct (fastMod_lt (fl_d (fleaRound (fleaInit 2))) 1) as [H1 ->]; [apply fleaRound_d|lia|].
    assert (fastMod (fl_d (fleaRound (fleaInit 2))) 1 = 0) as -> by lia. reflexivity.
  - exists O. intros f _. unfold findBlock.
    match goal with |- walk ?A ?K ?s ?b _ = _ => assert (b = 0) as -> by (vm_compute; reflexivity) end. destruct f; reflexivity.
Qed.

(** Six blocks of which 2, 5 and 0 were removed. *)
Fixpoint remove_all (c : anchor) (l : list N) : option anchor :=
  match l with [] => Some c | b :: r => match removeBlock c b with None => None | Some c' => remove_all c' r end end.
Definition six : anchor := mkAnchor [3; 0; 5; 0; 0; 4] [3; 1; 5; 3; 4; 4] [3; 1; 4; 3; 4; 5] [0; 1; 2; 0; 2; 2] [2; 5; 0] 3.
Lemma six_table : table 6 six [0; 5; 2].
Proof.
  destruct (initConsistent 6 6) as [c|] eqn:E; [|discriminate E].
  destruct (removeBlock c 2) as [c1|] eqn:E1; [|injection E as <-; discriminate E1].
  destruct (removeBlock c1 5) as [c2|] eqn:E2; [|injection E as <-; injection E1 as <-; discriminate E2].
  assert (removeBlock c2 0 = Some six) as E3 by (injection E as <-; injection E1 as <-; injection E2 as <-; vm_compute; reflexivity).
  eapply tb_remove; [eapply tb_remove; [eapply tb_remove; [apply tb_init; [|exact E]|..]|..]|..]; try eassumption; try discriminate; try (cbn; lia); cbn; intuition discriminate.
Qed.
Lemma remove_undo a c R b : table a c R -> b < a -> ~ In b R -> N.of_nat (length R) + 1 < a ->
  exists c', removeBlock c b = Some c' /\ addBlock c' = Some (c, b).
Proof.
  intros H H1 H2 H3. destruct (remove_total a c R b H H1 H2 H3) as [c' E]. exists c'. split; [exact E|]. exact (remove_add a c R b c' H H1 H2 H3 E).
Qed.
