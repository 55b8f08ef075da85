From Verif Require Import M_Pool S_Pool P_Pool.
From Coq Require Import List Arith Lia Bool.
Import ListNotations.

Section Live.
Variable cap : nat.
Variable ev : nat -> pev.
Notation at_ := (pool_at cap ev).

(** Something that gets nearer whenever [h] has its turn happens. *)
Lemma lead : forall (h : pev) (R : nat -> pst -> Prop) (G : pst -> Prop),
  again ev h ->
  (forall k n, R k (at_ n) ->
     G (at_ (S n)) \/
     exists k', k' <= k /\ R k' (at_ (S n)) /\ (ev n = h -> k' < k)) ->
  forall k n, R k (at_ n) -> exists m, n <= m /\ G (at_ m).
Proof.
  intros h R G A St k. induction k as [k IHk] using lt_wf_ind. intros n H.
  destruct (A n) as (m & L & E).
  remember (m - n) as d eqn:D. revert k IHk n H L D.
  induction d as [|d IHd]; intros k IHk n H L D.
  - assert (m = n) by lia. subst m.
    destruct (St k n H) as [X|(k' & K & R' & F)]; [exists (S n); auto|].
    destruct (IHk k' (F E) (S n) R') as (m & L' & X). exists m. split; [lia|exact X].
  - destruct (St k n H) as [X|(k' & K & R' & F)]; [exists (S n); auto|].
    destruct (Nat.eq_dec k' k) as [->|Nk].
    + destruct (IHd k IHk (S n) R') as (m' & L' & X); [lia|lia|]. exists m'. split; [lia|exact X].
    + destruct (IHk k' ltac:(lia) (S n) R') as (m' & L' & X). exists m'. split; [lia|exact X].
Qed.

Lemma step_at : forall n, at_ (S n) = pool_step cap (at_ n) (ev n).
Proof. reflexivity. Qed.
End Live.

Lemma pev_dec : forall a b : pev, {a = b} + {a <> b}.
Proof. decide equality. apply Nat.eq_dec. Qed.

Ltac st s := destruct s as [nx ti wq wc d lq lc c dn dr sp lo cl bw pn];
  cbn [p_next p_tiny p_wq p_wclosed p_disp p_lq p_lclosed p_com p_done p_drop p_stop p_loop p_close p_bw p_panic] in *.
Ltac red_ := cbn [p_next p_tiny p_wq p_wclosed p_disp p_lq p_lclosed p_com p_done p_drop p_stop p_loop
  p_close p_bw p_panic set_disp set_com set_loop set_bw set_close panic] in *.
Ltac cases_ := repeat match goal with
  | |- context [match ?x with _ => _ end] => destruct x eqn:?; red_
  end.

(** What the other goroutines leave as it is *)
Lemma frame_disp : forall cap s e, e <> EDisp ->
  p_disp (pool_step cap s e) = p_disp s /\ p_lclosed (pool_step cap s e) = p_lclosed s /\
  p_drop (pool_step cap s e) = p_drop s /\
  exists b, p_wq (pool_step cap s e) = p_wq s ++ b.
Proof.
  intros cap s e N. st s. unfold pool_step. red_. destruct pn.
  { red_. repeat split. exists []. rewrite app_nil_r. reflexivity. }
  destruct e; try congruence;
    unfold tick_step, loop_step, com_step, com_stop, batch_step, write_step, close_step; red_;
    cases_; repeat split; try (exists []; rewrite app_nil_r; reflexivity); eexists; reflexivity.
Qed.

Lemma frame_com : forall cap s e, e <> ECom ->
  (p_com (pool_step cap s e) = p_com s \/ p_com s = MIdle /\ p_com (pool_step cap s e) = MStop) /\
  p_done (pool_step cap s e) = p_done s /\
  exists b, p_lq (pool_step cap s e) = p_lq s ++ b.
Proof.
  intros cap s e N. st s. unfold pool_step. red_. destruct pn.
  { red_. repeat split; auto. exists []. rewrite app_nil_r. reflexivity. }
  destruct e; try congruence;
    unfold tick_step, loop_step, disp_step, com_stop, batch_step, write_step, close_step; red_;
    cases_; repeat split; auto; try (exists []; rewrite app_nil_r; reflexivity); eexists; reflexivity.
Qed.

Lemma frame_bw : forall cap s e i, 
  (forall x, nth_error (p_bw s) i = Some (BRet x) -> nth_error (p_bw (pool_step cap s e)) i = Some (BRet x)) /\
  (forall x, nth_error (p_bw s) i = Some (BWait x) ->
     nth_error (p_bw (pool_step cap s e)) i = Some (BWait x) \/
     nth_error (p_bw (pool_step cap s e)) i = Some (BRet x) /\ In x (p_done s)).
Proof.
  intros cap s e i. st s. unfold pool_step. red_. destruct pn; [red_; auto|].
  destruct e; unfold tick_step, loop_step, disp_step, com_step, com_stop, batch_step, close_step;
    red_; try (cases_; auto; fail).
  - assert (A : forall w, nth_error bw i = Some w -> nth_error (bw ++ [BStart nx]) i = Some w).
    { intros w H. rewrite nth_error_app1; [exact H|]. apply nth_error_Some. congruence. }
    split; intros x H; [|left]; apply A; exact H.
  - unfold write_step. red_. destruct (nth_error bw i0) as [w|] eqn:E; [|auto].
    destruct w as [y|y|y]; [|destruct (memb y dn) eqn:M; [|auto]|auto].
    + destruct wc; [auto|]. red_. rewrite (nth_upd _ _ _ _ _ E).
      destruct (Nat.eqb_spec i0 i) as [->|]; [|auto]. split; intros x H; congruence.
    + red_. rewrite (nth_upd _ _ _ _ _ E). apply memb_in in M.
      destruct (Nat.eqb_spec i0 i) as [->|]; [|auto]. split; intros x H; [congruence|].
      right. split; [congruence|]. rewrite E in H. injection H as ->. exact M.
Qed.

Lemma frame_done : forall cap s e x, In x (p_done s) -> In x (p_done (pool_step cap s e)).
Proof.
  intros cap s e x H. destruct (pev_dec e ECom) as [->|N].
  - st s. unfold pool_step. red_. destruct pn; [exact H|]. unfold com_step. red_. cases_; auto. right. exact H.
  - destruct (frame_com cap s e N) as (_ & -> & _). exact H.
Qed.

Lemma frame_drop : forall cap s e x, In x (p_drop s) -> In x (p_drop (pool_step cap s e)).
Proof.
  intros cap s e x H. destruct (pev_dec e EDisp) as [->|N].
  - st s. unfold pool_step. red_. destruct pn; [exact H|]. unfold disp_step. red_. cases_; auto. right. exact H.
  - destruct (frame_disp cap s e N) as (_ & _ & -> & _). exact H.
Qed.

Definition dc (d : pdisp) : nat := match d with DRecv => 1 | DSleep => 2 | DHand _ => 3 | DEnd => 0 end.
Definition mc (c : pcom) : nat := match c with MIdle => 2 | MStop => 1 | MHand _ _ => 3 | MEnd => 0 end.

Lemma panic_dec : forall s, p_panic s = true \/ p_panic s = false.
Proof. intros s. destruct (p_panic s); auto. Qed.

Section Write.
Variable cap : nat.
Variable ev : nat -> pev.
Variable x : nat.
Notation at_ := (pool_at cap ev).

(** In the write queue *)
Lemma phase_wq : again ev EDisp -> forall n, In x (p_wq (at_ n)) ->
  exists m, n <= m /\ (p_panic (at_ m) = true \/ p_disp (at_ m) = DHand x).
Proof.
  intros A n H.
  pose (R := fun k s => exists a b, p_wq s = a ++ x :: b /\ k = 3 * length a + dc (p_disp s)).
  destruct (in_split _ _ H) as (a & b & E).
  assert (HR : R (3 * length a + dc (p_disp (at_ n))) (at_ n)) by (exists a, b; auto).
  revert HR. generalize (3 * length a + dc (p_disp (at_ n))). clear a b E H. intros k HR.
  refine (lead cap ev EDisp R (fun s => p_panic s = true \/ p_disp s = DHand x) A _ k n HR).
  clear k n HR. intros k n (a & b & E & K). rewrite step_at.
  pose proof (inv_at cap ev n) as I. set (s := at_ n) in *.
  destruct (panic_dec s) as [P|P].
  { left. left. unfold pool_step. rewrite P. exact P. }
  destruct (pev_dec (ev n) EDisp) as [->|N].
  - unfold pool_step. rewrite P. unfold disp_step. destruct (p_disp s) as [|y| |] eqn:D; cbn [dc] in K.
    + rewrite E. destruct a as [|z a]; cbn [app].
      * left. right. reflexivity.
      * right. exists (3 * length a + 3). cbn [length] in K. split; [lia|]. split; [|intros _; lia].
        exists a, b. split; reflexivity.
    + right. destruct (Nat.ltb _ _).
      * exists (3 * length a + 1). split; [lia|]. split; [|intros _; lia]. exists a, b. split; [exact E|reflexivity].
      * exists (3 * length a + 2). split; [lia|]. split; [|intros _; lia]. exists a, b. split; [exact E|reflexivity].
    + right. exists (3 * length a + 1). split; [lia|]. split; [|intros _; lia]. exists a, b. split; [exact E|reflexivity].
    + destruct (i_dend s I D) as [E' _]. rewrite E' in E. destruct a; discriminate.
  - right. destruct (frame_disp cap s (ev n) N) as (D & _ & _ & (b' & W)).
    exists k. split; [lia|]. split; [|intros; contradiction].
    exists a, (b ++ b'). rewrite W, E, D, <- app_assoc. split; [reflexivity|exact K].
Qed.

Lemma phase_hand : again ev EDisp -> forall n, p_disp (at_ n) = DHand x ->
  exists m, n <= m /\ (p_panic (at_ m) = true \/ In x (p_lq (at_ m)) \/ In x (p_drop (at_ m))).
Proof.
  intros A n H.
  refine (lead cap ev EDisp (fun k s => p_disp s = DHand x)
           (fun s => p_panic s = true \/ In x (p_lq s) \/ In x (p_drop s)) A _ 0 n H).
  clear n H. intros k n H. rewrite step_at. set (s := at_ n) in *.
  destruct (panic_dec s) as [P|P].
  { left. left. unfold pool_step. rewrite P. exact P. }
  destruct (pev_dec (ev n) EDisp) as [->|N].
  - left. right. unfold pool_step. rewrite P. unfold disp_step. rewrite H.
    destruct (Nat.ltb _ _); [left|right]; red_; [apply in_or_app; right; left; reflexivity|left; reflexivity].
  - right. destruct (frame_disp cap s (ev n) N) as (D & _). exists k. rewrite D.
    split; [lia|]. split; [exact H|intros; contradiction].
Qed.

(** In the log queue *)
Lemma phase_lq : again ev ECom -> forall n, In x (p_lq (at_ n)) ->
  exists m, n <= m /\ (p_panic (at_ m) = true \/ exists b, p_com (at_ m) = MHand b x).
Proof.
  intros A n H.
  pose (R := fun k s => exists a b, p_lq s = a ++ x :: b /\ k = 3 * length a + mc (p_com s)).
  destruct (in_split _ _ H) as (a & b & E).
  assert (HR : R (3 * length a + mc (p_com (at_ n))) (at_ n)) by (exists a, b; auto).
  revert HR. generalize (3 * length a + mc (p_com (at_ n))). clear a b E H. intros k HR.
  refine (lead cap ev ECom R (fun s => p_panic s = true \/ exists b, p_com s = MHand b x) A _ k n HR).
  clear k n HR. intros k n (a & b & E & K). rewrite step_at.
  pose proof (inv_at cap ev n) as I. set (s := at_ n) in *.
  destruct (panic_dec s) as [P|P].
  { left. left. unfold pool_step. rewrite P. exact P. }
  destruct (pev_dec (ev n) ECom) as [->|N].
  - unfold pool_step. rewrite P. unfold com_step. destruct (p_com s) as [|f y| |] eqn:D; cbn [mc] in K.
    + rewrite E. destruct a as [|z a]; cbn [app].
      * left. right. exists false. reflexivity.
      * right. exists (3 * length a + 3). cbn [length] in K. split; [lia|]. split; [|intros _; lia].
        exists a, b. split; reflexivity.
    + right. exists (3 * length a + (if f then 1 else 2)). split; [destruct f; lia|].
      split; [|intros _; destruct f; lia]. exists a, b. split; [exact E|destruct f; reflexivity].
    + rewrite E. destruct a as [|z a]; cbn [app].
      * left. right. exists true. reflexivity.
      * right. exists (3 * length a + 3). cbn [length] in K. split; [lia|]. split; [|intros _; lia].
        exists a, b. split; reflexivity.
    + destruct (i_mend s I D) as [E' _]. rewrite E' in E. destruct a; discriminate.
  - right. destruct (frame_com cap s (ev n) N) as (D & _ & (b' & W)).
    exists (3 * length a + mc (p_com (pool_step cap s (ev n)))). split.
    { subst k. destruct D as [-> |[D0 ->]]; [lia|]. rewrite D0. cbn. lia. }
    split; [|intros; contradiction].
    exists a, (b ++ b'). rewrite W, E, <- app_assoc. split; reflexivity.
Qed.

Lemma phase_com : again ev ECom -> forall n b, p_com (at_ n) = MHand b x ->
  exists m, n <= m /\ (p_panic (at_ m) = true \/ In x (p_done (at_ m))).
Proof.
  intros A n b H.
  refine (lead cap ev ECom (fun k s => exists b, p_com s = MHand b x)
           (fun s => p_panic s = true \/ In x (p_done s)) A _ 0 n (ex_intro _ b H)).
  clear n b H. intros k n (b & H). rewrite step_at. set (s := at_ n) in *.
  destruct (panic_dec s) as [P|P].
  { left. left. unfold pool_step. rewrite P. exact P. }
  destruct (pev_dec (ev n) ECom) as [->|N].
  - left. right. unfold pool_step. rewrite P. unfold com_step. rewrite H. left. reflexivity.
  - right. destruct (frame_com cap s (ev n) N) as (D & _). exists k.
    split; [lia|]. split; [exists b; destruct D as [-> |[D _]]; [exact H|congruence]|intros; contradiction].
Qed.

Lemma phase_ret : forall i, again ev (EWrite i) -> forall n,
  (nth_error (p_bw (at_ n)) i = Some (BWait x) \/ nth_error (p_bw (at_ n)) i = Some (BRet x)) ->
  In x (p_done (at_ n)) ->
  exists m, n <= m /\ (p_panic (at_ m) = true \/ nth_error (p_bw (at_ m)) i = Some (BRet x)).
Proof.
  intros i A n [H|H] D; [|exists n; auto].
  refine (lead cap ev (EWrite i) (fun k s => nth_error (p_bw s) i = Some (BWait x) /\ In x (p_done s))
           (fun s => p_panic s = true \/ nth_error (p_bw s) i = Some (BRet x)) A _ 0 n (conj H D)).
  clear n H D. intros k n (H & D). rewrite step_at. set (s := at_ n) in *.
  destruct (panic_dec s) as [P|P].
  { left. left. unfold pool_step. rewrite P. exact P. }
  destruct (pev_dec (ev n) (EWrite i)) as [->|N].
  - left. right. unfold pool_step. rewrite P. unfold write_step. rewrite H.
    apply memb_in in D. rewrite D. red_. rewrite (nth_upd _ _ _ _ _ H), Nat.eqb_refl. reflexivity.
  - destruct (frame_bw cap s (ev n) i) as [_ F]. destruct (F x H) as [F'|[F' _]].
    + right. exists k. split; [lia|]. split; [split; [exact F'|apply frame_done; exact D]|intros; contradiction].
    + left. right. exact F'.
Qed.

Lemma bw_stays : forall i n m, n <= m ->
  (nth_error (p_bw (at_ n)) i = Some (BWait x) \/ nth_error (p_bw (at_ n)) i = Some (BRet x)) ->
  (nth_error (p_bw (at_ m)) i = Some (BWait x) \/ nth_error (p_bw (at_ m)) i = Some (BRet x)).
Proof.
  intros i n m L H. induction L as [|m L IH]; [exact H|].
  rewrite step_at. destruct (frame_bw cap (at_ m) (ev m) i) as [F1 F2]. destruct IH as [H'|H'].
  - destruct (F2 x H') as [X|[X _]]; auto.
  - right. apply F1. exact H'.
Qed.

Lemma drop_stays : forall n m, n <= m -> In x (p_drop (at_ n)) -> In x (p_drop (at_ m)).
Proof. intros n m L H. induction L; [exact H|]. rewrite step_at. apply frame_drop. assumption. Qed.

Lemma write_ends : forall i, fair ev -> forall n, nth_error (p_bw (at_ n)) i = Some (BWait x) ->
  exists m, n <= m /\ (p_panic (at_ m) = true \/ In x (p_drop (at_ m)) \/
                       nth_error (p_bw (at_ m)) i = Some (BRet x)).
Proof.
  intros i (_ & AD & AC & AW) n H.
  assert (D4 : forall m, n <= m -> In x (p_done (at_ m)) ->
            exists m, n <= m /\ (p_panic (at_ m) = true \/ In x (p_drop (at_ m)) \/
                       nth_error (p_bw (at_ m)) i = Some (BRet x))).
  { intros m L D. destruct (phase_ret i (AW i) m (bw_stays i n m L (or_introl H)) D) as (m' & L' & Z).
    exists m'. split; [lia|]. tauto. }
  assert (D3 : forall m b, n <= m -> p_com (at_ m) = MHand b x ->
            exists m, n <= m /\ (p_panic (at_ m) = true \/ In x (p_drop (at_ m)) \/
                       nth_error (p_bw (at_ m)) i = Some (BRet x))).
  { intros m b L D. destruct (phase_com AC m b D) as (m' & L' & [Z|Z]).
    - exists m'. split; [lia|]. auto.
    - apply (D4 m'); [lia|exact Z]. }
  assert (D2 : forall m, n <= m -> In x (p_lq (at_ m)) ->
            exists m, n <= m /\ (p_panic (at_ m) = true \/ In x (p_drop (at_ m)) \/
                       nth_error (p_bw (at_ m)) i = Some (BRet x))).
  { intros m L D. destruct (phase_lq AC m D) as (m' & L' & [Z|(b & Z)]).
    - exists m'. split; [lia|]. auto.
    - apply (D3 m' b); [lia|exact Z]. }
  assert (D1 : forall m, n <= m -> p_disp (at_ m) = DHand x ->
            exists m, n <= m /\ (p_panic (at_ m) = true \/ In x (p_drop (at_ m)) \/
                       nth_error (p_bw (at_ m)) i = Some (BRet x))).
  { intros m L D. destruct (phase_hand AD m D) as (m' & L' & [Z|[Z|Z]]).
    - exists m'. split; [lia|]. auto.
    - apply (D2 m'); [lia|exact Z].
    - exists m'. split; [lia|]. auto. }
  pose proof (i_wait _ (inv_at cap ev n) i x H) as Q. unfold pipe in Q.
  destruct (le_lt_dec 1 (cn x (p_wq (at_ n)))) as [Q1|Q1].
  { apply cn_in in Q1. destruct (phase_wq AD n Q1) as (m' & L' & [Z|Z]).
    - exists m'. split; [lia|]. auto.
    - apply (D1 m'); [lia|exact Z]. }
  destruct (le_lt_dec 1 (cn x (p_lq (at_ n)))) as [Q2|Q2].
  { apply cn_in in Q2. apply (D2 n (le_n n) Q2). }
  destruct (le_lt_dec 1 (cn x (p_done (at_ n)))) as [Q3|Q3].
  { apply cn_in in Q3. apply (D4 n (le_n n) Q3). }
  destruct (le_lt_dec 1 (cn x (p_drop (at_ n)))) as [Q4|Q4].
  { apply cn_in in Q4. exists n. auto. }
  destruct (p_disp (at_ n)) as [|y| |] eqn:ED; cbn [cd] in Q;
    try (destruct (p_com (at_ n)) as [|b y'| |] eqn:EC; cbn [cc] in Q; try lia;
         assert (y' = x) by (apply one_pos; lia); subst y'; apply (D3 n b (le_n n) EC)).
  destruct (le_lt_dec 1 (one y x)) as [Q5|Q5].
  - apply one_pos in Q5. subst y. apply (D1 n (le_n n) ED).
  - destruct (p_com (at_ n)) as [|b y'| |] eqn:EC; cbn [cc] in Q; try lia.
    assert (y' = x) by (apply one_pos; lia). subst y'. apply (D3 n b (le_n n) EC).
Qed.
End Write.

(** The dispatcher drops a log only when the queue is full. *)
Lemma no_drop : forall cap ev, never_full cap ev -> forall n, p_drop (pool_at cap ev n) = [].
Proof.
  intros cap ev F n. induction n as [|n IH]; [reflexivity|]. rewrite step_at.
  destruct (pev_dec (ev n) EDisp) as [->|N].
  - unfold pool_step. destruct (p_panic _); [exact IH|]. unfold disp_step.
    destruct (p_disp _) as [|y| |]; try exact IH.
    + destruct (p_wq _); [destruct (p_wclosed _); exact IH|exact IH].
    + specialize (F n). apply Nat.ltb_lt in F. rewrite F. exact IH.
  - destruct (frame_disp cap (pool_at cap ev n) (ev n) N) as (_ & _ & -> & _). exact IH.
Qed.

Lemma no_stop : forall cap ev, never ev EClose -> forall n, p_close (pool_at cap ev n) = XNot.
Proof.
  intros cap ev F n. induction n as [|n IH]; [reflexivity|]. rewrite step_at.
  specialize (F n). set (s := pool_at cap ev n) in *. clearbody s. st s. unfold pool_step. red_.
  destruct pn; [exact IH|].
  destruct (ev n); try congruence;
    unfold tick_step, loop_step, com_step, com_stop, batch_step, write_step, disp_step; red_; cases_; exact IH.
Qed.

Lemma write_returns : forall cap ev i n, fair ev -> never ev EClose -> never_full cap ev ->
  waits (pool_at cap ev n) i -> exists m, n <= m /\ returned (pool_at cap ev m) i.
Proof.
  intros cap ev i n F C Q (x & H).
  destruct (write_ends cap ev x i F n H) as (m & L & [P|[P|P]]).
  - pose proof (inv_at cap ev m) as I.
    rewrite (i_pan _ I (i_close _ I (no_stop cap ev C m))) in P. discriminate.
  - rewrite (no_drop cap ev Q m) in P. destruct P.
  - exists m. split; [exact L|]. exists x. exact P.
Qed.

Lemma write_or_drop : forall cap ev i n x, fair ev -> 
  nth_error (p_bw (pool_at cap ev n)) i = Some (BWait x) ->
  exists m, n <= m /\ (p_panic (pool_at cap ev m) = true \/ In x (p_drop (pool_at cap ev m)) \/
                       returned (pool_at cap ev m) i).
Proof.
  intros cap ev i n x F H. destruct (write_ends cap ev x i F n H) as (m & L & [P|[P|P]]);
    exists m; repeat split; auto. right. right. exists x. exact P.
Qed.

(** A dropped log is never done. *)
Lemma dropped_waits : forall cap s i x, inv s -> In x (p_drop s) ->
  nth_error (p_bw s) i = Some (BWait x) ->
  forall l, nth_error (p_bw (pool_run cap s l)) i = Some (BWait x).
Proof.
  intros cap s i x I D H l. revert s I D H. induction l as [|e l IH]; intros s I D H; [exact H|].
  cbn [pool_run fold_left]. apply IH.
  - apply inv_step. exact I.
  - apply frame_drop. exact D.
  - destruct (frame_bw cap s e i) as [_ F]. destruct (F x H) as [X|[_ X]]; [exact X|].
    exfalso. pose proof (i_one s I x) as O. unfold cnt, pipe in O.
    apply cn_in in D. apply cn_in in X. lia.
Qed.
