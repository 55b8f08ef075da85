From Verif Require Import M_Pool S_Pool P_Pool P_PoolLive.
From Coq Require Import List Arith Lia Bool.
Import ListNotations.

Lemma frame_wq : forall cap s e, e <> EDisp ->
  exists b, p_wq (pool_step cap s e) = p_wq s ++ b /\
    forall y, In y b -> 1 <= cb y (p_bw s) + ct y s.
Proof.
  intros cap s e N. st s. unfold pool_step, ct. red_.
  assert (Nil : exists b, wq = wq ++ b /\ forall y, In y b ->
     1 <= cb y bw + match lo with LIdle => one ti y | _ => 0 end)
    by (exists []; rewrite app_nil_r; split; [reflexivity|intros y []]).
  destruct pn; [exact Nil|].
  destruct e; try congruence;
    unfold tick_step, loop_step, com_step, com_stop, batch_step, close_step; red_;
    try (cases_; exact Nil).
  - destruct lo; try exact Nil. destruct sp; [exact Nil|]. red_.
    exists [ti]. split; [reflexivity|]. intros y [->|[]]. rewrite one_same. lia.
  - destruct lo; try exact Nil.
    + destruct sp; [|exact Nil]. red_.
      exists [ti]. split; [reflexivity|]. intros y [->|[]]. rewrite one_same. lia.
    + destruct (memb _ _); exact Nil.
    + destruct (Nat.ltb _ _); exact Nil.
  - unfold write_step. red_. destruct (nth_error bw i) as [[x|x|x]|] eqn:E; try exact Nil.
    + destruct wc; [exact Nil|]. red_. exists [x]. split; [reflexivity|]. intros y [->|[]].
      pose proof (cb_upd y bw i _ (BWait y) E) as U. cbn [cw] in U. rewrite one_same in U. lia.
    + destruct (memb _ _); exact Nil.
Qed.

Lemma frame_loop : forall cap s e, e <> ELoop -> 
  p_loop (pool_step cap s e) = p_loop s \/ p_loop s = LIdle /\ p_stop s = false.
Proof.
  intros cap s e N. st s. unfold pool_step. red_. destruct pn; [left; reflexivity|].
  destruct e; try congruence;
    unfold tick_step, com_step, com_stop, batch_step, write_step, disp_step, close_step; red_;
    cases_; auto.
Qed.

Lemma frame_stop : forall cap s e, p_stop s = true -> p_stop (pool_step cap s e) = true.
Proof.
  intros cap s e H. st s. unfold pool_step. red_. subst sp. destruct pn; [reflexivity|].
  destruct e;
    unfold tick_step, loop_step, com_step, com_stop, batch_step, write_step, disp_step, close_step; red_;
    cases_; auto.
Qed.

Lemma frame_wcl : forall cap s e, p_wclosed s = true -> p_wclosed (pool_step cap s e) = true.
Proof.
  intros cap s e H. st s. unfold pool_step. red_. subst wc. destruct pn; [reflexivity|].
  destruct e;
    unfold tick_step, loop_step, com_step, com_stop, batch_step, write_step, disp_step, close_step; red_;
    cases_; auto.
Qed.

Lemma frame_wqc : forall cap s e, inv s -> e <> EDisp -> p_wclosed s = true ->
  p_wq (pool_step cap s e) = p_wq s.
Proof.
  intros cap s e I N H. pose proof (i_wcl s I H) as L. st s. unfold pool_step. red_. subst wc lo.
  destruct pn; [reflexivity|]. destruct e; try congruence;
    unfold tick_step, loop_step, com_step, com_stop, batch_step, write_step, close_step; red_;
    cases_; auto.
Qed.

Lemma frame_lqc : forall cap s e, e <> ECom -> p_disp s = DEnd ->
  p_lq (pool_step cap s e) = p_lq s /\ p_disp (pool_step cap s e) = DEnd.
Proof.
  intros cap s e N H. st s. unfold pool_step. red_. subst d.
  destruct pn; [auto|]. destruct e; try congruence;
    unfold tick_step, loop_step, disp_step, com_stop, batch_step, write_step, close_step; red_;
    cases_; auto.
Qed.

Lemma com_disp : forall s, p_disp (com_step s) = p_disp s /\ p_lclosed (com_step s) = p_lclosed s.
Proof. intros s. st s. unfold com_step. red_. cases_; auto. Qed.

Section Close.
Variable cap : nat.
Variable ev : nat -> pev.
Notation at_ := (pool_at cap ev).

Definition nxt (f : bool) : ploop := if f then LCloseQ else LNew.

Lemma loop_sends : forall f x s, p_loop s = LSend f x -> p_panic s = false ->
  p_loop (pool_step cap s ELoop) = LSend f x /\ p_wq (pool_step cap s ELoop) = p_wq s \/
  p_loop (pool_step cap s ELoop) = nxt f.
Proof.
  intros f x s H P. unfold pool_step. rewrite P. unfold loop_step. rewrite H.
  destruct (memb x (tl (p_wq s))); [left; auto|right; reflexivity].
Qed.

Lemma send_head : again ev EDisp -> forall f x n, p_loop (at_ n) = LSend f x ->
  exists m, n <= m /\ (p_panic (at_ m) = true \/
     (p_loop (at_ m) = LSend f x /\ ~ In x (tl (p_wq (at_ m)))) \/ p_loop (at_ m) = nxt f).
Proof.
  intros A f x n H.
  pose (R := fun k s => p_loop s = LSend f x /\
                exists a b, p_wq s = a ++ x :: b /\ k = 3 * length a + dc (p_disp s)).
  pose (G := fun s => p_panic s = true \/
     (p_loop s = LSend f x /\ ~ In x (tl (p_wq s))) \/ p_loop s = nxt f).
  destruct (in_dec Nat.eq_dec x (p_wq (at_ n))) as [J|J].
  2:{ exists n. split; [lia|]. right. left. split; [exact H|].
      intros K. apply J. destruct (p_wq (at_ n)); [exact K|right; exact K]. }
  destruct (in_split _ _ J) as (a & b & E).
  refine (lead cap ev EDisp R G A _ (3 * length a + dc (p_disp (at_ n))) n _).
  2:{ split; [exact H|]. exists a, b. auto. }
  clear n H J a b E. intros k n (H & a & b & E & K). rewrite step_at.
  pose proof (inv_at cap ev n) as I.
  pose proof (inv_at cap ev (S n)) as I'. rewrite step_at in I'. set (s := at_ n) in *.
  destruct (panic_dec s) as [P|P].
  { left. left. unfold pool_step. rewrite P. exact P. }
  destruct (pev_dec (ev n) EDisp) as [Ev|N].
  - rewrite Ev in *.
    assert (L : p_loop (pool_step cap s EDisp) = LSend f x).
    { destruct (frame_loop cap s EDisp ltac:(discriminate)) as [-> |[X _]]; congruence. }
    destruct (p_disp s) as [|y| |] eqn:D; cbn [dc] in K.
    + destruct a as [|z a].
      * left. right. left. split; [exact L|]. unfold pool_step. rewrite P. unfold disp_step. rewrite D, E.
        cbn [app]. red_. intros Q. pose proof (i_one s I x) as O. unfold cnt, pipe in O. rewrite E in O.
        cbn [cn app] in O. rewrite one_same in O.
        assert (1 <= cn x b) by (apply cn_in; destruct b; [destruct Q|right; exact Q]). lia.
      * right. exists (3 * length a + 3). cbn [length] in K. split; [lia|]. split; [|intros _; lia].
        split; [exact L|]. unfold pool_step. rewrite P. unfold disp_step. rewrite D, E. cbn [app]. red_.
        exists a, b. auto.
    + right. destruct (Nat.ltb (length (p_lq s)) cap) eqn:Q.
      * exists (3 * length a + 1). split; [lia|]. split; [|intros _; lia]. split; [exact L|].
        unfold pool_step. rewrite P. unfold disp_step. rewrite D, Q. exists a, b. split; [exact E|reflexivity].
      * exists (3 * length a + 2). split; [lia|]. split; [|intros _; lia]. split; [exact L|].
        unfold pool_step. rewrite P. unfold disp_step. rewrite D, Q. exists a, b. split; [exact E|reflexivity].
    + right. exists (3 * length a + 1). split; [lia|]. split; [|intros _; lia]. split; [exact L|].
      unfold pool_step. rewrite P. unfold disp_step. rewrite D. exists a, b. split; [exact E|reflexivity].
    + destruct (i_dend s I D) as [E' _]. rewrite E' in E. destruct a; discriminate.
  - destruct (frame_disp cap s (ev n) N) as (D & _ & _ & (b' & W)).
    assert (L : p_loop (pool_step cap s (ev n)) = LSend f x \/ p_loop (pool_step cap s (ev n)) = nxt f).
    { destruct (pev_dec (ev n) ELoop) as [-> |N'].
      - destruct (loop_sends f x s H P) as [[X _]|X]; auto.
      - left. destruct (frame_loop cap s (ev n) N') as [-> |[X _]]; congruence. }
    destruct L as [L|L]; [|left; right; right; exact L].
    right. exists k. split; [lia|]. split; [|intros; contradiction]. split; [exact L|].
    exists a, (b ++ b'). rewrite W, E, D, <- app_assoc. split; [reflexivity|exact K].
Qed.

Lemma tl_app : forall (w b : list nat) x, In x (tl (w ++ b)) -> In x (tl w) \/ In x b.
Proof.
  intros [|y w] b x H; cbn in *.
  - right. destruct b; [exact H|right; exact H].
  - apply in_app_or in H. exact H.
Qed.

Lemma send_over : again ev ELoop -> forall f x n, 
  p_loop (at_ n) = LSend f x -> ~ In x (tl (p_wq (at_ n))) ->
  exists m, n <= m /\ (p_panic (at_ m) = true \/ p_loop (at_ m) = nxt f).
Proof.
  intros A f x n H J.
  refine (lead cap ev ELoop (fun k s => p_loop s = LSend f x /\ ~ In x (tl (p_wq s)))
            (fun s => p_panic s = true \/ p_loop s = nxt f) A _ 0 n (conj H J)).
  clear n H J. intros k n (H & J). rewrite step_at.
  pose proof (inv_at cap ev n) as I. set (s := at_ n) in *.
  destruct (panic_dec s) as [P|P].
  { left. left. unfold pool_step. rewrite P. exact P. }
  destruct (pev_dec (ev n) ELoop) as [->|N].
  - left. right. unfold pool_step. rewrite P. unfold loop_step. rewrite H.
    destruct (memb x (tl (p_wq s))) eqn:M; [apply memb_in in M; contradiction|reflexivity].
  - right. exists k. split; [lia|]. split; [|intros; contradiction]. split.
    + destruct (frame_loop cap s (ev n) N) as [-> |[X _]]; congruence.
    + destruct (pev_dec (ev n) EDisp) as [-> |N'].
      * unfold pool_step. rewrite P. unfold disp_step.
        destruct (p_disp s); [destruct (p_wq s) as [|y w] eqn:W|destruct (Nat.ltb _ _)| |]; red_;
          try exact J; try (destruct (p_wclosed s); red_; rewrite ?W; exact J).
        intros K. apply J. cbn. destruct w; [destruct K|right; exact K].
      * destruct (frame_wq cap s (ev n) N') as (b & W & B). rewrite W. intros K.
        apply tl_app in K. destruct K as [K|K]; [contradiction|].
        specialize (B x K). pose proof (i_send s I f x H) as Q. pose proof (i_one s I x) as O.
        unfold cnt in O. lia.
Qed.

Lemma send_ends : again ev EDisp -> again ev ELoop -> forall f x n, p_loop (at_ n) = LSend f x ->
  exists m, n <= m /\ (p_panic (at_ m) = true \/ p_loop (at_ m) = nxt f).
Proof.
  intros A1 A2 f x n H. destruct (send_head A1 f x n H) as (m & L & [P|[(Q & J)|P]]).
  - exists m. auto.
  - destruct (send_over A2 f x m Q J) as (m' & L' & X). exists m'. split; [lia|exact X].
  - exists m. auto.
Qed.

Lemma stop_stays : forall n m, n <= m -> p_stop (at_ n) = true -> p_stop (at_ m) = true.
Proof. intros n m L H. induction L; [exact H|]. rewrite step_at. apply frame_stop. assumption. Qed.

Lemma new_ends : again ev ELoop -> forall n, p_loop (at_ n) = LNew ->
  exists m, n <= m /\ (p_panic (at_ m) = true \/ p_loop (at_ m) = LIdle).
Proof.
  intros A n H.
  refine (lead cap ev ELoop (fun k s => p_loop s = LNew)
            (fun s => p_panic s = true \/ p_loop s = LIdle) A _ 0 n H).
  clear n H. intros k n H. rewrite step_at. set (s := at_ n) in *.
  destruct (panic_dec s) as [P|P].
  { left. left. unfold pool_step. rewrite P. exact P. }
  destruct (pev_dec (ev n) ELoop) as [->|N].
  - left. right. unfold pool_step. rewrite P. unfold loop_step. rewrite H. reflexivity.
  - right. exists k. split; [lia|]. split; [|intros; contradiction].
    destruct (frame_loop cap s (ev n) N) as [-> |[X _]]; congruence.
Qed.

Lemma idle_ends : again ev ELoop -> forall n, p_stop (at_ n) = true -> p_loop (at_ n) = LIdle ->
  exists m, n <= m /\ (p_panic (at_ m) = true \/ exists x, p_loop (at_ m) = LSend true x).
Proof.
  intros A n T H.
  refine (lead cap ev ELoop (fun k s => p_stop s = true /\ p_loop s = LIdle)
            (fun s => p_panic s = true \/ exists x, p_loop s = LSend true x) A _ 0 n (conj T H)).
  clear n T H. intros k n (T & H). rewrite step_at. set (s := at_ n) in *.
  destruct (panic_dec s) as [P|P].
  { left. left. unfold pool_step. rewrite P. exact P. }
  destruct (pev_dec (ev n) ELoop) as [->|N].
  - left. right. unfold pool_step. rewrite P. unfold loop_step. rewrite H, T. exists (p_tiny s). reflexivity.
  - right. exists k. split; [lia|]. split; [|intros; contradiction]. split; [apply frame_stop; exact T|].
    destruct (frame_loop cap s (ev n) N) as [-> |[X Y]]; congruence.
Qed.

Lemma closeq_ends : again ev ELoop -> forall n, p_loop (at_ n) = LCloseQ ->
  exists m, n <= m /\ (p_panic (at_ m) = true \/ p_loop (at_ m) = LEnd).
Proof.
  intros A n H.
  refine (lead cap ev ELoop (fun k s => p_loop s = LCloseQ)
            (fun s => p_panic s = true \/ p_loop s = LEnd) A _ 0 n H).
  clear n H. intros k n H. rewrite step_at. set (s := at_ n) in *.
  destruct (panic_dec s) as [P|P].
  { left. left. unfold pool_step. rewrite P. exact P. }
  destruct (pev_dec (ev n) ELoop) as [->|N].
  - left. unfold pool_step. rewrite P. unfold loop_step. rewrite H.
    destruct (Nat.ltb _ _); [left; reflexivity|right; reflexivity].
  - right. exists k. split; [lia|]. split; [|intros; contradiction].
    destruct (frame_loop cap s (ev n) N) as [-> |[X _]]; congruence.
Qed.

Lemma loop_ends : again ev EDisp -> again ev ELoop -> forall n, p_stop (at_ n) = true ->
  exists m, n <= m /\ (p_panic (at_ m) = true \/ p_loop (at_ m) = LEnd).
Proof.
  intros A1 A2 n T.
  assert (E1 : forall m, n <= m -> p_loop (at_ m) = LCloseQ ->
            exists m, n <= m /\ (p_panic (at_ m) = true \/ p_loop (at_ m) = LEnd)).
  { intros m L H. destruct (closeq_ends A2 m H) as (m' & L' & X). exists m'. split; [lia|exact X]. }
  assert (E2 : forall m x, n <= m -> p_loop (at_ m) = LSend true x ->
            exists m, n <= m /\ (p_panic (at_ m) = true \/ p_loop (at_ m) = LEnd)).
  { intros m x L H. destruct (send_ends A1 A2 true x m H) as (m' & L' & [X|X]).
    - exists m'. split; [lia|auto].
    - apply (E1 m'); [lia|exact X]. }
  assert (E3 : forall m, n <= m -> p_loop (at_ m) = LIdle ->
            exists m, n <= m /\ (p_panic (at_ m) = true \/ p_loop (at_ m) = LEnd)).
  { intros m L H. destruct (idle_ends A2 m (stop_stays n m L T) H) as (m' & L' & [X|(x & X)]).
    - exists m'. split; [lia|auto].
    - apply (E2 m' x); [lia|exact X]. }
  assert (E4 : forall m, n <= m -> p_loop (at_ m) = LNew ->
            exists m, n <= m /\ (p_panic (at_ m) = true \/ p_loop (at_ m) = LEnd)).
  { intros m L H. destruct (new_ends A2 m H) as (m' & L' & [X|X]).
    - exists m'. split; [lia|auto].
    - apply (E3 m'); [lia|exact X]. }
  destruct (p_loop (at_ n)) as [|[|] x| | |] eqn:E.
  - apply (E3 n (le_n n) E).
  - apply (E2 n x (le_n n) E).
  - destruct (send_ends A1 A2 false x n E) as (m' & L' & [X|X]).
    + exists m'. split; [lia|auto].
    + apply (E4 m'); [lia|exact X].
  - apply (E4 n (le_n n) E).
  - apply (E1 n (le_n n) E).
  - exists n. auto.
Qed.

Lemma disp_ends : again ev EDisp -> forall n, p_wclosed (at_ n) = true ->
  exists m, n <= m /\ (p_panic (at_ m) = true \/ p_disp (at_ m) = DEnd).
Proof.
  intros A n H.
  refine (lead cap ev EDisp
            (fun k s => p_wclosed s = true /\ k = 3 * length (p_wq s) + dc (p_disp s))
            (fun s => p_panic s = true \/ p_disp s = DEnd) A _
            (3 * length (p_wq (at_ n)) + dc (p_disp (at_ n))) n (conj H eq_refl)).
  clear n H. intros k n (H & K). rewrite step_at.
  pose proof (inv_at cap ev n) as I. set (s := at_ n) in *.
  destruct (panic_dec s) as [P|P].
  { left. left. unfold pool_step. rewrite P. exact P. }
  destruct (pev_dec (ev n) EDisp) as [->|N].
  - pose proof (frame_wcl cap s EDisp H) as W. revert W. unfold pool_step. rewrite P. unfold disp_step.
    destruct (p_disp s) as [|y| |] eqn:D; cbn [dc] in K.
    + destruct (p_wq s) as [|z w] eqn:Q.
      * rewrite H. left. right. reflexivity.
      * intros W. right. exists (3 * length w + 3). cbn [length] in K. split; [lia|]. split; [|intros _; lia].
        split; [exact W|reflexivity].
    + intros W. right. destruct (Nat.ltb _ _).
      * exists (3 * length (p_wq s) + 1). split; [lia|]. split; [|intros _; lia]. split; [exact W|reflexivity].
      * exists (3 * length (p_wq s) + 2). split; [lia|]. split; [|intros _; lia]. split; [exact W|reflexivity].
    + intros W. right. exists (3 * length (p_wq s) + 1). split; [lia|]. split; [|intros _; lia]. split; [exact W|reflexivity].
    + intros _. left. right. exact D.
  - right. destruct (frame_disp cap s (ev n) N) as (D & _).
    exists k. split; [lia|]. split; [|intros; contradiction]. split; [apply frame_wcl; exact H|].
    rewrite (frame_wqc cap s (ev n) I N H), D. exact K.
Qed.

Lemma com_ends : again ev ECom -> forall n, p_disp (at_ n) = DEnd -> p_stop (at_ n) = true ->
  exists m, n <= m /\ (p_panic (at_ m) = true \/ (p_com (at_ m) = MEnd /\ p_disp (at_ m) = DEnd)).
Proof.
  intros A n H T.
  refine (lead cap ev ECom
            (fun k s => p_disp s = DEnd /\ p_stop s = true /\ k = 3 * length (p_lq s) + mc (p_com s))
            (fun s => p_panic s = true \/ (p_com s = MEnd /\ p_disp s = DEnd)) A _
            (3 * length (p_lq (at_ n)) + mc (p_com (at_ n))) n (conj H (conj T eq_refl))).
  clear n H T. intros k n (H & T & K). rewrite step_at.
  pose proof (inv_at cap ev n) as I. set (s := at_ n) in *.
  destruct (panic_dec s) as [P|P].
  { left. left. unfold pool_step. rewrite P. exact P. }
  pose proof (i_lcl2 s I H) as LC.
  destruct (pev_dec (ev n) ECom) as [->|N].
  - pose proof (frame_stop cap s ECom T) as W. revert W. unfold pool_step. rewrite P.
    assert (DD : p_disp (com_step s) = DEnd) by (destruct (com_disp s) as [-> _]; exact H).
    revert DD. unfold com_step.
    destruct (p_com s) as [|b y| |] eqn:D; cbn [mc] in K.
    + destruct (p_lq s) as [|z w] eqn:Q.
      * rewrite T. intros DD W. right. exists 1. cbn [length] in K. split; [lia|]. split; [|intros _; lia].
        split; [exact DD|]. split; [exact W|reflexivity].
      * intros DD W. right. exists (3 * length w + 3). cbn [length] in K. split; [lia|]. split; [|intros _; lia].
        split; [exact DD|]. split; [exact W|reflexivity].
    + intros DD W. right. exists (3 * length (p_lq s) + (if b then 1 else 2)).
      split; [destruct b; lia|]. split; [|intros _; destruct b; lia].
      split; [exact DD|]. split; [exact W|destruct b; reflexivity].
    + destruct (p_lq s) as [|z w] eqn:Q.
      * rewrite LC. intros DD W. left. right. split; [reflexivity|exact DD].
      * intros DD W. right. exists (3 * length w + 3). cbn [length] in K. split; [lia|]. split; [|intros _; lia].
        split; [exact DD|]. split; [exact W|reflexivity].
    + intros DD W. left. right. split; [exact D|exact DD].
  - right. destruct (frame_com cap s (ev n) N) as (D & _).
    destruct (frame_lqc cap s (ev n) N H) as [Lq Dd].
    exists (3 * length (p_lq (pool_step cap s (ev n))) + mc (p_com (pool_step cap s (ev n)))).
    split. { subst k. rewrite Lq. destruct D as [-> |[D0 ->]]; [lia|]. rewrite D0. cbn. lia. }
    split; [|intros; contradiction]. split; [exact Dd|]. split; [apply frame_stop; exact T|reflexivity].
Qed.

Lemma last_look : again ev EClose -> forall n, p_com (at_ n) = MEnd -> p_disp (at_ n) = DEnd ->
  p_stop (at_ n) = true ->
  exists m, n <= m /\ (p_panic (at_ m) = true \/ p_close (at_ m) = XRet).
Proof.
  intros A n H D T.
  refine (lead cap ev EClose
            (fun k s => p_com s = MEnd /\ p_disp s = DEnd /\ p_stop s = true)
            (fun s => p_panic s = true \/ p_close s = XRet) A _ 0 n (conj H (conj D T))).
  clear n H D T. intros k n (H & D & T). rewrite step_at.
  pose proof (inv_at cap ev n) as I. set (s := at_ n) in *.
  destruct (panic_dec s) as [P|P].
  { left. left. unfold pool_step. rewrite P. exact P. }
  destruct (pev_dec (ev n) EClose) as [->|N].
  - left. right. unfold pool_step. rewrite P. unfold close_step. rewrite H, D.
    destruct (p_close s) eqn:C; [|reflexivity|exact C].
    pose proof (i_close s I C). congruence.
  - right. exists k. split; [lia|]. split; [|intros; contradiction].
    split; [|split; [|apply frame_stop; exact T]].
    + destruct (pev_dec (ev n) ECom) as [-> |N'].
      * unfold pool_step. rewrite P. unfold com_step. rewrite H. exact H.
      * destruct (frame_com cap s (ev n) N') as ([-> |[X _]] & _); [exact H|congruence].
    + destruct (pev_dec (ev n) EDisp) as [-> |N'].
      * unfold pool_step. rewrite P. unfold disp_step. rewrite D. exact D.
      * destruct (frame_disp cap s (ev n) N') as (-> & _). exact D.
Qed.

Lemma close_or_panic : fair ev -> again ev EClose ->
  exists m, p_panic (at_ m) = true \/ p_close (at_ m) = XRet.
Proof.
  intros (AL & AD & AC & _) AX. destruct (AX 0) as (n & _ & E).
  destruct (panic_dec (at_ n)) as [P|P]; [exists n; auto|].
  assert (T : p_stop (at_ (S n)) = true).
  { rewrite step_at, E. pose proof (inv_at cap ev n) as I. unfold pool_step. rewrite P. unfold close_step.
    destruct (p_close (at_ n)) eqn:C; [reflexivity| |].
    - assert (p_stop (at_ n) = true) by (apply (i_close2 _ I); congruence).
      destruct (p_disp (at_ n)); try assumption. destruct (p_com (at_ n)); try assumption. reflexivity.
    - apply (i_close2 _ I). congruence. }
  destruct (loop_ends AD AL (S n) T) as (m1 & L1 & [X|X1]); [exists m1; auto|].
  destruct (disp_ends AD m1 (i_wcl2 _ (inv_at cap ev m1) X1)) as (m2 & L2 & [X|X2]); [exists m2; auto|].
  destruct (com_ends AC m2 X2 (stop_stays (S n) m2 ltac:(lia) T)) as (m3 & L3 & [X|[X3 X4]]); [exists m3; auto|].
  destruct (last_look AX m3 X3 X4 (stop_stays (S n) m3 ltac:(lia) T)) as (m4 & L4 & X).
  exists m4. exact X.
Qed.
End Close.

(** Without batches nobody else sends. *)
Record lone (s : pst) : Prop := {
  l_bw : p_bw s = [];
  l_pan : p_panic s = false;
  l_wq : match p_loop s with
         | LSend _ x => length (p_wq s) <= 1 \/ exists y, p_wq s = [y; x]
         | _ => length (p_wq s) <= 1
         end
}.

Lemma lone_step : forall cap s e, e <> EBatch -> lone s -> lone (pool_step cap s e).
Proof.
  intros cap s e N [B P W]. st s. subst bw pn. unfold pool_step. red_.
  destruct e; try congruence.
  - unfold tick_step. red_. destruct lo; try (constructor; red_; auto; fail).
    destruct sp; constructor; red_; auto.
    destruct wq as [|y [|z w]]; cbn in *; [left; lia|right; exists y; reflexivity|lia].
  - unfold loop_step. red_. destruct lo as [|f x| | |].
    + destruct sp; constructor; red_; auto.
      destruct wq as [|y [|z w]]; cbn in *; [left; lia|right; exists y; reflexivity|lia].
    + destruct (memb x (tl wq)) eqn:M; constructor; red_; auto.
      assert (length wq <= 1).
      { destruct W as [W|(y & ->)]; [exact W|]. cbn in M. rewrite Nat.eqb_refl in M. discriminate. }
      destruct f; assumption.
    + constructor; red_; auto.
    + destruct (Nat.ltb_spec 1 (length wq)); [lia|]. constructor; red_; auto.
    + constructor; red_; auto.
  - unfold disp_step. red_. destruct d; [destruct wq as [|y w]| | |]; red_.
    + destruct wc; constructor; red_; auto.
    + constructor; red_; auto. destruct lo; cbn [length] in W; try lia.
      left. destruct W as [W|(z & W)]; [lia|]. injection W as _ ->. cbn. lia.
    + destruct (Nat.ltb _ _); constructor; red_; auto.
    + constructor; red_; auto.
    + constructor; red_; auto.
  - unfold com_step. red_. destruct c; [destruct lq; [destruct sp|]| |destruct lq; [destruct lc|]|];
      constructor; red_; auto.
  - unfold com_stop. red_. destruct c; [destruct sp| | |]; constructor; red_; auto.
  - unfold write_step. red_. destruct i; cbn; constructor; red_; auto.
  - unfold close_step. red_. destruct cl; [|destruct d; [| | |destruct c]|]; constructor; red_; auto.
Qed.

Lemma lone_at : forall cap ev, never ev EBatch -> forall n, lone (pool_at cap ev n).
Proof.
  intros cap ev N n. induction n as [|n IH]; [constructor; cbn; auto|].
  rewrite step_at. apply lone_step; [apply N|exact IH].
Qed.

Lemma close_returns : forall cap ev, fair ev -> again ev EClose -> never ev EBatch ->
  exists m, p_close (pool_at cap ev m) = XRet.
Proof.
  intros cap ev F A N. destruct (close_or_panic cap ev F A) as (m & [P|P]); [|exists m; exact P].
  rewrite (l_pan _ (lone_at cap ev N m)) in P. discriminate.
Qed.
