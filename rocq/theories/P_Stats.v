(** Proofs about the statsd packets (C78). *)
From Verif Require Import M_Bytes M_Stats S_Streams.
From Coq Require Import Lia.
Open Scope nat_scope.

Record accounted (max : nat) (ls : list bytes) (failed : nat) (t : transport)
  (gs : list (fate * list bytes)) (last : list bytes) : Prop := mkAcc {
  ac_all : concat (map snd gs) ++ last = ls;
  ac_fits : Forall (fun g => fits max (snd g)) gs;
  ac_last : fits max last;
  ac_buf : concat last = t_buf t;
  ac_queue : map (@concat N) (of_fate Queued gs) = t_queue t;
  ac_wire : Forall2 datagram (t_wire t) (filter not_nil (of_fate Written gs));
  ac_lost : length (of_fate Lost gs) = t_lost t;
  ac_failed : length (of_fate Failed gs) <= failed;
  ac_order : forall a b, gs = a ++ b -> (exists g, In (Queued, g) a) -> Forall (fun g => fst g = Queued \/ fst g = Lost) b }.

Lemma of_fate_app : forall f a b, of_fate f (a ++ b) = of_fate f a ++ of_fate f b.
Proof. intros. unfold of_fate. rewrite filter_app, map_app. reflexivity. Qed.

Lemma flush_acc : forall cap max ls n t gs last g rest,
  accounted max ls n t gs last -> last = g ++ rest -> fits max g -> fits max rest ->
  exists gs', accounted max ls n (flushBuf cap t (length (concat g))) gs' rest.
Proof.
  intros cap max ls n t gs last g rest A -> Fg Fr.
  assert (B1 : firstn (length (concat g)) (t_buf t) = concat g).
  { rewrite <- (ac_buf _ _ _ _ _ _ A), concat_app. rewrite firstn_app, Nat.sub_diag, firstn_all. cbn. apply app_nil_r. }
  assert (B2 : skipn (length (concat g)) (t_buf t) = concat rest).
  { rewrite <- (ac_buf _ _ _ _ _ _ A), concat_app. rewrite skipn_app, Nat.sub_diag, skipn_all. reflexivity. }
  assert (Ord : forall f, f = Queued \/ f = Lost -> forall a b, gs ++ [(f, g)] = a ++ b -> (exists g, In (Queued, g) a) ->
     Forall (fun g => fst g = Queued \/ fst g = Lost) b).
  { intros f Hf a b E H. destruct b as [|x b] using rev_ind; [constructor|]. clear IHb.
    rewrite app_assoc in E. apply app_inj_tail in E. destruct E as [E <-].
    apply Forall_app. split; [|constructor; [exact Hf|constructor]].
    eapply (ac_order _ _ _ _ _ _ A); eauto. }
  unfold flushBuf. rewrite B1, B2. destruct (length (t_queue t) <? cap).
  - exists (gs ++ [(Queued, g)]).
    split; cbn [t_buf t_queue t_lost t_wire]; try (rewrite of_fate_app; cbn [of_fate filter is_fate fst map snd]); rewrite ?app_nil_r; try apply A.
    + rewrite map_app, concat_app. cbn. rewrite app_nil_r, <- app_assoc. apply A.
    + apply Forall_app. split; [apply A|]. constructor; [exact Fg|constructor].
    + exact Fr.
    + reflexivity.
    + rewrite map_app. cbn. f_equal. apply A.
    + apply Ord. auto.
  - exists (gs ++ [(Lost, g)]).
    split; cbn [t_buf t_queue t_lost t_wire]; try (rewrite of_fate_app; cbn [of_fate filter is_fate fst map snd]); rewrite ?app_nil_r; try apply A.
    + rewrite map_app, concat_app. cbn. rewrite app_nil_r, <- app_assoc. apply A.
    + apply Forall_app. split; [apply A|]. constructor; [exact Fg|constructor].
    + exact Fr.
    + reflexivity.
    + rewrite app_length. cbn. rewrite (ac_lost _ _ _ _ _ _ A). lia.
    + apply Ord. auto.
Qed.

Lemma fits_nil : forall max, fits max []. Proof. intros. left. cbn. lia. Qed.

Lemma add_acc : forall cap max ls n t gs last line,
  accounted max ls n t gs last ->
  exists gs' last', accounted max (ls ++ [line]) n (add_metric cap max t line) gs' last'.
Proof.
  intros cap max ls n t gs last line A. unfold add_metric, checkBuf. cbn [t_buf].
  set (t1 := mkT (t_buf t ++ line) (t_queue t) (t_lost t) (t_wire t)).
  assert (Hb : concat (last ++ [line]) = t_buf t1).
  { rewrite concat_app. cbn. rewrite app_nil_r, (ac_buf _ _ _ _ _ _ A). reflexivity. }
  destruct (max <? length (t_buf t ++ line)) eqn:L.
  - (* the old buffer goes *)
    assert (B1 : length (t_buf t) = length (concat last)) by (rewrite (ac_buf _ _ _ _ _ _ A); reflexivity).
    rewrite B1.
    assert (A2 : exists gs', accounted max (ls ++ [line]) n (flushBuf cap t1 (length (concat last))) gs' [line] /\ True).
    { assert (X1 : firstn (length (concat last)) (t_buf t1) = concat last).
      { rewrite <- Hb, concat_app. rewrite firstn_app, Nat.sub_diag, firstn_all. cbn. apply app_nil_r. }
      assert (X2 : skipn (length (concat last)) (t_buf t1) = line).
      { rewrite <- Hb, concat_app. rewrite skipn_app, Nat.sub_diag, skipn_all. cbn. apply app_nil_r. }
      set (t2 := mkT (t_buf t) (t_queue t) (t_lost t) (t_wire t)).
      destruct (flush_acc cap max ls n t gs last last [] A) as (gs' & B); [symmetry; apply app_nil_r|apply A|apply fits_nil|].
      exists gs'. split; [|exact I].
      unfold flushBuf in *. rewrite X1, X2. change (t_queue t1) with (t_queue t). change (t_lost t1) with (t_lost t). change (t_wire t1) with (t_wire t).
      assert (X3 : firstn (length (concat last)) (t_buf t) = concat last).
      { rewrite <- (ac_buf _ _ _ _ _ _ A). apply firstn_all. }
      rewrite X3 in B.
      destruct (length (t_queue t) <? cap); destruct B as [H1 H2 H3 H4 H5 H6 H7 H8 H9]; cbn [t_buf t_queue t_lost t_wire] in *;
      (split; cbn [t_buf t_queue t_lost t_wire]; auto;
       [ rewrite app_nil_r in H1; rewrite H1; reflexivity | left; cbn; lia | cbn; apply app_nil_r ]). }
    destruct A2 as (gs' & A2 & _). eauto.
  - apply Nat.ltb_ge in L. exists gs, (last ++ [line]).
    destruct A as [H1 H2 H3 H4 H5 H6 H7 H8 H9]. split; auto.
    + rewrite app_assoc, H1. reflexivity.
    + right. rewrite Hb. exact L.
Qed.

Lemma tick_acc : forall cap max ls n t gs last, accounted max ls n t gs last ->
  exists gs' last', accounted max ls n (flush_tick cap t) gs' last'.
Proof.
  intros cap max ls n t gs last A. unfold flush_tick.
  destruct (t_buf t) eqn:E; [eauto|]. rewrite <- E.
  replace (length (t_buf t)) with (length (concat last)) by (rewrite (ac_buf _ _ _ _ _ _ A); reflexivity).
  destruct (flush_acc cap max ls n t gs last last [] A) as (gs' & B); [symmetry; apply app_nil_r|apply A|apply fits_nil|].
  eauto.
Qed.

(** The first queued packet changes its fate. *)
Lemma first_queued : forall gs b q, map (@concat N) (of_fate Queued gs) = b :: q ->
  exists a g r, gs = a ++ (Queued, g) :: r /\ of_fate Queued a = [] /\ concat g = b /\ map (@concat N) (of_fate Queued r) = q.
Proof.
  induction gs as [|[f g] gs IH]; intros b q E; [discriminate|].
  destruct f; unfold of_fate in E; cbn [filter is_fate fst] in E; fold (of_fate Queued gs) in E;
  try (destruct (IH b q E) as (a & g' & r & -> & H1 & H2 & H3);
       eexists (_ :: a), g', r; split; [reflexivity|]; split; [|auto]; unfold of_fate in *; cbn; exact H1).
  cbn [map snd] in E. injection E as E1 E2. exists [], g, gs. auto.
Qed.

Lemma no_queued : forall a, of_fate Queued a = [] -> ~ exists g, In (Queued, g) a.
Proof.
  intros a H (g & Hg). assert (X : In g (of_fate Queued a)); [|rewrite H in X; contradiction].
  unfold of_fate. apply in_map_iff. exists (Queued, g). split; [reflexivity|]. apply filter_In. auto.
Qed.

Lemma tail_fates : forall gs, Forall (fun g : fate * list bytes => fst g = Queued \/ fst g = Lost) gs ->
  of_fate Written gs = [] /\ of_fate Failed gs = [].
Proof.
  induction 1 as [|[f g] gs [H|H] _ [I1 I2]]; [auto| |]; cbn in H; subst f; unfold of_fate in *; cbn; auto.
Qed.

Lemma send_acc : forall max ls n t gs last (ok : bool), Forall line_ok ls ->
  accounted max ls n t gs last ->
  exists gs', accounted max ls (n + (if ok then 0 else 1)) (send_one t ok) gs' last.
Proof.
  intros max ls n t gs last ok Hl A. unfold send_one.
  destruct (t_queue t) as [|b q] eqn:Q.
  - exists gs. destruct A; split; auto. lia.
  - destruct (first_queued gs b q) as (a & g & r & -> & Ha & <- & Hr).
    { rewrite (ac_queue _ _ _ _ _ _ A). exact Q. }
    destruct A as [H1 H2 H3 H4 H5 H6 H7 H8 H9].
    assert (Tr : Forall (fun g => fst g = Queued \/ fst g = Lost) r).
    { apply (H9 (a ++ [(Queued, g)]) r); [rewrite <- app_assoc; reflexivity|].
      exists g. apply in_or_app. right. left. reflexivity. }
    destruct (tail_fates r Tr) as [TW TF].
    set (f := if ok then Written else Failed).
    exists (a ++ (f, g) :: r).
    change ((Queued, g) :: r) with ([(Queued, g)] ++ r) in *. change ((f, g) :: r) with ([(f, g)] ++ r).
    assert (Hf : f <> Queued /\ f <> Lost) by (unfold f; destruct ok; split; discriminate).
    rewrite !of_fate_app, TW, TF in *. rewrite !app_nil_r in *.
    assert (Hq : of_fate Queued [(f, g)] = []) by (unfold f; destruct ok; reflexivity).
    assert (Hlo : of_fate Lost [(f, g)] = []) by (unfold f; destruct ok; reflexivity).
    cbn [of_fate filter is_fate fst map snd] in H6, H7, H8. rewrite ?app_nil_r in H6, H7, H8.
    split; cbn [t_buf t_queue t_lost t_wire]; auto.
    + rewrite !map_app, !concat_app in *. cbn [map snd concat] in *. exact H1.
    + apply Forall_app in H2. destruct H2 as [X Y]. apply Forall_app. split; [exact X|].
      inversion Y; subst. constructor; auto.
    + rewrite !of_fate_app, Hq, Ha. cbn. exact Hr.
    + rewrite !of_fate_app, TW. unfold f. cbn [of_fate].
      destruct (concat g) as [|c0 cs] eqn:Cg.
      * (* no lines at all in the packet *)
        assert (g = []) as ->.
        { destruct g as [|l g']; [reflexivity|].
          assert (In l ls). { rewrite <- H1. apply in_or_app. left. apply in_concat. exists (l :: g').
            split; [|left; reflexivity]. apply in_map_iff. exists (Queued, l :: g'). split; [reflexivity|].
            apply in_or_app. right. left. reflexivity. }
          rewrite Forall_forall in Hl. destruct (Hl l H) as (t0 & ->). cbn in Cg.
          rewrite <- app_assoc in Cg. destruct t0; discriminate. }
        destruct ok; unfold of_fate; cbn; rewrite ?app_nil_r; rewrite ?filter_app; cbn; rewrite ?app_nil_r; exact H6.
      * destruct ok; unfold of_fate at 2; cbn [filter is_fate fst map snd]; rewrite ?app_nil_r; [|exact H6].
        rewrite filter_app. apply Forall2_app; [exact H6|].
        destruct g as [|l g']; [discriminate|]. cbn [filter not_nil]. constructor; [|constructor].
        (* the last byte is a newline *)
        assert (Lc : exists u, concat (l :: g') = u ++ [10%N]).
        { destruct (exists_last (l := l :: g')) as (g0 & lst & Eg); [discriminate|].
          assert (In lst ls). { rewrite <- H1. apply in_or_app. left. apply in_concat. exists (l :: g').
            split; [|rewrite Eg; apply in_or_app; right; left; reflexivity]. apply in_map_iff. exists (Queued, l :: g'). split; [reflexivity|].
            apply in_or_app. right. left. reflexivity. }
          rewrite Forall_forall in Hl. destruct (Hl lst H) as (t0 & ->).
          exists (concat g0 ++ t0). rewrite Eg, concat_app. cbn. rewrite app_nil_r, app_assoc. reflexivity. }
        destruct Lc as (u & Eu). rewrite <- Cg, Eu. unfold datagram. rewrite Eu, app_length. cbn [length].
        replace (length u + 1 - 1) with (length u) by lia.
        rewrite firstn_app, Nat.sub_diag, firstn_all. cbn. rewrite app_nil_r. reflexivity.
    + rewrite !of_fate_app, Hlo. cbn. rewrite app_length in H7. rewrite app_length. exact H7.
    + rewrite !of_fate_app, TF, app_nil_r, app_length. unfold f. destruct ok; cbn; lia.
    + intros x y E (g1 & Hg). change ([(f, g)] ++ r) with ((f, g) :: r) in E.
      (* the queued packet in x lies after a *)
      assert (exists z, x = a ++ (f, g) :: z /\ r = z ++ y) as (z & -> & Ez).
      { clear - E Hg Ha Hf. revert x E Hg. induction a as [|p a IH]; intros x E Hg.
        - destruct x as [|p0 x]; [contradiction|]. cbn in E. injection E as <- E. exists x. auto.
        - destruct x as [|p0 x]; [contradiction|]. cbn in E. injection E as <- E.
          assert (Ha' : of_fate Queued a = []).
          { destruct p as [[] ?]; try exact Ha; discriminate Ha. }
          destruct Hg as [->|Hg].
          + unfold of_fate in Ha. cbn in Ha. discriminate.
          + destruct (IH Ha' x E Hg) as (z & -> & Ez). exists z. auto. }
      apply (H9 (a ++ (Queued, g) :: z) y).
      * rewrite Ez, <- app_assoc. reflexivity.
      * exists g. apply in_or_app. right. left. reflexivity.
Qed.

Lemma acc_new : forall max, accounted max [] 0 t_new [] [].
Proof.
  intros. split; cbn; auto using fits_nil; try constructor.
  intros a b E (g & Hg). destruct a; [contradiction|discriminate].
Qed.

Lemma lines_app : forall a b, lines (a ++ b) = lines a ++ lines b.
Proof. intros. unfold lines. rewrite map_app, concat_app. reflexivity. Qed.
Lemma fails_app : forall a b, fails (a ++ b) = fails a + fails b.
Proof. intros. unfold fails. rewrite filter_app, app_length. reflexivity. Qed.

Lemma run_acc : forall cap max ops, Forall line_ok (lines ops) ->
  exists gs last, accounted max (lines ops) (fails ops) (srun cap max ops) gs last.
Proof.
  intros cap max ops. induction ops as [|o ops IH] using rev_ind; intros Hl.
  - exists [], []. apply acc_new.
  - rewrite lines_app in Hl. apply Forall_app in Hl. destruct Hl as [Hl Ho].
    destruct (IH Hl) as (gs & last & A). unfold srun. rewrite fold_left_app. cbn [fold_left]. fold (srun cap max ops).
    rewrite lines_app, fails_app. destruct o as [l| |ok]; cbn [sstep].
    + cbn. rewrite Nat.add_0_r. eapply add_acc; eauto.
    + cbn. rewrite Nat.add_0_r, app_nil_r. eapply tick_acc; eauto.
    + cbn [lines map concat]. rewrite app_nil_r.
      destruct (send_acc _ _ _ _ _ _ ok Hl A) as (gs' & B). exists gs', last.
      replace (fails [SSend ok]) with (if ok then 0 else 1) by (destruct ok; reflexivity). exact B.
Qed.

Lemma packets : forall cap max ops, Forall line_ok (lines ops) ->
  exists gs last,
    concat (map snd gs) ++ last = lines ops /\ Forall (fun g => fits max (snd g)) gs /\
    Forall2 datagram (t_wire (srun cap max ops)) (filter not_nil (of_fate Written gs)) /\
    map (@concat N) (of_fate Queued gs) = t_queue (srun cap max ops) /\
    concat last = t_buf (srun cap max ops) /\
    length (of_fate Lost gs) = t_lost (srun cap max ops) /\
    (length (of_fate Failed gs) <= fails ops).
Proof.
  intros cap max ops H. destruct (run_acc cap max ops H) as (gs & last & A). exists gs, last.
  destruct A as [H1 H2 H3 H4 H5 H6 H7 H8 H9]. auto 10.
Qed.

Lemma uncounted : exists ops, Forall line_ok (lines ops) /\ lines ops <> [] /\
  let t := srun 10 1400 ops in
  t_wire t = [] /\ t_queue t = [] /\ t_buf t = [] /\ t_lost t = 0.
Proof.
  exists [SMetric [97; 58; 49; 10]%N; STick; SSend false]. split; [|split; [discriminate|vm_compute; auto]].
  constructor; [exists [97; 58; 49]%N; reflexivity|constructor].
Qed.
