(** Proofs about the lock file. *)
From Verif Require Import M_Lock S_Lock.
From Coq Require Import Lia Bool.

Lemma set_same s p ph : set_phase s p ph p = ph. Proof. unfold set_phase. now rewrite Nat.eqb_refl. Qed.
Lemma set_other s p ph q : q <> p -> set_phase s p ph q = lk_phase s q.
Proof. intros H. unfold set_phase. now apply Nat.eqb_neq in H as ->. Qed.
Lemma free_spec s n i : is_free s n i = true -> forall q, q < n -> holds (lk_phase s q) <> Some i.
Proof.
  unfold is_free. rewrite forallb_forall. intros H q Hq E. specialize (H q). rewrite E, Nat.eqb_refl in H. cbn in H.
  assert (false = true) by (apply H, in_seq; lia). discriminate.
Qed.
Ltac cases s p q := destruct (Nat.eq_dec q p) as [->|?]; [rewrite ?set_same in *|rewrite ?(set_other s p) in * by assumption].

(** Every file has one holder at most. *)
Definition one (n : nat) (s : locks) : Prop :=
  (forall q i, holds (lk_phase s q) = Some i -> q < n) /\
  forall p q i, holds (lk_phase s p) = Some i -> holds (lk_phase s q) = Some i -> p = q.
Lemma one_put n s p ph nm nx : one n s -> (forall i, holds ph = Some i -> p < n /\ (holds (lk_phase s p) = Some i \/ is_free s n i = true)) ->
  one n (mkLocks nm nx (set_phase s p ph)).
Proof.
  intros [H1 H2] Hp. split; cbn [lk_phase].
  - intros q i Hq. cases s p q; [now apply (Hp i)|eauto].
  - intros a b i Ha Hb. cases s p a; cases s p b; try reflexivity.
    + destruct (Hp i Ha) as [_ [E|E]]; [eapply H2; eauto|]. exfalso. eapply free_spec; [exact E| |exact Hb]. eauto.
    + destruct (Hp i Hb) as [_ [E|E]]; [eapply H2; eauto|]. exfalso. eapply free_spec; [exact E| |exact Ha]. eauto.
    + eauto.
Qed.
Lemma one_step n s o : one n s -> op_proc o < n -> one n (lstep n s o).
Proof.
  intros H Hp. destruct o as [p|p|p|p|p]; cbn [lstep op_proc] in *.
  - destruct (lk_phase s p); try exact H. destruct (lk_name s); apply one_put; try exact H; cbn; discriminate.
  - destruct (lk_phase s p) as [|j|j|j|j]; try exact H. apply one_put; [exact H|]. intros i. destruct (is_free s n j) eqn:E; cbn; intros [= <-]. auto.
  - destruct (lk_phase s p) as [|j|j|j|j] eqn:E; try exact H. destruct (lk_name s); (apply one_put; [exact H|]); cbn; intros i [= <-]; rewrite E; auto.
  - destruct (lk_phase s p) as [|j|j|j|j] eqn:E; try exact H. apply one_put; [exact H|]. cbn. discriminate.
  - apply one_put; [exact H|]. cbn. discriminate.
Qed.
Lemma one_init n : one n locks_init. Proof. split; cbn; discriminate. Qed.
Lemma run_snoc n ops o : lrun n (ops ++ [o]) = lstep n (lrun n ops) o.
Proof. unfold lrun. rewrite fold_left_app. reflexivity. Qed.
Lemma file_holder n ops : Forall (fun o => op_proc o < n) ops -> one n (lrun n ops).
Proof.
  induction ops as [|o ops IH] using rev_ind; intros H; [apply one_init|]. apply Forall_app in H as [H1 H2]. inversion H2; subst.
  rewrite run_snoc. now apply one_step; [apply IH|].
Qed.
Lemma same_file n ops p q i : Forall (fun o => op_proc o < n) ops ->
  lk_phase (lrun n ops) p = PHeld i -> lk_phase (lrun n ops) q = PHeld i -> p = q.
Proof. intros H Hp Hq. eapply (proj2 (file_holder n ops H)); [rewrite Hp|rewrite Hq]; reflexivity. Qed.

(** While the name stays. *)
Definition linked (s : locks) : Prop := forall q i, (lk_phase s q = POpened i \/ lk_phase s q = PHeld i) -> lk_name s = Some i.
Lemma linked_step n s o : linked s -> removes o = false -> linked (lstep n s o).
Proof.
  intros H Ho. destruct o as [p|p|p|p|p]; cbn [lstep removes] in *; try discriminate.
  - destruct (lk_phase s p); try exact H. destruct (lk_name s) as [k|] eqn:En; intros q i Hq; cbn [lk_phase lk_name] in *; cases s p q.
    + destruct Hq as [[= ->]|Hq]; [reflexivity|discriminate].
    + rewrite <- En. eauto.
    + destruct Hq as [[= ->]|Hq]; [reflexivity|discriminate].
    + specialize (H q i Hq). congruence.
  - destruct (lk_phase s p) as [|j|j|j|j] eqn:E; try exact H. intros q i Hq; cbn [lk_phase lk_name] in *; cases s p q; [|eauto].
    destruct (is_free s n j); destruct Hq as [Hq|Hq]; try discriminate. injection Hq as <-. eapply H. left. exact E.
  - destruct (lk_phase s p) as [|j|j|j|j] eqn:E; try exact H. intros q i Hq; cbn [lk_phase lk_name] in *; cases s p q; [destruct Hq; discriminate|eauto].
  - intros q i Hq; cbn [lk_phase lk_name] in *; cases s p q; [destruct Hq; discriminate|eauto].
Qed.
Lemma no_close n ops : Forall (fun o => op_proc o < n) ops -> Forall (fun o => removes o = false) ops -> exclusive (lrun n ops).
Proof.
  intros Hn Hr. assert (Hl : linked (lrun n ops)).
  { clear Hn. induction ops as [|o ops IH] using rev_ind; [intros q i [H|H]; discriminate|]. apply Forall_app in Hr as [H1 H2]. inversion H2; subst.
    rewrite run_snoc. apply linked_step; auto. }
  intros p q [i Hi] [j Hj]. pose proof (Hl p i (or_intror Hi)) as E1. pose proof (Hl q j (or_intror Hj)) as E2. rewrite E1 in E2. injection E2 as <-.
  eapply same_file; eauto.
Qed.

(** Calls that do not overlap. *)
Definition rest (s : locks) : Prop := forall q, lk_phase s q = PIdle \/ exists i, lk_phase s q = PHeld i /\ lk_name s = Some i.
Lemma call_step n s o : one n s -> rest s -> rest (fold_left (lstep n) (calls o) s).
Proof.
  intros H1 Hr. destruct o as [p|p|p]; cbn [calls fold_left].
  - destruct (Hr p) as [Ep|(i & Ep & En)].
    + cbn [lstep]. rewrite Ep. destruct (lk_name s) as [k|] eqn:En; cbn [lk_phase]; rewrite set_same; intros q; cbn [lk_phase lk_name].
      * set (s1 := mkLocks (Some k) (lk_next s) (set_phase s p (POpened k))). destruct (Nat.eq_dec q p) as [->|Eq].
        -- rewrite set_same. destruct (is_free s1 n k); eauto.
        -- rewrite set_other by exact Eq. cbn [s1 lk_phase]. rewrite set_other by exact Eq. destruct (Hr q) as [E|(i & E & E')]; [auto|right]. exists i. split; congruence.
      * set (k := lk_next s). set (s1 := mkLocks (Some k) (S k) (set_phase s p (POpened k))). destruct (Nat.eq_dec q p) as [->|Eq].
        -- rewrite set_same. destruct (is_free s1 n k); eauto.
        -- rewrite set_other by exact Eq. cbn [s1 lk_phase]. rewrite set_other by exact Eq. destruct (Hr q) as [E|(i & E & E')]; [auto|right]. congruence.
    + cbn [lstep]. rewrite Ep. cbn [lstep]. rewrite Ep. exact Hr.
  - destruct (Hr p) as [Ep|(i & Ep & En)]; cbn [lstep]; rewrite Ep; [cbn [lstep]; rewrite Ep; exact Hr|]. rewrite En. cbn [lstep lk_phase]. rewrite set_same.
    intros q. cbn [lk_phase lk_name]. destruct (Nat.eq_dec q p) as [->|Eq]; [rewrite set_same; now left|]. rewrite set_other by exact Eq. cbn [lk_phase]. rewrite set_other by exact Eq.
    destruct (Hr q) as [E|(j & E & E')]; [auto|]. exfalso. apply Eq. assert (i = j) as -> by congruence. destruct H1 as [_ H1]. eapply H1; [rewrite E|rewrite Ep]; reflexivity.
  - intros q. cbn [lstep lk_phase lk_name]. cases s p q; [now left|apply Hr].
Qed.
Lemma whole_calls n cs : Forall (fun o => cop_proc o < n) cs -> exclusive (lrun n (flat_map calls cs)).
Proof.
  intros Hn. assert (H : one n (lrun n (flat_map calls cs)) /\ rest (lrun n (flat_map calls cs))).
  { induction cs as [|o cs IH] using rev_ind; [split; [apply one_init|intros q; now left]|]. apply Forall_app in Hn as [H1 H2]. inversion H2; subst.
    destruct (IH H1) as [I1 I2]. rewrite flat_map_app. cbn [flat_map]. rewrite app_nil_r. unfold lrun in *. rewrite fold_left_app.
    split; [|now apply call_step]. assert (Ho : Forall (fun x => op_proc x < n) (calls o)) by (destruct o; repeat constructor; assumption).
    revert I1. generalize (fold_left (lstep n) (flat_map calls cs) locks_init). induction Ho as [|x r Hx _ IHr]; intros s Hs; [exact Hs|]. cbn [fold_left]. apply IHr, one_step; assumption. }
  destruct H as [[_ H1] H2]. intros p q [i Hi] [j Hj]. destruct (H2 p) as [E|(i' & E & E')]; [congruence|]. destruct (H2 q) as [F|(j' & F & F')]; [congruence|].
  apply (H1 p q i'); [rewrite E; reflexivity|rewrite F; cbn; congruence].
Qed.

(** One process closes while another opens, then a third one opens. *)
Definition race : list lop := [LOpen 0; LFlock 0; LOpen 1; LRemove 0; LClose 0; LFlock 1; LOpen 2; LFlock 2].
Lemma race_bad : ~ exclusive (lrun 3 race).
Proof. intros H. specialize (H 1 2 ltac:(exists 0; reflexivity) ltac:(exists 1; reflexivity)). discriminate. Qed.
(** Two processes: the lock file is removed before Close returns. *)
Definition stuck : list lop := race ++ [LRemove 2; LRemove 1; LClose 1].
Lemma stuck_bad : lk_phase (lrun 3 stuck) 1 = PStuck 0.
Proof. reflexivity. Qed.
