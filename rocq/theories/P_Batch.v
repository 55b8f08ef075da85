(** Proofs about batched delivery. *)
From Coq Require Import ZArith List Bool Lia Permutation.
From Verif Require Import M_Batch S_Batch.
Import ListNotations.
Open Scope Z_scope.

Lemma g_find_delete g t u : g_find (g_delete g t) u = if t =? u then None else g_find g u.
Proof.
  induction g as [|[v b] r IH]; cbn [g_find g_delete]; [now destruct (t =? u)|].
  destruct (Z.eqb_spec v t) as [->|Hv].
  - rewrite IH. destruct (Z.eqb_spec t u); reflexivity.
  - cbn [g_find]. rewrite IH. destruct (Z.eqb_spec v u) as [->|]; [|reflexivity].
    destruct (Z.eqb_spec t u); [congruence|reflexivity].
Qed.

Lemma at_app t a b : at_time t (a ++ b) = at_time t a ++ at_time t b.
Proof. apply filter_app. Qed.
Lemma at_own t l : Forall (fun m => bm_time m = t) l -> at_time t l = l.
Proof.
  induction 1 as [|m l Hm H IH]; [reflexivity|]. cbn [at_time filter]. rewrite Hm, Z.eqb_refl.
  f_equal. exact IH.
Qed.
Lemma at_other t u l : Forall (fun m => bm_time m = u) l -> u <> t -> at_time t l = [].
Proof.
  intros H Hn. induction H as [|m l Hm H IH]; [reflexivity|]. cbn [at_time filter]. rewrite Hm.
  destruct (Z.eqb_spec u t); [contradiction|exact IH].
Qed.

(** Between the steps of a smooth run; [acc]: the messages added so far. *)
Record inv (s : bstate) (acc : list bmsg) : Prop := {
  i_time : forall t b, g_find (bs_group s) t = Some b -> Forall (fun m => bm_time m = t) (bs_heap s b);
  i_bound : forall t b, g_find (bs_group s) t = Some b -> (b < bs_next s)%nat;
  i_inj : forall t u b, g_find (bs_group s) t = Some b -> g_find (bs_group s) u = Some b -> t = u;
  i_lock : forall t b, bs_lock s = Some (t, b) -> g_find (bs_group s) t = Some b;
  i_eq : forall t, at_time t (delivered s ++ on_way s) ++ held s t = at_time t acc
}.

Lemma inv_init o now : inv (binit o now) [].
Proof.
  constructor; unfold binit; cbn [bs_group bs_heap bs_next bs_lock bs_out bs_send bs_queue g_find].
  - intros. constructor.
  - intros t b. destruct (_ =? _); [|discriminate]. intros E. injection E as <-. lia.
  - intros t u b. destruct (Z.eqb_spec (timeID o now 0) t), (Z.eqb_spec (timeID o now 0) u); congruence.
  - discriminate.
  - intros t. unfold delivered, on_way, held. cbn. destruct (_ =? _); reflexivity.
Qed.

Lemma inv_add o s acc now delay id size : inv s acc -> bs_lock s = None ->
  inv (do_add o s now delay id size) (acc ++ [mkBM (timeID o now delay) id size]).
Proof.
  intros [IT IB IJ IL IE] HL. unfold do_add. set (t := timeID o now delay). set (m := mkBM t id size).
  assert (Hm : bm_time m = t) by reflexivity. clearbody t.
  destruct (g_find (bs_group s) t) as [b|] eqn:Ef.
  - constructor; cbn [bs_group bs_heap bs_next bs_lock].
    + intros u c Eu. unfold h_set. destruct (Nat.eqb_spec c b) as [->|]; [|now apply IT].
      assert (u = t) by (eapply IJ; eassumption). subst u.
      apply Forall_app. split; [now apply IT|]. constructor; [exact Hm|constructor].
    + exact IB.
    + exact IJ.
    + intros u c. destruct (_ || _); [|discriminate]. intros E. injection E as <- <-. exact Ef.
    + intros u. unfold delivered, on_way, held. cbn [bs_group bs_heap bs_out bs_send bs_queue].
      rewrite (at_app u acc), <- IE. unfold delivered, on_way, held.
      cbn [at_time filter]. rewrite Hm. destruct (Z.eqb_spec t u) as [->|Hne].
      * rewrite Ef. unfold h_set. rewrite Nat.eqb_refl. now rewrite <- app_assoc.
      * rewrite app_nil_r. f_equal. destruct (g_find (bs_group s) u) as [c|] eqn:Eu; [|reflexivity].
        unfold h_set. destruct (Nat.eqb_spec c b) as [->|]; [|reflexivity].
        exfalso. apply Hne. eapply IJ; eassumption.
  - assert (Hfr : forall u c, g_find (bs_group s) u = Some c -> c <> bs_next s)
      by (intros u c Eu; apply IB in Eu; lia).
    constructor; cbn [bs_group bs_heap bs_next bs_lock g_find].
    + intros u c. destruct (Z.eqb_spec t u) as [<-|Hne].
      * intros E. injection E as <-. unfold h_set. rewrite Nat.eqb_refl. constructor; [exact Hm|constructor].
      * intros Eu. unfold h_set. destruct (Nat.eqb_spec c (bs_next s)) as [->|]; [|now apply IT].
        now apply Hfr in Eu.
    + intros u c. destruct (_ =? _); [intros E; injection E as <-; lia|]. intros Eu. apply IB in Eu. lia.
    + intros u v c. destruct (Z.eqb_spec t u), (Z.eqb_spec t v); intros E1 E2; try congruence.
      * injection E1 as <-. now apply Hfr in E2.
      * injection E2 as <-. now apply Hfr in E1.
      * eapply IJ; eassumption.
    + intros u c. destruct (_ || _); [|discriminate]. intros E. injection E as <- <-. now rewrite Z.eqb_refl.
    + intros u. unfold delivered, on_way, held. cbn [bs_group bs_heap bs_out bs_send bs_queue g_find].
      rewrite (at_app u acc), <- IE. unfold delivered, on_way, held. cbn [at_time filter]. rewrite Hm.
      destruct (Z.eqb_spec t u) as [->|Hne].
      * rewrite Ef. unfold h_set. rewrite Nat.eqb_refl. now rewrite app_nil_r.
      * rewrite app_nil_r. f_equal. destruct (g_find (bs_group s) u) as [c|] eqn:Eu; [|reflexivity].
        unfold h_set. destruct (Nat.eqb_spec c (bs_next s)) as [->|]; [|reflexivity]. now apply Hfr in Eu.
Qed.

(** A batch of the group goes to the queue. *)
Lemma inv_push s s' acc t b : inv s acc -> g_find (bs_group s) t = Some b ->
  bs_heap s' = bs_heap s -> bs_next s' = bs_next s -> bs_group s' = g_delete (bs_group s) t ->
  concat (bs_queue s') = concat (bs_queue s) ++ bs_heap s b -> bs_send s' = bs_send s -> bs_out s' = bs_out s -> bs_lock s' = None ->
  inv s' acc.
Proof.
  intros [IT IB IJ IL IE] Hf H1 H2 H3 H4 H5 H6 H7.
  assert (G : forall u c, g_find (g_delete (bs_group s) t) u = Some c -> g_find (bs_group s) u = Some c /\ t <> u).
  { intros u c. rewrite g_find_delete. destruct (Z.eqb_spec t u); [discriminate|auto]. }
  constructor; rewrite ?H1, ?H2, ?H3, ?H7.
  - intros u c E. apply IT, (G u c E).
  - intros u c E. eapply IB, (G u c E).
  - intros u v c E1 E2. eapply IJ; [apply (G u c E1)|apply (G v c E2)].
  - discriminate.
  - intros u. rewrite <- IE. unfold delivered, on_way, held. rewrite H1, H3, H4, H5, H6, g_find_delete, !at_app.
    destruct (Z.eqb_spec t u) as [->|Hne].
    + rewrite Hf. rewrite (at_own u (bs_heap s b)) by now apply IT. now rewrite app_nil_r, <- !app_assoc.
    + rewrite (at_other u t (bs_heap s b)) by (try apply IT; assumption). now rewrite !app_nil_r, <- !app_assoc.
Qed.

(** Everything else leaves the group. *)
Lemma inv_move s s' acc : inv s acc ->
  bs_heap s' = bs_heap s -> bs_next s' = bs_next s -> bs_group s' = bs_group s -> bs_lock s' = bs_lock s ->
  delivered s' ++ on_way s' = delivered s ++ on_way s -> inv s' acc.
Proof.
  intros [IT IB IJ IL IE] H1 H2 H3 H4 H5. constructor; unfold held; rewrite ?H1, ?H2, ?H3, ?H4, ?H5; assumption.
Qed.

Lemma bstep_no_panic o s p s' : bstep o s p = Some s' -> bs_panic s = false.
Proof. unfold bstep. destruct (bs_panic s); [discriminate|reflexivity]. Qed.

Lemma push_queue s c : bs_panic (push s c) = false ->
  bs_heap (push s c) = bs_heap s /\ bs_next (push s c) = bs_next s /\ bs_group (push s c) = bs_group s /\
  concat (bs_queue (push s c)) = concat (bs_queue s) ++ c /\ bs_send (push s c) = bs_send s /\ bs_out (push s c) = bs_out s.
Proof.
  unfold push. destruct c as [|m c]; [intros _; now rewrite app_nil_r|]. destruct (bs_qclosed s); [discriminate|].
  intros _. cbn [bs_heap bs_next bs_group bs_queue bs_send bs_out]. rewrite concat_app. cbn [concat]. now rewrite app_nil_r.
Qed.

Lemma panic_stays o ps : forall s s', brun o s ps = Some s' -> bs_panic s' = false -> bs_panic s = false.
Proof.
  destruct ps as [|p ps]; intros s s'; cbn [brun]; [congruence|].
  destruct (bstep o s p) eqn:E; [|discriminate]. intros _ _. now apply bstep_no_panic in E.
Qed.

Lemma smooth_inv o ps : forall s s' acc, inv s acc -> bs_picked s = None -> smooth o s ps -> brun o s ps = Some s' -> bs_panic s' = false ->
  inv s' (acc ++ added o ps).
Proof.
  remember (length ps) as n eqn:En. revert ps En.
  induction n as [n IH] using (well_founded_induction lt_wf).
  intros ps En s s' acc HI HP HS HR HN. destruct ps as [|p r].
  { cbn in HR. injection HR as <-. now rewrite app_nil_r. }
  cbn [smooth] in HS. destruct HS as [HC HS]. cbn [brun] in HR. destruct (bstep o s p) as [s1|] eqn:E; [|discriminate].
  pose proof (panic_stays _ _ _ _ HR HN) as HN1. pose proof (bstep_no_panic _ _ _ _ E) as HN0.
  unfold bstep in E. rewrite HN0 in E.
  assert (NX : forall acc', inv s1 acc' -> bs_picked s1 = None -> inv s' (acc' ++ added o r)).
  { intros acc' H1 H2. apply (IH (length r)) with (s := s1); try assumption; [subst n; cbn; lia|reflexivity]. }
  destruct p as [now delay id size| |now t| | |ok| |now]; cbn [added].
  - destruct (bs_lock s) eqn:HL; [discriminate|]. injection E as <-.
    change (mkBM (timeID o now delay) id size :: added o r) with ([mkBM (timeID o now delay) id size] ++ added o r).
    rewrite app_assoc. apply NX; [now apply inv_add|]. unfold do_add. destruct (g_find _ _); exact HP.
  - destruct (bs_lock s) as [[t b]|] eqn:HL; [|discriminate]. destruct (_ && _); [discriminate|]. injection E as <-.
    apply NX; [|unfold with_lock, with_group, push; destruct (bs_heap s b); [exact HP|destruct (bs_qclosed s); exact HP]].
    cbn [with_lock with_group bs_panic] in HN1. destruct (push_queue s (bs_heap s b) HN1) as (P1 & P2 & P3 & P4 & P5 & P6).
    eapply inv_push; [exact HI|apply (i_lock _ _ HI); exact HL|..];
      cbn [with_lock with_group bs_heap bs_next bs_group bs_queue bs_send bs_out bs_lock]; assumption || reflexivity.
  - (* a pick and its commit *)
    destruct r as [|q r]; [contradiction|]. destruct q; try contradiction.
    rewrite HP in E. destruct (g_find (bs_group s) t) as [b|] eqn:Ef; [|discriminate].
    destruct (_ && _); [|discriminate]. injection E as <-.
    cbn [brun] in HR. destruct (bstep o (with_picked s (Some (t, b))) BCommit) as [s2|] eqn:E2; [|discriminate].
    cbn [smooth] in HS. rewrite E2 in HS. destruct HS as [_ HS].
    pose proof (panic_stays _ _ _ _ HR HN) as HN2. cbn [added].
    assert (I2 : inv s2 acc /\ bs_picked s2 = None).
    { unfold bstep in E2. cbn [with_picked bs_panic bs_picked bs_lock bs_heap bs_group] in E2. rewrite HN0 in E2.
      destruct (bs_lock s) as [[tl bl]|] eqn:HL; [discriminate|].
      destruct (bs_heap s b) as [|m c] eqn:Hb.
      - injection E2 as <-. split; [|reflexivity].
        eapply inv_push; [exact HI|exact Ef|..]; cbn [with_picked with_group bs_heap bs_next bs_group bs_queue bs_send bs_out bs_lock]; try reflexivity; try assumption.
        now rewrite Hb, app_nil_r.
      - destruct (full_queue _); [discriminate|]. injection E2 as <-. split; [|reflexivity].
        cbn [with_picked with_group bs_panic] in HN2.
        destruct (push_queue (with_picked s (Some (t, b))) (m :: c) HN2) as (P1 & P2 & P3 & P4 & P5 & P6). cbn [with_picked bs_heap bs_next bs_group bs_queue bs_send bs_out] in P1, P2, P3, P4, P5, P6.
        assert (PL : bs_lock (push (with_picked s (Some (t, b))) (m :: c)) = bs_lock s) by (unfold push; destruct (bs_qclosed _); reflexivity).
        eapply inv_push; [exact HI|exact Ef|..]; cbn [with_picked with_group bs_heap bs_next bs_group bs_queue bs_send bs_out bs_lock];
          rewrite ?Hb; try assumption; try reflexivity. exact (eq_trans PL HL). }
    destruct I2 as [I2 P2]. apply (IH (length r)) with (s := s2); try assumption; [subst n; cbn; lia|reflexivity].
  - rewrite HP in E. discriminate.
  - destruct (bs_queue s) as [|c q] eqn:HQ.
    + destruct (_ && _); [|discriminate]. injection E as <-. apply NX; [|exact HP].
      eapply inv_move; [exact HI|reflexivity..|]. unfold delivered, on_way. cbn [bs_out bs_send bs_queue]. now rewrite HQ.
    + injection E as <-. apply NX; [|exact HP]. eapply inv_move; [exact HI|reflexivity..|].
      unfold delivered, on_way. cbn [bs_out bs_send bs_queue]. destruct (Nat.ltb_spec (length (bs_send s)) defaultPoolCapacity); [|lia].
      rewrite HQ, concat_app. cbn [concat]. now rewrite app_nil_r, <- !app_assoc.
  - destruct (bs_send s) as [|c q] eqn:HQ; [discriminate|]. injection E as <-. subst ok. apply NX; [|exact HP].
    eapply inv_move; [exact HI|reflexivity..|]. unfold delivered, on_way. cbn [bs_out bs_send bs_queue].
    rewrite HQ, concat_app. cbn [concat]. now rewrite app_nil_r, <- !app_assoc.
  - destruct (bs_stop s); [discriminate|]. injection E as <-. apply NX; [|exact HP].
    eapply inv_move; [exact HI|reflexivity..].
  - rewrite HP in E. destruct (_ && _); [|discriminate]. injection E as <-. apply NX; [|reflexivity].
    eapply inv_move; [exact HI|reflexivity..].
Qed.

Lemma delivery o now ps s : smooth o (binit o now) ps -> brun o (binit o now) ps = Some s -> bs_panic s = false ->
  forall t, at_time t (delivered s ++ on_way s) ++ held s t = at_time t (added o ps).
Proof.
  intros H1 H2 H3. pose proof (smooth_inv o ps (binit o now) s [] (inv_init o now) eq_refl H1 H2 H3) as H. apply (i_eq _ _ H).
Qed.

Lemma bmsg_dec (a b : bmsg) : {a = b} + {a <> b}.
Proof. decide equality; try apply Z.eq_dec; apply Nat.eq_dec. Qed.
Lemma count_at m l : count_occ bmsg_dec (at_time (bm_time m) l) m = count_occ bmsg_dec l m.
Proof.
  induction l as [|x l IH]; [reflexivity|]. cbn [at_time filter count_occ]. destruct (Z.eqb_spec (bm_time x) (bm_time m)) as [E|E].
  - cbn [count_occ]. unfold at_time in IH. rewrite IH. reflexivity.
  - unfold at_time in IH. rewrite IH. destruct (bmsg_dec x m) as [->|]; [congruence|reflexivity].
Qed.
Lemma all_delivered o now ps s : smooth o (binit o now) ps -> brun o (binit o now) ps = Some s -> bs_panic s = false ->
  bs_send s = [] -> bs_queue s = [] -> (forall t, held s t = []) -> Permutation (delivered s) (added o ps).
Proof.
  intros H1 H2 H3 H4 H5 H6. apply (Permutation_count_occ bmsg_dec). intros m. rewrite <- (count_at m (added o ps)).
  rewrite <- (delivery o now ps s H1 H2 H3), H6, app_nil_r, count_at. unfold on_way. rewrite H4, H5. cbn. now rewrite app_nil_r.
Qed.

(** ** No batch has more messages than the threshold and one, in any run *)
Definition small (o : bopts) (c : list bmsg) : Prop := Z.of_nat (length c) <= Z.max 0 (bo_count o) + 1.
Record sinv (o : bopts) (s : bstate) : Prop := {
  s_heap : forall b, small o (bs_heap s b);
  s_free : forall t b, g_find (bs_group s) t = Some b -> bs_lock s = Some (t, b) \/ Z.of_nat (length (bs_heap s b)) <= Z.max 0 (bo_count o);
  s_lock : forall t b, bs_lock s = Some (t, b) -> g_find (bs_group s) t = Some b;
  s_inj : forall t u b, g_find (bs_group s) t = Some b -> g_find (bs_group s) u = Some b -> t = u;
  s_next : forall t b, g_find (bs_group s) t = Some b -> (b < bs_next s)%nat;
  s_chan : Forall (small o) (bs_queue s ++ bs_send s ++ bs_out s)
}.
Lemma sinv_init o now : sinv o (binit o now).
Proof.
  constructor; unfold binit; cbn [bs_group bs_heap bs_next bs_lock bs_out bs_send bs_queue g_find app].
  - intros. unfold small. cbn. lia.
  - intros. right. cbn. lia.
  - discriminate.
  - intros t u b. destruct (Z.eqb_spec (timeID o now 0) t), (Z.eqb_spec (timeID o now 0) u); congruence.
  - intros t b. destruct (_ =? _); [|discriminate]. intros E. injection E as <-. lia.
  - constructor.
Qed.

Lemma chan_app {A} (P : A -> Prop) a b c x : Forall P (a ++ b ++ c) -> P x -> Forall P ((a ++ [x]) ++ b ++ c).
Proof. rewrite !Forall_app. intros (H1 & H2 & H3) H. repeat split; try assumption. constructor; [assumption|constructor]. Qed.

Lemma sinv_push o s g : sinv o s -> forall c, small o c ->
  (forall t b, g_find g t = Some b -> g_find (bs_group s) t = Some b /\ bs_lock s <> Some (t, b)) ->
  bs_panic (push s c) = false ->
  forall pk, sinv o (with_picked (with_lock (with_group (push s c) g) None) pk).
Proof.
  intros HS c Hc Hg Hp pk. destruct HS as [S1 S2 S3 S4 S5 S6]. unfold push in *.
  assert (Q : forall q, q = bs_queue s \/ q = bs_queue s ++ [c] -> Forall (small o) (q ++ bs_send s ++ bs_out s)).
  { intros q [->| ->]; [assumption|now apply chan_app]. }
  destruct c as [|m c]; [|destruct (bs_qclosed s); [discriminate|]];
  (constructor; cbn [with_picked with_lock with_group bs_heap bs_group bs_lock bs_next bs_queue bs_send bs_out];
   [exact S1|intros t b E; right; destruct (Hg t b E) as [G1 G2]; destruct (S2 t b G1); [contradiction|assumption]|discriminate
   |intros t u b E1 E2; eapply S4; [apply (Hg t b E1)|apply (Hg u b E2)]|intros t b E; eapply S5, (Hg t b E)|apply Q; auto]).
Qed.

Lemma sinv_step o s p s' : sinv o s -> bstep o s p = Some s' -> bs_panic s' = false -> sinv o s'.
Proof.
  intros HS E HN. pose proof (bstep_no_panic _ _ _ _ E) as HN0. unfold bstep in E. rewrite HN0 in E.
  destruct p as [now delay id size| |now t| | |ok| |now].
  - destruct (bs_lock s) eqn:HL; [discriminate|]. injection E as <-. unfold do_add. destruct HS as [S1 S2 S3 S4 S5 S6].
    set (t := timeID o now delay). clearbody t. destruct (g_find (bs_group s) t) as [b|] eqn:Ef.
    + assert (Hb : Z.of_nat (length (bs_heap s b)) <= Z.max 0 (bo_count o)) by (destruct (S2 t b Ef); [congruence|assumption]).
      set (c := bs_heap s b ++ [mkBM t id size]). assert (Lc : Z.of_nat (length c) = Z.of_nat (length (bs_heap s b)) + 1) by (unfold c; rewrite app_length; cbn; lia).
      constructor; cbn [bs_heap bs_group bs_lock bs_next bs_queue bs_send bs_out].
      * intros x. unfold h_set. destruct (Nat.eqb_spec x b); [unfold small; lia|apply S1].
      * intros u x Eu. unfold h_set. destruct (Nat.eqb_spec x b) as [->|].
        -- assert (u = t) by (eapply S4; eassumption). subst u.
           destruct (Z.ltb_spec (bo_count o) (Z.of_nat (length c))); [now left|]. cbn [orb]. destruct (_ <? _); [now left|right; lia].
        -- right. destruct (S2 u x Eu); [congruence|assumption].
      * intros u x. destruct (_ || _); [|discriminate]. intros X. injection X as <- <-. exact Ef.
      * exact S4.
      * exact S5.
      * exact S6.
    + assert (Hfr : forall u c, g_find (bs_group s) u = Some c -> c <> bs_next s) by (intros u c Eu; apply S5 in Eu; lia).
      constructor; cbn [bs_heap bs_group bs_lock bs_next bs_queue bs_send bs_out g_find app].
      * intros x. unfold h_set. destruct (Nat.eqb_spec x (bs_next s)); [unfold small; cbn; lia|apply S1].
      * intros u x. destruct (Z.eqb_spec t u) as [<-|].
        -- intros X. injection X as <-. unfold h_set. rewrite Nat.eqb_refl.
           destruct (Z.ltb_spec (bo_count o) (Z.of_nat (length [mkBM t id size]))); [now left|]. cbn [orb]. destruct (_ <? _); [now left|]. right. lia.
        -- intros Eu. right. unfold h_set. destruct (Nat.eqb_spec x (bs_next s)) as [->|]; [now apply Hfr in Eu|]. destruct (S2 u x Eu); [congruence|assumption].
      * intros u x. destruct (_ || _); [|discriminate]. intros X. injection X as <- <-. now rewrite Z.eqb_refl.
      * intros u v c. destruct (Z.eqb_spec t u), (Z.eqb_spec t v); intros E1 E2; try congruence.
        -- injection E1 as <-. now apply Hfr in E2.
        -- injection E2 as <-. now apply Hfr in E1.
        -- eapply S4; eassumption.
      * intros u c. destruct (_ =? _); [intros X; injection X as <-; lia|]. intros Eu. apply S5 in Eu. lia.
      * exact S6.
  - destruct (bs_lock s) as [[t b]|] eqn:HL; [|discriminate]. destruct (_ && _); [discriminate|]. injection E as <-.
    pose proof (sinv_push o s (g_delete (bs_group s) t) HS (bs_heap s b) (s_heap _ _ HS b)) as P.
    assert (EP : bs_picked (push s (bs_heap s b)) = bs_picked s) by (unfold push; destruct (bs_heap s b); [|destruct (bs_qclosed s)]; reflexivity).
    specialize (P ltac:(intros u c X; rewrite g_find_delete in X; destruct (Z.eqb_spec t u); [discriminate|]; split; [assumption|rewrite HL; congruence]) HN (bs_picked s)).
    unfold with_picked, with_lock, with_group in *. cbn in *. rewrite <- EP in P. exact P.
  - destruct (bs_picked s); [discriminate|]. destruct (g_find _ _) as [b|]; [|discriminate]. destruct (_ && _); [|discriminate].
    injection E as <-. destruct HS. constructor; assumption.
  - destruct (bs_picked s) as [[t b]|] eqn:HP; [|discriminate]. destruct (bs_lock s) eqn:HL; [discriminate|].
    assert (HG : forall u c, g_find (g_delete (bs_group s) t) u = Some c -> g_find (bs_group s) u = Some c /\ bs_lock s <> Some (u, c)).
    { intros u c X. rewrite g_find_delete in X. destruct (Z.eqb_spec t u); [discriminate|]. split; [assumption|congruence]. }
    destruct (bs_heap s b) as [|m c] eqn:Hb.
    + injection E as <-.
      pose proof (sinv_push o s (g_delete (bs_group s) t) HS [] ltac:(unfold small; cbn; lia) HG HN None) as P.
      unfold with_picked, with_lock, with_group, push in *. cbn in *. rewrite HL. exact P.
    + destruct (full_queue s); [discriminate|]. injection E as <-.
      pose proof (s_heap _ _ HS b) as Sb. rewrite Hb in Sb.
      pose proof (sinv_push o s (g_delete (bs_group s) t) HS (m :: c) Sb HG HN None) as P.
      unfold with_picked, with_lock, with_group, push in *. destruct (bs_qclosed s); cbn in *; rewrite HL; exact P.
  - destruct HS as [S1 S2 S3 S4 S5 S6]. destruct (bs_queue s) as [|c q] eqn:HQ.
    + destruct (_ && _); [|discriminate]. injection E as <-. constructor; assumption.
    + injection E as <-. constructor; try assumption. cbn [bs_queue bs_send bs_out].
      pose proof (Forall_inv S6) as Hc. pose proof (Forall_inv_tail S6) as Ht.
      destruct (Nat.ltb _ _); [|exact Ht]. rewrite !Forall_app in *. destruct Ht as (T1 & T2 & T3).
      repeat split; try assumption. constructor; [assumption|constructor].
  - destruct HS as [S1 S2 S3 S4 S5 S6]. destruct (bs_send s) as [|c q] eqn:HQ; [discriminate|]. injection E as <-.
    constructor; try assumption. cbn [bs_queue bs_send bs_out]. rewrite !Forall_app in *. destruct S6 as (T1 & T2 & T3).
    pose proof (Forall_inv T2). pose proof (Forall_inv_tail T2). repeat split; try assumption.
    destruct ok; [|assumption]. apply Forall_app. split; [assumption|]. constructor; [assumption|constructor].
  - destruct (bs_stop s); [discriminate|]. injection E as <-. destruct HS. constructor; assumption.
  - destruct (bs_picked s); [discriminate|]. destruct (_ && _); [|discriminate]. injection E as <-. destruct HS. constructor; assumption.
Qed.
Lemma sinv_run o ps : forall s s', sinv o s -> brun o s ps = Some s' -> bs_panic s' = false -> sinv o s'.
Proof.
  induction ps as [|p r IH]; intros s s' HS HR HN; cbn [brun] in HR; [now injection HR as <-|].
  destruct (bstep o s p) as [s1|] eqn:E; [|discriminate]. eapply IH; [|exact HR|exact HN].
  eapply sinv_step; [exact HS|exact E|]. eapply panic_stays; eassumption.
Qed.
Lemma batch_bound o now ps s : brun o (binit o now) ps = Some s -> bs_panic s = false ->
  forall c, In c (bs_out s) -> Z.of_nat (length c) <= Z.max 0 (bo_count o) + 1.
Proof.
  intros H1 H2 c Hc. pose proof (s_chan _ _ (sinv_run o ps _ _ (sinv_init o now) H1 H2)) as F.
  rewrite Forall_forall in F. apply F. rewrite !in_app_iff. auto.
Qed.

(** Once the channels are closed and empty nothing is delivered any more. *)
Lemma closed_step o s p s' : bs_qclosed s = true -> bs_sclosed s = true -> bs_queue s = [] -> bs_send s = [] -> bs_picked s = None ->
  bstep o s p = Some s' ->
  bs_qclosed s' = true /\ bs_sclosed s' = true /\ bs_queue s' = [] /\ bs_send s' = [] /\ bs_picked s' = None /\ bs_out s' = bs_out s.
Proof.
  intros H1 H2 H3 H4 H5 E. unfold bstep in E. destruct (bs_panic s); [discriminate|].
  destruct p as [now delay id size| |now t| | |ok| |now].
  - destruct (bs_lock s); [discriminate|]. injection E as <-. unfold do_add. destruct (g_find _ _); cbn; auto 10.
  - destruct (bs_lock s) as [[t b]|]; [|discriminate]. rewrite H1, andb_false_r in E. injection E as <-.
    unfold push. destruct (bs_heap s b); [|rewrite H1]; cbn; auto 10.
  - rewrite H5, H1, andb_false_r in E. destruct (g_find _ _); discriminate.
  - rewrite H5 in E. discriminate.
  - rewrite H3, H1, H2 in E. discriminate.
  - rewrite H4 in E. discriminate.
  - destruct (bs_stop s); [discriminate|]. injection E as <-. cbn. auto 10.
  - rewrite H5, H1, andb_false_r in E. discriminate.
Qed.
Lemma closed_run o ps : forall s s', bs_qclosed s = true -> bs_sclosed s = true -> bs_queue s = [] -> bs_send s = [] -> bs_picked s = None ->
  brun o s ps = Some s' -> delivered s' = delivered s.
Proof.
  induction ps as [|p r IH]; intros s s' H1 H2 H3 H4 H5 HR; cbn [brun] in HR; [now injection HR as <-|].
  destruct (bstep o s p) as [s1|] eqn:E; [|discriminate].
  destruct (closed_step o s p s1 H1 H2 H3 H4 H5 E) as (G1 & G2 & G3 & G4 & G5 & G6).
  rewrite (IH s1 s' G1 G2 G3 G4 G5 HR). unfold delivered. now rewrite G6.
Qed.

(** ** Runs *)
Definition T : Z := 1700000000000000000.
Definition ms (k : Z) : Z := T + k * 1000000.
Definition o0 : bopts := mkBO 100000000 0 0.
Definition o9 : bopts := mkBO 100000000 9 9999.

(** Two messages share a batch, a third has another time. *)
Definition run_ok : list bop :=
  [BAdd (ms 1) 0 1 5; BAdd (ms 2) 0 2 5; BAdd (ms 3) 500 3 5; BPick (ms 300) (ms 100); BCommit; BDispatch; BPublish true;
   BPick (ms 900) (ms 600); BCommit; BDispatch; BPublish true].
(** The third [add] waits for room while the loop picks up its batch. *)
Definition run_twice : list bop :=
  [BAdd (ms 0) 0 1 5; BPush; BDispatch; BPublish true; BAdd (ms 10) 0 2 5; BPush; BAdd (ms 20) 0 3 5;
   BPick (ms 200) (ms 100); BDispatch; BPublish true; BPush; BDispatch; BPublish true; BCommit; BDispatch; BPublish true].
(** The connection takes nothing for a while. *)
Definition run_full : list bop :=
  flat_map (fun k => [BAdd (ms (2000 * Z.of_nat k)) 0 k 5; BPush; BDispatch]) (seq 1 28) ++ repeat (BPublish true) 27.
(** The connection is closed before the time of a batch. *)
Definition run_stop : list bop := [BAdd (ms 0) 0 1 5; BStop; BFinish (ms 10); BDispatch].
Definition run_panic : list bop := [BStop; BFinish (ms 10); BAdd (ms 20) 0 1 5; BPush].
