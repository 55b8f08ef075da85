(** Proofs about the in-memory store: Get. *)
From Verif Require Import M_Bytes M_Hash M_Bloom M_Wal M_MemDB S_MemDB P_Bytes P_Bloom P_MemBlock P_MemDB.
From Coq Require Import Lia ZifyBool ZifyNat ZifyN Sorted.
Open Scope Z_scope.

Definition A_of (sl : N -> slot) : contents :=
  fun t k => match sl k with Held t' v => if t' =? t then Some v else None | _ => None end.

Lemma A_of_held sl t k v : A_of sl t k = Some v <-> sl k = Held t v.
Proof.
  unfold A_of. destruct (sl k) as [|t' v'|]; [split; discriminate| |split; discriminate].
  destruct (Z.eqb_spec t' t) as [->|Hn]; split; intros E; try discriminate; congruence.
Qed.
Lemma A_of_some sl t k : A_of sl t k <> None <-> exists v, sl k = Held t v.
Proof.
  destruct (A_of sl t k) as [v|] eqn:E.
  - apply A_of_held in E. split; [eauto|discriminate].
  - split; [congruence|]. intros [v Hv]. apply A_of_held in Hv. congruence.
Qed.

(** * Filters *)
Definition gen_ok2 (f : bloom) : Prop := exists g hs, gen_ok g /\ f = fold_left bloom_add hs g.

Lemma gen_ok2_add f k : gen_ok2 f -> gen_ok2 (bloom_add f k).
Proof. intros (g & hs & Hg & ->). exists g, (hs ++ [k]). split; [exact Hg|]. now rewrite fold_left_app. Qed.
Lemma gen_ok2_wf f : gen_ok2 f -> bloom_wf f.
Proof. intros (g & hs & (ks & Hg & _) & ->). apply adds_wf. eapply newFilter_wf, Hg. Qed.
Lemma newFilter_bits m ks g : newFilter m ks = Some g -> Forall u64_ok (f_bits g).
Proof.
  unfold newFilter. destruct (m <? 2)%N; [discriminate|]. intros [= <-]. cbn [f_bits].
  apply Forall_forall. intros y Hy. apply repeat_spec in Hy. subst. reflexivity.
Qed.
Lemma gen_ok2_snap f : gen_ok2 f -> snapshot f = Some f.
Proof.
  intros Hf. pose proof (gen_ok2_wf _ Hf) as Hw. destruct Hf as (g & hs & (ks & Hg & Hl & Hk) & ->).
  pose proof (newFilter_wf _ _ _ Hg) as (_ & Ek & Em). pose proof (adds_keys hs g) as [K M].
  unfold snapshot, newFilterBlock. set (f := fold_left bloom_add hs g) in *.
  replace bloomBits with (f_m f) by congruence. replace bloomHashes with (N.of_nat (length (f_keys f))).
  2:{ rewrite K, Ek, Hl. reflexivity. }
  apply bloom_serial; [exact Hw| |rewrite K, Ek; exact Hk].
  apply adds_bits_ok. exact (newFilter_bits _ _ _ Hg).
Qed.

(** The filters of times up to [bound] let every held key through. *)
Definition finv (c : mcfg) (s : mdb) (sl : N -> slot) (bound : Z) : Prop :=
  forall i r, nth_error (m_filters s) i = Some r ->
    gen_ok2 (tf_gen r) /\
    (forall t f, In (t, f) (tf_recs r) -> t <= bound /\
       forall k t' v, c_bkey c k = i -> sl k = Held t' v -> t' < t -> fl_test f k = true) /\
    (forall k t v, c_bkey c k = i -> sl k = Held t v -> bloom_test (tf_gen r) k = true).

Lemma finv_same c s s' sl sl' b b' : finv c s sl b -> m_filters s' = m_filters s -> b <= b' ->
  (forall k t v, sl' k = Held t v -> sl k = Held t v) -> finv c s' sl' b'.
Proof.
  intros H E Hb Hs i r Hr. rewrite E in Hr. destruct (H i r Hr) as (H1 & H2 & H3). split; [exact H1|]. split.
  - intros t f Hin. destruct (H2 t f Hin) as [H4 H5]. split; [lia|]. intros k t' v Hk Hh. apply (H5 k t' v Hk). now apply Hs.
  - intros k t v Hk Hh. apply (H3 k t v Hk). now apply Hs.
Qed.

Lemma finv_put c s sl cur key v : finv c s sl cur ->
  (sl key = Absent \/ exists w, sl key = Held cur w) ->
  finv c (addTimeFilter c s cur key) (fun k => if (k =? key)%N then Held cur v else sl k) cur.
Proof.
  intros H Hs. unfold addTimeFilter. destruct (nth_error (m_filters s) (c_bkey c key)) as [r|] eqn:E.
  2:{ intros i r Hr. destruct (H i r Hr) as (H1 & H2 & H3). split; [exact H1|].
      assert (Hi : forall k, c_bkey c k = i -> (k =? key)%N = false).
      { intros k Hk. apply N.eqb_neq. intros ->. congruence. }
      split.
      - intros t f Hin. destruct (H2 t f Hin) as [H4 H5]. split; [exact H4|]. intros k t' w Hk. rewrite Hi by exact Hk. now apply H5.
      - intros k t w Hk. rewrite Hi by exact Hk. now apply H3. }
  pose proof (nth_error_lt _ _ _ E) as Lr.
  intros i r' Hr'. cbn [m_filters set_filters] in Hr'. rewrite nth_error_update in Hr' by exact Lr.
  destruct (Nat.eqb_spec i (c_bkey c key)) as [->|Hn].
  - injection Hr' as <-. destruct (H _ _ E) as (H1 & H2 & H3). cbn [tf_gen tf_recs]. split; [now apply gen_ok2_add|]. split.
    + assert (Old : forall t f, In (t, f) (tf_recs r) -> t <= cur /\ forall k t' w, c_bkey c k = c_bkey c key ->
          (if (k =? key)%N then Held cur v else sl k) = Held t' w -> t' < t -> fl_test f k = true).
      { intros t f Hin. destruct (H2 t f Hin) as [H4 H5]. split; [exact H4|]. intros k t' w Hk.
        destruct (N.eqb_spec k key) as [->|_]; [|now apply H5]. intros [= <- _]. lia. }
      destruct (afind Z.eqb (tf_recs r) cur); [exact Old|]. intros t f [[= <- <-]|Hin].
      * split; [lia|]. intros k t' w Hk Hh Hlt. rewrite gen_ok2_snap by exact H1. cbn [fl_test].
        destruct (N.eqb_spec k key) as [->|_]; [injection Hh as <- _; lia|]. now apply (H3 k t' w).
      * apply Old. now apply filter_In in Hin.
    + intros k t w Hk. destruct (N.eqb_spec k key) as [->|_].
      * intros _. now apply bloom_add_test, gen_ok2_wf.
      * intros Hh. apply bloom_add_mono. now apply (H3 k t w).
  - destruct (H i r' Hr') as (H1 & H2 & H3). split; [exact H1|].
    assert (Hi : forall k, c_bkey c k = i -> (k =? key)%N = false).
    { intros k Hk. apply N.eqb_neq. intros ->. congruence. }
    split.
    + intros t f Hin. destruct (H2 t f Hin) as [H4 H5]. split; [exact H4|]. intros k t' w Hk. rewrite Hi by exact Hk. now apply H5.
    + intros k t w Hk. rewrite Hi by exact Hk. now apply H3.
Qed.

(** * The heap of blocks *)
Record hinv (s : mdb) (sl : N -> slot) : Prop := {
  hi_len : length (m_bufs s) = length (m_blocks s);
  hi_buf : forall p b, nth_error (m_blocks s) p = Some b -> mb_buf b = p;
  hi_rec : forall p b k off, nth_error (m_blocks s) p = Some b -> afind ik_eqb (mb_recs b) (false, k) = Some off ->
    0 <= off /\ ((exists t v, live s t = Some p /\ sl k = Held t v) \/
                 (nth_error (m_bufs s) p = Some [] /\ sl k = Freed))
}.

Lemma hinv_same s s' sl sl' : hinv s sl -> m_blocks s' = m_blocks s -> m_bufs s' = m_bufs s -> m_live s' = m_live s ->
  (forall k, sl' k = sl k) -> hinv s' sl'.
Proof.
  intros [H1 H2 H3] E1 E2 E3 Es. split; unfold live; rewrite ?E1, ?E2, ?E3; try assumption.
  intros p b k off Hp Ha. rewrite Es. now apply (H3 p b).
Qed.

(** A live block [p] gets other records: those of [k0] may change, others stay or go. *)
Lemma hinv_mod s sl sl' t p b d' b' : hinv s sl -> live s t = Some p -> nth_error (m_blocks s) p = Some b ->
  (forall t' , live s t' = Some p -> t' = t) ->
  mb_buf b' = mb_buf b ->
  (forall k off, afind ik_eqb (mb_recs b') (false, k) = Some off -> 0 <= off /\ exists v, sl' k = Held t v) ->
  (forall p2 b2 k off, p2 <> p -> nth_error (m_blocks s) p2 = Some b2 ->
     afind ik_eqb (mb_recs b2) (false, k) = Some off -> sl' k = sl k) ->
  hinv (set_block (set_buf s (mb_buf b) d') p b') sl'.
Proof.
  intros [H1 H2 H3] Hl Hb Hu Eb Hr Ho. pose proof (nth_error_lt _ _ _ Hb) as Lp.
  pose proof (H2 p b Hb) as Ep.
  split; cbn [m_blocks m_bufs set_block set_buf].
  - now rewrite !update_length.
  - intros q x Hq. rewrite nth_error_update in Hq by exact Lp. destruct (Nat.eqb_spec q p) as [->|]; [|now apply H2].
    injection Hq as <-. congruence.
  - intros q x k off Hq Ha. rewrite nth_error_update in Hq by exact Lp. rewrite nth_error_update by lia.
    change (live (set_block (set_buf s (mb_buf b) d') p b')) with (live s).
    destruct (Nat.eqb_spec q p) as [->|Hn].
    + injection Hq as <-. destruct (Hr k off Ha) as [G1 [v G2]]. split; [exact G1|]. left. eauto.
    + rewrite Ep. destruct (Nat.eqb_spec q p); [contradiction|]. rewrite (Ho q x k off Hn Hq Ha). now apply (H3 q x).
Qed.

Lemma live_inj s A t1 t2 p : winv s A -> live s t1 = Some p -> live s t2 = Some p -> t1 = t2.
Proof.
  intros H L1 L2. destruct (Z.eq_dec t1 t2) as [E|Hn]; [exact E|]. exfalso.
  destruct (wi_blk _ _ H _ _ L1) as (b & d & rs & [G1 _] & _).
  destruct (wi_sep _ _ H t1 t2 p p b b Hn L1 L2 G1 G1) as [E _]. now apply E.
Qed.

(** The keys of a live block are those held there. *)
Lemma live_recs s sl t p b k off : hinv s sl -> live s t = Some p -> winv s (A_of sl) ->
  nth_error (m_blocks s) p = Some b -> afind ik_eqb (mb_recs b) (false, k) = Some off ->
  0 <= off /\ exists v, sl k = Held t v.
Proof.
  intros H Hl W Hb Ha. destruct (hi_rec _ _ H p b k off Hb Ha) as [G0 _]. split; [exact G0|].
  apply A_of_some. intros Hn. apply (has_spec s _ t p k W Hl) in Hn. unfold rec_off in Hn. rewrite Hb in Hn. congruence.
Qed.
Lemma recs_elsewhere s sl t k p2 b2 off : hinv s sl -> winv s (A_of sl) ->
  nth_error (m_blocks s) p2 = Some b2 -> afind ik_eqb (mb_recs b2) (false, k) = Some off ->
  (sl k = Absent \/ exists w, sl k = Held t w) -> live s t = Some p2.
Proof.
  intros H W Hb Ha Hs. destruct (hi_rec _ _ H p2 b2 k off Hb Ha) as [_ [(t2 & v & L2 & E2)|[_ E2]]].
  - destruct Hs as [Hs|[w Hs]]; rewrite Hs in E2; [discriminate|]. injection E2 as -> _. exact L2.
  - destruct Hs as [Hs|[w Hs]]; rewrite Hs in E2; discriminate.
Qed.

Lemma hinv_put s sl t p k v s' : hinv s sl -> winv s (A_of sl) -> live s t = Some p ->
  block_put s p k v = Some s' ->
  (fst k = true \/ sl (snd k) = Absent \/ exists w, sl (snd k) = Held t w) ->
  hinv s' (if fst k then sl else fun k' => if (k' =? snd k)%N then Held t v else sl k').
Proof.
  intros H W Hl E Hs. unfold block_put in E. destruct (nth_error (m_blocks s) p) as [b|] eqn:Hb; [|discriminate].
  destruct (nth_error (m_bufs s) (mb_buf b)) as [d|]; [|discriminate]. injection E as <-.
  eapply hinv_mod; [exact H|exact Hl|exact Hb|intros; eapply live_inj; eassumption|reflexivity|..]; cbn [mb_recs].
  - intros k' off Ha. destruct k as [fl key]; cbn [fst snd] in *.
    destruct (ik_eqb (fl, key) (false, k')) eqn:Ek.
    + apply ik_eqb_iff in Ek. injection Ek as -> ->. rewrite (afind_aset_same _ ik_eqb_iff) in Ha. injection Ha as <-.
      split; [lia|]. rewrite N.eqb_refl. eauto.
    + rewrite (afind_aset_other _ ik_eqb_iff) in Ha by (intros Eq; apply ik_eqb_iff in Eq; congruence).
      destruct (live_recs _ _ _ _ _ _ _ H Hl W Hb Ha) as [G1 [w G2]]. split; [exact G1|].
      destruct fl; [eauto|]. destruct (k' =? key)%N; eauto.
  - intros p2 b2 k' off Hn Hb2 Ha. destruct (fst k) eqn:Ef; [reflexivity|].
    destruct (N.eqb_spec k' (snd k)) as [->|]; [|reflexivity]. exfalso. apply Hn.
    destruct Hs as [Hs|Hs]; [discriminate|].
    pose proof (recs_elsewhere _ _ _ _ _ _ _ H W Hb2 Ha Hs). congruence.
Qed.

Lemma hinv_move s sl t key s' r : hinv s sl -> winv s (A_of sl) -> move s t key = (s', r) -> hinv s' sl.
Proof.
  intros H W E. unfold move in E. destruct (live s (m_cur s)) as [p|] eqn:El; [|now injection E as <- _].
  destruct (block_put s p (true, key) _) as [s2|] eqn:Ep; [|now injection E as <- _]. injection E as <- _.
  exact (hinv_put _ _ _ _ _ _ _ H W El Ep (or_introl eq_refl)).
Qed.

Lemma setbuf_same s i d : nth_error (m_bufs s) i = Some d -> set_buf s i d = s.
Proof.
  intros H. unfold set_buf. destruct s; cbn in *. f_equal. apply nth_ext with (d := []) (d' := []); [apply update_length|].
  intros j Hj. rewrite nth_update. destruct (Nat.eqb_spec i j) as [<-|]; [|reflexivity].
  cbn [andb]. destruct (Nat.ltb_spec i (length m_bufs)); [|reflexivity]. symmetry. now apply nth_error_nth.
Qed.

Lemma hinv_drop_tombs s sl t p b : hinv s sl -> winv s (A_of sl) -> live s t = Some p ->
  nth_error (m_blocks s) p = Some b -> mb_count b = 0 -> hinv (drop_tombs s p) sl.
Proof.
  intros H W Hl Hb Hc. unfold drop_tombs. rewrite Hb.
  destruct (wi_blk _ _ W _ _ Hl) as (b0 & d & rs & [G1 G1'] & G2 & G3 & G4 & G5 & G6).
  rewrite Hb in G1. injection G1 as <-.
  set (f := fun (s : mdb) (e : ikey * Z) => match live s (snd e) with
       | Some _ => fst (move s (snd e) (snd (fst e))) | None => s end).
  assert (F : forall l s0, kok l -> winv s0 (A_of sl) -> hinv s0 sl -> let s1 := fold_left f l s0 in
             winv s1 (A_of sl) /\ hinv s1 sl /\ m_live s1 = m_live s0).
  { induction l as [|e l IH]; intros s0 Hk W0 H0; cbn [fold_left]; [auto|].
    inversion Hk; subst.
    assert (W1 : winv (f s0 e) (A_of sl) /\ hinv (f s0 e) sl /\ m_live (f s0 e) = m_live s0).
    { unfold f. destruct (live s0 (snd e)); [|auto]. destruct (move s0 (snd e) (snd (fst e))) as [s2 r] eqn:Em.
      destruct (move_inv _ _ _ _ _ _ W0 H3 Em) as (W1 & _ & _ & _ & W2). cbn [fst]. split; [exact W1|].
      split; [eapply hinv_move; eassumption|exact W2]. }
    destruct W1 as (W1 & W2 & W3). destruct (IH (f s0 e)) as (I1 & I2 & I3); try assumption. rewrite I3, W3. auto. }
  destruct (F _ _ G4 W H) as (F1 & F2 & F3). fold f. set (s1 := fold_left f (mb_recs b) s) in *.
  assert (Hl1 : live s1 t = Some p) by (unfold live; rewrite F3; exact Hl).
  destruct (wi_blk _ _ F1 _ _ Hl1) as (b1 & d1 & rs1 & [K1 K1'] & _). rewrite K1.
  rewrite <- (setbuf_same s1 (mb_buf b1) d1 K1').
  eapply hinv_mod; [exact F2|exact Hl1|exact K1|intros; eapply live_inj; eassumption|reflexivity|..]; cbn [mb_recs].
  - intros k off Ha. discriminate.
  - reflexivity.
Qed.

Lemma hinv_release s sl t s' : hinv s sl -> winv s (A_of sl) -> releaseLog s t = Some s' ->
  hinv s' (fun k => match sl k with Held t' v => if t' =? t then Freed else Held t' v | x => x end).
Proof.
  intros H W E. pose proof H as [H1 H2 H3]. unfold releaseLog in E. destruct (live s t) as [p|] eqn:El; [|discriminate].
  destruct (wi_blk _ _ W _ _ El) as (b & d & rs & [G1 G1'] & _). rewrite G1 in E. injection E as <-.
  pose proof (H2 p b G1) as Ep. pose proof (nth_error_lt _ _ _ G1') as Ld.
  split; cbn [set_live set_buf mark_unref set_marks set_wal m_blocks m_bufs].
  - rewrite update_length. exact H1.
  - exact H2.
  - intros q x k off Hq Ha. rewrite nth_error_update by exact Ld. rewrite Ep.
    unfold live; cbn [m_live set_live set_buf mark_unref set_marks set_wal].
    destruct (H3 q x k off Hq Ha) as [G0 G]. split; [exact G0|].
    destruct (Nat.eqb_spec q p) as [->|Hn].
    + right. split; [reflexivity|]. destruct (live_recs _ _ _ _ _ _ _ H El W Hq Ha) as [_ [v ->]]. now rewrite Z.eqb_refl.
    + destruct G as [(t2 & v & L2 & E2)|[E2 E3]].
      * left. exists t2, v. assert (Ht : t2 <> t) by congruence.
        rewrite afind_adel_other by (first [exact Zeqb_iff|congruence]). split; [exact L2|]. rewrite E2.
        destruct (Z.eqb_spec t2 t); [contradiction|reflexivity].
      * right. rewrite E3. auto.
Qed.

Lemma hinv_add s sl A t : hinv s sl -> winv s A -> hinv (addTimeBlock s t None) sl.
Proof.
  intros H W. pose proof H as [H1 H2 H3]. unfold addTimeBlock. destruct (live s t) as [p0|] eqn:El; [exact H|].
  split; cbn [set_live set_heap m_blocks m_bufs].
  - rewrite !app_length. cbn [length]. lia.
  - intros p b Hp. destruct (Nat.lt_ge_cases p (length (m_blocks s))) as [L|L].
    + rewrite nth_error_app1 in Hp by exact L. now apply H2.
    + rewrite nth_error_app2 in Hp by exact L. destruct (p - length (m_blocks s))%nat as [|n] eqn:En; cbn in Hp; [|destruct n; discriminate].
      injection Hp as <-. cbn [mb_buf]. lia.
  - intros p b k off Hp Ha. destruct (Nat.lt_ge_cases p (length (m_blocks s))) as [L|L].
    + rewrite nth_error_app1 in Hp by exact L. destruct (H3 p b k off Hp Ha) as [G0 G]. split; [exact G0|].
      destruct G as [(t2 & v & L2 & E2)|[E2 E3]].
      * left. exists t2, v. split; [|exact E2]. unfold live; cbn [m_live set_live]. assert (t2 <> t) by congruence.
        now rewrite afind_aset_other by (first [exact Zeqb_iff|congruence]).
      * right. split; [|exact E3]. rewrite nth_error_app1 by lia. exact E2.
    + rewrite nth_error_app2 in Hp by exact L. destruct (p - length (m_blocks s))%nat as [|n] eqn:En; cbn in Hp; [|destruct n; discriminate].
      injection Hp as <-. discriminate.
Qed.

Lemma hinv_tiny s sl id t : hinv s sl -> winv s (A_of sl) -> hinv (tinyWrite s id t) sl.
Proof.
  intros H W. unfold tinyWrite. destruct (live s t) as [p|] eqn:Hl; [|exact H].
  destruct (nth_error (m_blocks s) p) as [b|] eqn:Hb; [|exact H].
  destruct (nth_error (m_bufs s) (mb_buf b)) as [d|] eqn:Hd; [|exact H].
  destruct (skipn (Z.to_nat (mb_last b)) d) as [|x l]; [exact H|].
  set (s1 := set_wal s _). assert (H1 : hinv s1 sl) by (eapply hinv_same; [exact H|reflexivity..]).
  rewrite <- (setbuf_same s1 (mb_buf b) d Hd).
  eapply hinv_mod; [exact H1|exact Hl|exact Hb| |reflexivity|..]; cbn [mb_recs].
  - intros t' Ht'. eapply live_inj; [exact W|exact Ht'|exact Hl].
  - intros k off Ha. exact (live_recs _ _ _ _ _ _ _ H Hl W Hb Ha).
  - reflexivity.
Qed.

(** * Finding a key *)
Lemma find_complete c s sl b k t v r : winv s (A_of sl) -> finv c s sl b -> sl k = Held t v ->
  nth_error (m_filters s) (c_bkey c k) = Some r ->
  forall ids, StronglySorted Z.ge ids -> In t ids -> (forall u, In u ids -> In u (map fst (tf_recs r))) ->
  exists p, find_block s k (tf_recs r) ids = Some (t, p).
Proof.
  intros W F Hs Hr. destruct (F _ _ Hr) as (F1 & F2 & F3).
  pose proof (proj2 (A_of_held sl t k v) Hs) as Ha.
  induction ids as [|u ids IH]; intros Hsort Hin Hsub; [contradiction|]. cbn [find_block].
  apply StronglySorted_inv in Hsort as [Hs1 Hs2].
  destruct (Z.eq_dec u t) as [->|Hn].
  - destruct (live s t) as [p|] eqn:El; [|rewrite (wi_none _ _ W _ k El) in Ha; discriminate].
    destruct (rec_off s p (false, k)) as [o|] eqn:Er; [eauto|].
    apply (has_spec s _ t p k W El) in Er. congruence.
  - destruct Hin as [|Hin]; [contradiction|]. pose proof (proj1 (Forall_forall _ _) Hs2 t Hin) as Hge. cbn in Hge.
    specialize (IH Hs1 Hin (fun x Hx => Hsub x (or_intror Hx))).
    destruct (live s u) as [p|] eqn:El; [|exact IH].
    destruct (rec_off s p (false, k)) as [o|] eqn:Er.
    + exfalso. assert (A_of sl u k <> None) as Hu by (rewrite <- (has_spec s _ u p k W El); congruence).
      apply A_of_some in Hu as [w Hu]. congruence.
    + assert (Hk : afind Z.eqb (tf_recs r) u <> None) by (apply (afind_keys _ Zeqb_iff); apply Hsub; now left).
      destruct (afind Z.eqb (tf_recs r) u) as [f|] eqn:Ef; [|congruence].
      apply (afind_In _ Zeqb_iff) in Ef. destruct (F2 u f Ef) as [_ F4]. rewrite (F4 k t v) by (first [reflexivity|exact Hs|lia]).
      exact IH.
Qed.

Lemma newest_held c s sl b k t v : winv s (A_of sl) -> frec c s (A_of sl) -> finv c s sl b -> sl k = Held t v ->
  exists p r, newest c s k = Some (t, p) /\ nth_error (m_filters s) (c_bkey c k) = Some r.
Proof.
  intros W [_ Fr] F Hs. destruct (Fr t k) as (r & Hr & Hin); [apply A_of_some; eauto|].
  destruct (find_complete c s sl b k t v r W F Hs Hr (sort_desc (map fst (tf_recs r)))) as [p Hp].
  - apply sort_desc_sorted.
  - now apply sort_desc_in.
  - intros u Hu. exact (proj1 (sort_desc_in _ _) Hu).
  - exists p, r. unfold newest. now rewrite Hr.
Qed.
Lemma newest_held_inv c s sl k t p : winv s (A_of sl) -> frec c s (A_of sl) -> newest c s k = Some (t, p) ->
  live s t = Some p /\ exists v, sl k = Held t v.
Proof.
  intros W Fr E. destruct (newest_inv _ _ _ _ _ _ W Fr E) as (H1 & H2 & _). split; [exact H1|]. now apply A_of_some.
Qed.

(** Reading a record found anywhere in the heap. *)
Lemma read_heap s sl p k off : hinv s sl -> winv s (A_of sl) -> rec_off s p (false, k) = Some off ->
  match sl k with Held t v => block_get s p off = GOk v | Freed => block_get s p off = GErr | Absent => False end.
Proof.
  intros H W E. unfold rec_off in E. destruct (nth_error (m_blocks s) p) as [b|] eqn:Hb; [|discriminate].
  destruct (hi_rec _ _ H _ _ _ _ Hb E) as [G0 [(t & v & L & Es)|[E2 Es]]]; rewrite Es.
  - pose proof (lookup_spec s _ W t k) as S. unfold mem_lookup in S. rewrite (wi_open _ _ W), L in S.
    unfold rec_off in S. rewrite Hb, E in S. rewrite S.
    destruct (A_of sl t k) as [w|] eqn:Ea.
    + apply A_of_held in Ea. congruence.
    + exfalso. apply (has_spec s _ t p k W L) in Ea. unfold rec_off in Ea. rewrite Hb in Ea. congruence.
  - unfold block_get. rewrite Hb, (hi_buf _ _ H _ _ Hb), E2. unfold buf_get. cbn [length].
    destruct (Z.ltb_spec (Z.of_nat 0) (off + 4)); [reflexivity|lia].
Qed.

(** * Get *)
Definition answers (x : slot) (r : gres) : Prop :=
  match x with Held _ v => r = GOk v | Absent => r = GNotExist | Freed => r = GNotExist \/ r = GErr end.

Lemma cached_ok c s sl k s' r : hinv s sl -> winv s (A_of sl) -> get_cached c s k = Some (s', r) -> answers (sl k) r.
Proof.
  intros H W E. unfold get_cached in E.
  assert (Rd : forall p off, rec_off s p (false, k) = Some off -> answers (sl k) (block_get s p off)).
  { intros p off Er. pose proof (read_heap _ _ _ _ _ H W Er) as R. unfold answers. destruct (sl k); [contradiction|exact R|now right]. }
  assert (Sc : forall ids recs t p, query_scan s k recs ids = Some (t, p) -> exists off, rec_off s p (false, k) = Some off).
  { induction ids as [|u ids IH]; intros recs t p; [discriminate|]. cbn [query_scan].
    destruct (afind Z.eqb (m_qblocks s) u) as [q|]; [|apply IH].
    destruct (rec_off s q (false, k)) as [o|] eqn:Eo; [intros [= <- <-]; eauto|].
    destruct (afind Z.eqb recs u) as [f|]; [|discriminate]. destruct (fl_test f k); [apply IH|discriminate]. }
  assert (Sn : match query_scan s k (qrecs c s k) (sort_desc (map fst (qrecs c s k))) with
              | Some (t, p) => Some (set_query s t (m_qfilters s) (m_qblocks s), read_rec s p k)
              | None => None end = Some (s', r) -> answers (sl k) r).
  { destruct (query_scan _ _ _ _) as [[t p]|] eqn:Eq; [|discriminate]. intros Ex.
    pose proof (f_equal (fun o => match o with Some x => snd x | None => GLoop end) Ex) as Er. cbn [snd] in Er. subst r.
    destruct (Sc _ _ _ _ Eq) as [off Eo]. unfold read_rec. rewrite Eo. now apply Rd. }
  destruct (afind Z.eqb (m_qblocks s) (m_qrec s)) as [p|]; [|exact (Sn E)].
  destruct (rec_off s p (false, k)) as [off|] eqn:Eo; [|exact (Sn E)]. injection E as _ <-. now apply Rd.
Qed.

Lemma set_query_inv s sl qr qf qb : hinv s sl -> winv s (A_of sl) ->
  hinv (set_query s qr qf qb) sl /\ winv (set_query s qr qf qb) (A_of sl).
Proof. intros H W. split; [eapply hinv_same; [exact H|reflexivity..]|eapply winv_same; [exact W|reflexivity..]]. Qed.

Lemma seek_get c s sl b k n : hinv s sl -> winv s (A_of sl) -> frec c s (A_of sl) -> finv c s sl b ->
  length (m_qfilters s) = length (m_filters s) -> qrecs c s k = [] ->
  answers (sl k) (snd (mem_get_n (S n) c s k)).
Proof.
  intros H W Fr F Lq Eq. cbn [mem_get_n]. rewrite (wi_open _ _ W), Eq. unfold seek.
  destruct (newest c s k) as [[t p]|] eqn:En.
  - destruct (newest_held_inv _ _ _ _ _ _ W Fr En) as [Hl [v Hs]].
    destruct (newest_held _ _ _ _ _ _ _ W Fr F Hs) as (p2 & r & E2 & Er). rewrite Er, Eq.
    set (s1 := set_query s _ _ _).
    destruct (set_query_inv s sl (m_qrec s) (update (m_qfilters s) (c_bkey c k) (aset Z.eqb [] t (snapshot (tf_gen r))))
       (aset Z.eqb (m_qblocks s) t p) H W) as [H1 W1]. fold s1 in H1, W1.
    destruct (get_cached c s1 k) as [[s2 g]|] eqn:Ec.
    + cbn [snd]. eapply cached_ok; eassumption.
    + exfalso. unfold get_cached in Ec.
      assert (Q : qrecs c s1 k = [(t, snapshot (tf_gen r))]).
      { unfold qrecs, s1; cbn [m_qfilters set_query]. rewrite nth_error_update.
        - now rewrite Nat.eqb_refl.
        - rewrite Lq. eapply nth_error_lt, Er. }
      assert (Ro : rec_off s1 p (false, k) <> None).
      { change (rec_off s p (false, k) <> None). rewrite (has_spec s _ t p k W Hl). apply A_of_some. eauto. }
      assert (Sn : query_scan s1 k (qrecs c s1 k) (sort_desc (map fst (qrecs c s1 k))) <> None).
      { rewrite Q. cbn [map fst]. change (sort_desc [t]) with [t]. cbn [query_scan].
        unfold s1 at 1; cbn [m_qblocks set_query]. rewrite (afind_aset_same _ Zeqb_iff).
        destruct (rec_off s1 p (false, k)); [discriminate|congruence]. }
      destruct (query_scan s1 k (qrecs c s1 k) (sort_desc (map fst (qrecs c s1 k)))) as [[t3 p3]|]; [|congruence].
      destruct (afind Z.eqb (m_qblocks s1) (m_qrec s1)); [|discriminate].
      destruct (rec_off s1 _ (false, k)); discriminate.
  - cbn [snd]. assert (forall t v, sl k <> Held t v) as Hno.
    { intros t v Hs. destruct (newest_held _ _ _ _ _ _ _ W Fr F Hs) as (p & r & E2 & _). congruence. }
    unfold answers. destruct (sl k); [reflexivity|exfalso; eapply Hno; reflexivity|now left].
Qed.

Lemma get_ok c s sl b k : hinv s sl -> winv s (A_of sl) -> frec c s (A_of sl) -> finv c s sl b ->
  length (m_qfilters s) = length (m_filters s) -> answers (sl k) (snd (mem_get c s k)).
Proof.
  intros H W Fr F Lq. unfold mem_get. destruct (qrecs c s k) as [|x l] eqn:Eq.
  - now apply (seek_get c s sl b).
  - remember 1%nat as one. cbn [mem_get_n]. rewrite (wi_open _ _ W), Eq.
    destruct (get_cached c s k) as [[s2 g]|] eqn:Ec; [cbn [snd]; eapply cached_ok; eassumption|].
    subst one. set (s1 := set_query s _ _ _).
    destruct (set_query_inv s sl (m_qrec s) (update (m_qfilters s) (c_bkey c k) []) (m_qblocks s) H W) as [H1 W1]. fold s1 in H1, W1.
    apply (seek_get c s1 sl b); try assumption.
    + unfold s1; cbn [m_qfilters set_query m_filters]. now rewrite update_length.
    + unfold s1, qrecs; cbn [m_qfilters set_query].
      destruct (Nat.lt_ge_cases (c_bkey c k) (length (m_qfilters s))) as [L|L].
      * rewrite nth_error_update by exact L. now rewrite Nat.eqb_refl.
      * assert (E : nth_error (update (m_qfilters s) (c_bkey c k) []) (c_bkey c k) = None)
          by (apply nth_error_None; rewrite update_length; exact L). now rewrite E.
Qed.

(** * Histories *)
Record ginv (c : mcfg) (s : mdb) (g : gstate) : Prop := {
  gi_w : winv s (A_of (g_slot g));
  gi_fr : frec c s (A_of (g_slot g));
  gi_h : hinv s (g_slot g);
  gi_f : finv c s (g_slot g) (g_cur g);
  gi_cur : m_cur s = g_cur g;
  gi_open : live s (g_cur g) <> None <-> g_open g = true;
  gi_q : length (m_qfilters s) = length (m_filters s)
}.

Lemma frec_ext c s A A' : frec c s A -> (forall t k, A' t k = A t k) -> frec c s A'.
Proof. intros [F1 F2] E. split; [exact F1|]. intros t k Ha. apply F2. rewrite <- E. exact Ha. Qed.

Lemma update_qlen c s key t : length (m_filters (addTimeFilter c s t key)) = length (m_filters s) /\
  m_qfilters (addTimeFilter c s t key) = m_qfilters s.
Proof.
  unfold addTimeFilter. destruct (nth_error (m_filters s) (c_bkey c key)); [|auto]. cbn [m_filters m_qfilters set_filters].
  now rewrite update_length.
Qed.

Lemma mem_get_qlen n c s k s' r : mem_get_n n c s k = (s', r) -> length (m_qfilters s') = length (m_qfilters s).
Proof.
  revert s; induction n as [|n IH]; intros s; cbn [mem_get_n]; [now intros [= <- _]|].
  destruct (m_closed s); [now intros [= <- _]|].
  assert (P : forall s1, length (m_qfilters s1) = length (m_qfilters s) ->
     match get_cached c s1 k with
     | Some r => r
     | None => mem_get_n n c (set_query s1 (m_qrec s1) (update (m_qfilters s1) (c_bkey c k) []) (m_qblocks s1)) k
     end = (s', r) -> length (m_qfilters s') = length (m_qfilters s)).
  { intros s1 E1. destruct (get_cached c s1 k) as [[s2 g2]|] eqn:Ec.
    - intros [= -> ->]. unfold get_cached in Ec.
      assert (Sn : match query_scan s1 k (qrecs c s1 k) (sort_desc (map fst (qrecs c s1 k))) with
              | Some (t, p) => Some (set_query s1 t (m_qfilters s1) (m_qblocks s1), read_rec s1 p k)
              | None => None end = Some (s', r) -> length (m_qfilters s') = length (m_qfilters s)).
      { destruct (query_scan _ _ _ _) as [[t p]|]; [|discriminate]. intros Ex.
        pose proof (f_equal (fun o => match o with Some x => fst x | None => s end) Ex) as Er. cbn [fst] in Er. subst s'. exact E1. }
      destruct (afind Z.eqb (m_qblocks s1) (m_qrec s1)) as [p|]; [|exact (Sn Ec)].
      destruct (rec_off s1 p (false, k)); [|exact (Sn Ec)]. injection Ec as <- _. exact E1.
    - intros E. apply IH in E. rewrite E. cbn [m_qfilters set_query]. now rewrite update_length. }
  destruct (qrecs c s k).
  - destruct (seek c s k) as [s1|] eqn:Es; [|now intros [= <- _]]. apply P. unfold seek in Es.
    destruct (newest c s k) as [[t p]|]; [|discriminate]. destruct (nth_error (m_filters s) (c_bkey c k)); [|discriminate].
    injection Es as <-. cbn [m_qfilters set_query]. now rewrite update_length.
  - now apply P.
Qed.

(** What the parts of a state that queries and filters use are after an operation. *)
Lemma block_put_q s p k v s' : block_put s p k v = Some s' -> m_qfilters s' = m_qfilters s /\ m_filters s' = m_filters s.
Proof.
  unfold block_put. destruct (nth_error (m_blocks s) p) as [b|]; [|discriminate].
  destruct (nth_error (m_bufs s) (mb_buf b)); [|discriminate]. now intros [= <-].
Qed.
Lemma move_q s t k s' r : move s t k = (s', r) -> m_qfilters s' = m_qfilters s.
Proof.
  unfold move. destruct (live s (m_cur s)) as [p|]; [|now intros [= <- _]].
  destruct (block_put s p (true, k) _) as [s2|] eqn:E; [|now intros [= <- _]]. intros [= <- _].
  now apply block_put_q in E.
Qed.
Lemma drop_tombs_q s p : m_qfilters (drop_tombs s p) = m_qfilters s.
Proof.
  unfold drop_tombs. destruct (nth_error (m_blocks s) p) as [b|]; [|reflexivity].
  set (f := fun (s : mdb) (e : ikey * Z) => match live s (snd e) with
       | Some _ => fst (move s (snd e) (snd (fst e))) | None => s end).
  assert (F : forall l s0, m_qfilters (fold_left f l s0) = m_qfilters s0).
  { induction l as [|e l IH]; intros s0; cbn [fold_left]; [reflexivity|]. rewrite IH. unfold f.
    destruct (live s0 (snd e)); [|reflexivity]. destruct (move s0 (snd e) (snd (fst e))) eqn:Em. cbn [fst]. eapply move_q, Em. }
  fold f. destruct (nth_error (m_blocks (fold_left f (mb_recs b) s)) p); [cbn [m_qfilters set_block]|]; apply F.
Qed.
Lemma release_q s t s' : releaseLog s t = Some s' -> m_qfilters s' = m_qfilters s.
Proof.
  unfold releaseLog. destruct (live s t) as [p|]; [|discriminate]. destruct (nth_error (m_blocks s) p); [|discriminate].
  now intros [= <-].
Qed.
Lemma add_q s t pick : m_qfilters (addTimeBlock s t pick) = m_qfilters s.
Proof.
  unfold addTimeBlock. destruct (live s t); [reflexivity|]. destruct pick as [i|]; [|reflexivity].
  destruct (existsb (Nat.eqb i) (m_pool s)); reflexivity.
Qed.
Lemma tiny_q s id t : m_qfilters (tinyWrite s id t) = m_qfilters s.
Proof.
  unfold tinyWrite. destruct (live s t) as [p|]; [|reflexivity]. destruct (nth_error (m_blocks s) p) as [b|]; [|reflexivity].
  destruct (nth_error (m_bufs s) (mb_buf b)) as [d|]; [|reflexivity]. destruct (skipn (Z.to_nat (mb_last b)) d); reflexivity.
Qed.
Lemma mark_release_q s t : m_qfilters (mark_release s t) = m_qfilters s.
Proof. unfold mark_release. destruct (afind Z.eqb (m_marks s) t); [|reflexivity]. destruct (0 <? _); reflexivity. Qed.

Lemma release_live s t s' u : releaseLog s t = Some s' -> live s' u = if u =? t then None else live s u.
Proof.
  unfold releaseLog. destruct (live s t) as [p|]; [|discriminate]. destruct (nth_error (m_blocks s) p); [|discriminate].
  intros [= <-]. unfold live; cbn [m_live set_live]. destruct (Z.eqb_spec u t) as [->|Hn].
  - apply afind_adel_same.
  - now rewrite afind_adel_other by (first [exact Zeqb_iff|congruence]).
Qed.
Lemma add_live s t : live (addTimeBlock s t None) t <> None.
Proof.
  unfold addTimeBlock. destruct (live s t) as [p|] eqn:E; [congruence|]. unfold live; cbn [m_live set_live].
  rewrite (afind_aset_same _ Zeqb_iff). discriminate.
Qed.

Lemma gput c s g key v s' r : ginv c s g -> item_ok key v ->
  (g_slot g key = Absent \/ exists w, g_slot g key = Held (g_cur g) w) -> mem_put c s key v = (s', r) ->
  exists g', gacts c g (OPut key v) (ORes r) g' /\ ginv c s' g'.
Proof.
  intros [W Fr H F C O Q] Hk Hs E. unfold mem_put in E.
  destruct (put_in_inv _ _ _ _ _ _ _ _ W Fr Hk E) as (C' & [(-> & W' & Fr' & Hl)|(-> & -> & Hl)]).
  - exists (gset g key (Held (g_cur g) v)). split; [apply ga_put; [exact Hs|]; apply O; congruence|].
    assert (Ea : forall t k, A_of (g_slot (gset g key (Held (g_cur g) v))) t k = upd (A_of (g_slot g)) (m_cur s) key (Some v) t k).
    { intros t k. unfold A_of, upd, gset; cbn [g_slot]. rewrite C. destruct (N.eqb_spec k key) as [->|].
      - rewrite andb_true_r, Z.eqb_sym. destruct (Z.eqb_spec t (g_cur g)) as [->|Hn]; [reflexivity|].
        destruct Hs as [->|[w ->]]; [reflexivity|]. destruct (Z.eqb_spec (g_cur g) t); [congruence|reflexivity].
      - rewrite andb_false_r. reflexivity. }
    unfold put_in in E. rewrite (wi_open _ _ W) in E. destruct (live s (m_cur s)) as [p|] eqn:El; [|congruence].
    destruct (block_put s p (false, key) v) as [s2|] eqn:Ep; [|congruence]. injection E as <-.
    destruct (addTimeFilter_same c s2 (m_cur s) key) as (S1 & S2 & S3 & S4 & S5 & S6).
    destruct (block_put_q _ _ _ _ _ Ep) as [Q1 Q2].
    destruct (block_put_inv _ _ _ _ (false, key) v _ W El Hk Ep) as (_ & _ & _ & L2).
    rewrite C in *.
    split.
    + eapply winv_ext; [exact W'|exact Ea].
    + eapply frec_ext; [exact Fr'|exact Ea].
    + eapply hinv_same; [exact (hinv_put _ _ _ _ _ _ _ H W El Ep (or_intror Hs))|exact S1|exact S2|exact S4|reflexivity].
    + cbn [g_slot g_cur gset]. apply finv_put; [|exact Hs]. eapply finv_same; [exact F|exact Q2|lia|auto].
    + cbn [g_cur gset]. congruence.
    + cbn [g_cur gset g_open]. unfold live in *. rewrite S4, L2. exact O.
    + destruct (update_qlen c s2 key (g_cur g)) as [U1 U2]. rewrite U1, U2, Q1, Q2. exact Q.
  - exists g. split; [|split; assumption]. apply ga_put_no. destruct (g_open g) eqn:Eo; [|reflexivity].
    exfalso. apply (proj2 O eq_refl). congruence.
Qed.

Lemma gdelete c s g key s' r : ginv c s g -> (key < 2 ^ 64)%N -> mem_delete c s key = (s', r) ->
  exists g', gacts c g (ODelete key) (ORes r) g' /\ ginv c s' g'.
Proof.
  intros [W Fr H F C O Q] Hk E.
  destruct (mem_delete_inv _ _ _ _ _ _ W Fr Hk E) as (C' & [(-> & -> & Hn)|(t & Ha & Hnew & Hr & W' & Fr' & Ff)]).
  - exists g. split; [|split; assumption]. apply ga_del_no. intros t v Hs.
    destruct (newest_held _ _ _ _ _ _ _ W Fr F Hs) as (p & x & E2 & _). congruence.
  - apply A_of_some in Ha as [v Hs]. exists (gset g key Absent).
    assert (Ea : forall t' k, A_of (g_slot (gset g key Absent)) t' k = upd (A_of (g_slot g)) t key None t' k).
    { intros t' k. unfold A_of, upd, gset; cbn [g_slot]. destruct (N.eqb_spec k key) as [->|].
      - rewrite andb_true_r. destruct (Z.eqb_spec t' t) as [->|]; [reflexivity|]. rewrite Hs.
        destruct (Z.eqb_spec t t'); [congruence|reflexivity].
      - rewrite andb_false_r. reflexivity. }
    unfold mem_delete in E. rewrite (wi_open _ _ W) in E.
    destruct (newest_held _ _ _ _ _ _ _ W Fr F Hs) as (p & x & E2 & _). rewrite E2 in E.
    destruct (newest_inv _ _ _ _ _ _ W Fr E2) as (Hl & Ha & _).
    destruct (block_delete_inv _ _ _ _ _ W Hl Ha) as (s1 & E1 & W1 & F1 & C1 & L1). rewrite E1 in E.
    assert (Hl1 : live s1 t = Some p) by (unfold live; rewrite L1; exact Hl).
    pose proof (winv_ext _ _ _ W1 Ea) as W1'.
    assert (H1 : hinv s1 (g_slot (gset g key Absent))).
    { unfold block_delete in E1. destruct (nth_error (m_blocks s) p) as [b|] eqn:Hb; [|discriminate].
      destruct (nth_error (m_bufs s) (mb_buf b)) as [d|]; [|discriminate]. injection E1 as <-.
      eapply hinv_mod; [exact H|exact Hl|exact Hb|intros; eapply live_inj; eassumption|reflexivity|..]; cbn [mb_recs].
      - intros k off Hf. unfold gset; cbn [g_slot]. destruct (N.eqb_spec k key) as [->|Hn].
        + rewrite afind_adel_same in Hf. discriminate.
        + rewrite (afind_adel_other _ ik_eqb_iff) in Hf by congruence.
          exact (live_recs _ _ _ _ _ _ _ H Hl W Hb Hf).
      - intros p2 b2 k off Hn Hb2 Hf. unfold gset; cbn [g_slot]. destruct (N.eqb_spec k key) as [->|]; [|reflexivity].
        exfalso. apply Hn. assert (live s t = Some p2) by (eapply recs_elsewhere; try eassumption; eauto). congruence. }
    assert (Q1 : m_qfilters s1 = m_qfilters s).
    { unfold block_delete in E1. destruct (nth_error (m_blocks s) p) as [b|]; [|discriminate].
      destruct (nth_error (m_bufs s) (mb_buf b)) as [d|]; [|discriminate]. now injection E1 as <-. }
    assert (Fv : forall s0, m_filters s0 = m_filters s -> finv c s0 (g_slot (gset g key Absent)) (g_cur g)).
    { intros s0 E0. eapply finv_same; [exact F|exact E0|lia|]. intros k u w. unfold gset; cbn [g_slot].
      destruct (k =? key)%N; [discriminate|auto]. }
    destruct (wi_blk _ _ W1 _ _ Hl1) as (b & d & rs & [G1 G1'] & _). rewrite G1 in E.
    assert (Fin : forall s0, winv s0 (A_of (g_slot (gset g key Absent))) -> hinv s0 (g_slot (gset g key Absent)) ->
       m_qfilters s0 = m_qfilters s -> m_filters s0 = m_filters s -> m_cur s0 = m_cur s -> m_live s0 = m_live s ->
       move s0 t key = (s', r) ->
       gacts c g (ODelete key) (ORes r) (gset g key Absent) /\ ginv c s' (gset g key Absent)).
    { intros s0 W0 H0 Q0 F0 C0 L0 Em. destruct (move_inv _ _ _ _ _ _ W0 Hk Em) as (W2 & R2 & F2 & C2 & L2).
      split.
      - eapply ga_del; [exact Hs|]. destruct R2 as [R2| ->]; [now left|]. right. split; [reflexivity|].
        unfold move in Em. rewrite C0, C in Em. destruct (live s0 (g_cur g)) as [q|] eqn:Eq.
        + destruct (block_put_some _ _ _ _ (true, key) (le 8 (to_unsigned 64 t)) W0 Eq) as [s3 E3].
          rewrite E3 in Em. discriminate.
        + destruct (g_open g) eqn:Eo; [|reflexivity]. exfalso. apply (proj2 O eq_refl).
          unfold live in *. now rewrite <- L0.
      - split.
        + exact W2.
        + eapply frec_ext; [exact Fr'|exact Ea].
        + eapply hinv_move; eassumption.
        + apply Fv. congruence.
        + cbn [g_cur gset]. congruence.
        + cbn [g_cur gset g_open]. unfold live in *. rewrite L2, L0. exact O.
        + rewrite F2, F0, <- Q. apply move_q in Em. now rewrite Em, Q0. }
    destruct (Z.eqb_spec (mb_count b) 0) as [Hc|Hc]; cbn [andb] in E.
    2:{ eapply Fin; try eassumption. }
    destruct (drop_tombs_inv _ _ _ _ _ W1' Hl1 G1 Hc) as (W2 & F2 & C2 & L2 & b2 & B2 & R2).
    pose proof (hinv_drop_tombs _ _ _ _ _ H1 W1' Hl1 G1 Hc) as H2.
    destruct (Z.ltb_spec t (m_cur (drop_tombs s1 p))) as [Hlt|Hlt].
    + destruct (releaseLog (drop_tombs s1 p) t) as [s2|] eqn:Er.
      * injection E as <- <-. split; [eapply ga_del; [exact Hs|now left]|].
        destruct (releaseLog_inv _ _ _ _ W2 Er) as (W3 & F3 & C3).
        assert (Hno : forall k w, g_slot (gset g key Absent) k <> Held t w).
        { intros k w Hk2. assert (Hl2 : live (drop_tombs s1 p) t = Some p) by (unfold live in *; now rewrite L2).
          assert (A_of (g_slot (gset g key Absent)) t k = None) as En.
          { apply (has_spec _ _ _ _ _ W2 Hl2). unfold rec_off. rewrite B2, R2. reflexivity. }
          apply A_of_held in Hk2. congruence. }
        split.
        -- eapply winv_ext; [exact W3|]. intros u k. unfold clear. destruct (Z.eqb_spec u t) as [->|]; [|reflexivity].
           destruct (A_of (g_slot (gset g key Absent)) t k) as [w|] eqn:Ew; [|reflexivity].
           apply A_of_held in Ew. exfalso. eapply Hno, Ew.
        -- eapply frec_ext; [exact Fr'|exact Ea].
        -- eapply hinv_same; [exact (hinv_release _ _ _ _ H2 W2 Er)|reflexivity..|].
           intros k. cbn beta. destruct (g_slot (gset g key Absent) k) as [|u w|] eqn:Ek; [reflexivity| |reflexivity].
           destruct (Z.eqb_spec u t) as [->|]; [|reflexivity]. exfalso. eapply Hno, Ek.
        -- apply Fv. congruence.
        -- cbn [g_cur gset]. congruence.
        -- cbn [g_cur gset g_open]. rewrite (release_live _ _ _ (g_cur g) Er).
           destruct (Z.eqb_spec (g_cur g) t) as [Ec|]; [rewrite C2, C1, C in Hlt; lia|].
           unfold live in *. rewrite L2, L1. exact O.
        -- rewrite (release_q _ _ _ Er), drop_tombs_q, Q1, F3, F2, F1. exact Q.
      * exfalso. unfold releaseLog, live in Er. rewrite L2 in Er. fold (live s1 t) in Er. rewrite Hl1, B2 in Er. discriminate.
    + eapply (Fin (drop_tombs s1 p)); try eassumption; try congruence. rewrite drop_tombs_q. exact Q1.
Qed.

Lemma gstep c s g o s' out : ginv c s g -> allowed c g o -> op_ok o -> mstep c s o = (s', out) ->
  exists g', gacts c g o out g' /\ ginv c s' g'.
Proof.
  intros I Ha Ho E. pose proof I as [W Fr H F C O Q]. destruct o; cbn [mstep op_ok allowed] in *.
  - destruct (mem_put c s key data) as [s1 r] eqn:Ep. injection E as <- <-. eapply gput; eassumption.
  - destruct (mem_delete c s key) as [s1 r] eqn:Ed. injection E as <- <-. eapply gdelete; eassumption.
  - destruct (mem_get c s key) as [s1 r] eqn:Eg. injection E as <- <-. exists g.
    pose proof (get_ok _ _ _ _ key H W Fr F Q) as R. rewrite Eg in R. cbn [snd] in R. split.
    + unfold answers in R. destruct (g_slot g key) as [|t v|] eqn:Es.
      * subst r. now apply ga_get_no.
      * subst r. now apply (ga_get c g key t).
      * now apply ga_get_freed.
    + pose proof (mem_get_qlen _ _ _ _ _ _ Eg) as Lq. apply mem_get_same in Eg as (qr & qf & qb & ->).
      split; try assumption.
      * eapply winv_same; [exact W|reflexivity..].
      * eapply hinv_same; [exact H|reflexivity..].
      * cbn [m_qfilters set_query m_filters] in *. congruence.
  - unfold mem_free in E. destruct (releaseLog s t) as [s1|] eqn:Er; injection E as <- <-.
    + exists (gfree g t). destruct (releaseLog_inv _ _ _ _ W Er) as (W3 & F3 & C3).
      assert (Ea : forall u k, A_of (g_slot (gfree g t)) u k = clear (A_of (g_slot g)) t u k).
      { intros u k. unfold A_of, clear, gfree; cbn [g_slot]. destruct (g_slot g k) as [|t' v|].
        - now destruct (u =? t).
        - destruct (Z.eqb_spec t' t) as [->|N1]; destruct (Z.eqb_spec u t) as [->|N2]; try reflexivity.
          + destruct (Z.eqb_spec t u); [congruence|reflexivity].
          + destruct (Z.eqb_spec t' t); [contradiction|reflexivity].
        - now destruct (u =? t). }
      split.
      * apply ga_free. intros ->. apply O. unfold releaseLog in Er. destruct (live s (g_cur g)); [discriminate|congruence].
      * split.
        -- eapply winv_ext; [exact W3|exact Ea].
        -- apply (frec_ext c s1 (clear (A_of (g_slot g)) t)); [|exact Ea].
           eapply frec_same; [exact Fr|exact F3|]. intros u k. unfold clear. destruct (u =? t); [congruence|auto].
        -- exact (hinv_release _ _ _ _ H W Er).
        -- eapply finv_same; [exact F|exact F3|cbn; lia|]. intros k u w. unfold gfree; cbn [g_slot].
           destruct (g_slot g k) as [|t' v|]; try discriminate. destruct (t' =? t); [discriminate|auto].
        -- cbn [g_cur gfree]. congruence.
        -- cbn [g_cur gfree g_open]. rewrite (release_live _ _ _ (g_cur g) Er), Z.eqb_sym.
           destruct (Z.eqb_spec t (g_cur g)); cbn [negb]; [rewrite andb_false_r; split; congruence|].
           rewrite andb_true_r. exact O.
        -- rewrite (release_q _ _ _ Er), F3. exact Q.
    + exists g. split; [|exact I].
      assert (El : live s t = None).
      { unfold releaseLog in Er. destruct (live s t) as [p|] eqn:El; [|reflexivity].
        destruct (wi_blk _ _ W _ _ El) as (b & d & rs & [G1 _] & _). rewrite G1 in Er. discriminate. }
      apply ga_free_no.
      * intros ->. destruct (g_open g); [|reflexivity]. exfalso. apply (proj2 O eq_refl). exact El.
      * intros k v Hh. apply A_of_held in Hh. rewrite (wi_none _ _ W _ k El) in Hh. discriminate.
  - destruct Ha as [-> Hle]. injection E as <- <-. exists (mkG (trunc now (c_dur c)) true (g_slot g)).
    split; [now apply ga_tick|]. unfold mem_tick. set (s1 := set_log s _ _ _).
    assert (W1 : winv s1 (A_of (g_slot g))) by (eapply winv_same; [exact W|reflexivity..]).
    assert (H1 : hinv s1 (g_slot g)) by (eapply hinv_same; [exact H|reflexivity..]).
    destruct (newTinyLog_inv c s1 _ now None W1) as (W2 & F2 & C2). split; cbn [g_slot g_cur g_open].
    + exact W2.
    + eapply frec_same; [exact Fr|rewrite F2; reflexivity|auto].
    + unfold newTinyLog. eapply hinv_same; [exact (hinv_add _ _ _ (trunc now (c_dur c)) H1 W1)|reflexivity..].
    + eapply finv_same; [exact F|rewrite F2; reflexivity|exact Hle|auto].
    + exact C2.
    + split; [reflexivity|]. intros _. exact (add_live s1 (trunc now (c_dur c))).
    + unfold newTinyLog. cbn [m_qfilters m_filters set_log mark_add set_marks]. rewrite add_q.
      destruct (addTimeBlock_inv s1 _ (trunc now (c_dur c)) None W1) as (_ & F3 & _). rewrite F3. exact Q.
  - injection E as <- <-. exists g. split; [apply ga_commit|]. destruct (commit_inv s _ W) as (W2 & F2 & C2 & L2). split.
    + exact W2.
    + eapply frec_same; [exact Fr|exact F2|auto].
    + unfold mem_commit. destruct (m_queue s) as [|[id t] q]; [exact H|]. set (s1 := set_log s _ _ _).
      assert (W1 : winv s1 (A_of (g_slot g))) by (eapply winv_same; [exact W|reflexivity..]).
      assert (H1 : hinv s1 (g_slot g)) by (eapply hinv_same; [exact H|reflexivity..]).
      pose proof (hinv_tiny s1 (g_slot g) id t H1 W1) as H2.
      destruct (marks_same (tinyWrite s1 id t) t _ (or_intror (or_introl eq_refl))) as (M1 & M2 & _ & M4 & _).
      eapply hinv_same; [exact H2|exact M1|exact M2|exact M4|reflexivity].
    + eapply finv_same; [exact F|exact F2|lia|auto].
    + congruence.
    + unfold live in *. rewrite L2. exact O.
    + rewrite F2, <- Q. unfold mem_commit. destruct (m_queue s) as [|[id t] q]; [reflexivity|].
      rewrite mark_release_q, tiny_q. reflexivity.
  - injection E as <- <-. exists g. split; [apply ga_drop|].
    assert (S : exists q, mem_drop s = set_log s (m_cur s) (m_curid s) q).
    { unfold mem_drop. destruct (m_queue s) as [|x q] eqn:Eq; [|eauto]. exists (m_queue s). clear. now destruct s. }
    destruct S as [q ->]. split; try assumption.
    + eapply winv_same; [exact W|reflexivity..].
    + eapply hinv_same; [exact H|reflexivity..].
  - contradiction.
  - contradiction.
  - contradiction.
  - contradiction.
Qed.

Lemma ginv_empty c gens now s : cfg_ok c gens -> mem_open c gens [] now = Some s -> ginv c s (gstart c now).
Proof.
  intros Hc E. pose proof E as E'. destruct (empty_inv _ _ _ _ Hc E) as (W & Fr & C). destruct Hc as [Hg Hc].
  unfold mem_open in E. cbn [replay all_ids flat_map map recover_logs fold_left] in E. injection E as <-.
  split; cbn [gstart g_slot g_cur g_open].
  - eapply winv_ext; [exact W|reflexivity].
  - eapply frec_ext; [exact Fr|reflexivity].
  - split; cbn [newTinyLog addTimeBlock mem_empty live m_live afind set_log mark_add set_marks set_live set_heap m_blocks m_bufs app length].
    + reflexivity.
    + intros [|p] b Hp; cbn [nth_error] in Hp; [injection Hp as <-; reflexivity|destruct p; discriminate].
    + intros [|p] b k off Hp Ha; cbn [nth_error] in Hp; [injection Hp as <-; discriminate|destruct p; discriminate].
  - intros i r Hr.
    assert (Ef : m_filters (newTinyLog c (mem_empty gens []) now None) = map (fun g => mkTF [] g) gens) by reflexivity.
    rewrite Ef in Hr. rewrite nth_error_map in Hr. destruct (nth_error gens i) as [g|] eqn:Eg; [|discriminate].
    injection Hr as <-. cbn [tf_gen tf_recs]. split.
    + exists g, []. split; [|reflexivity]. apply (proj1 (Forall_forall _ _) Hg). eapply nth_error_In, Eg.
    + split; [intros t f []|discriminate].
  - exact C.
  - split; [reflexivity|]. intros _. exact (add_live (mem_empty gens []) (trunc now (c_dur c))).
  - unfold newTinyLog. cbn [m_qfilters m_filters set_log mark_add set_marks]. unfold addTimeBlock.
    cbn [live mem_empty m_live afind set_live set_heap m_qfilters m_filters]. now rewrite !map_length.
Qed.

Lemma grun c s h s' : mrun c s h s' -> forall g, ginv c s g ->
  (forall h1 o out h2 g1, h = h1 ++ (o, out) :: h2 -> gacts_all c g h1 g1 -> allowed c g1 o /\ op_ok o) ->
  exists g', gacts_all c g h g' /\ ginv c s' g'.
Proof.
  induction 1 as [s|s o s1 out h s' E Hr IH]; intros g I Ha.
  - exists g. split; [constructor|exact I].
  - destruct (Ha [] o out h g eq_refl (gl_nil c g)) as [Ha1 Ho].
    destruct (gstep _ _ _ _ _ _ I Ha1 Ho E) as (g1 & G1 & I1).
    destruct (IH g1 I1) as (g2 & G2 & I2).
    + intros h1 o2 out2 h2 g3 -> Hg. apply (Ha ((o, out) :: h1) o2 out2 h2 g3 eq_refl). econstructor; eassumption.
    + exists g2. split; [econstructor; eassumption|exact I2].
Qed.
