(** Proofs about the in-memory store: each time block holds what was put there. *)
From Verif Require Import M_Bytes M_Hash M_Bloom M_Wal M_MemDB S_MemDB P_Bytes P_Bloom P_MemBlock.
From Coq Require Import Lia ZifyBool ZifyNat ZifyN Sorted.
Open Scope Z_scope.

(** * Sorting *)
Lemma insert_asc_in x l y : In y (insert_asc x l) <-> y = x \/ In y l.
Proof.
  induction l as [|z l IH]; cbn [insert_asc].
  - cbn. intuition.
  - destruct (x <=? z); cbn [In]; [intuition|]. rewrite IH. intuition.
Qed.
Lemma sort_asc_in l y : In y (sort_asc l) <-> In y l.
Proof. induction l as [|x l IH]; [reflexivity|]. cbn [sort_asc fold_right]. fold (sort_asc l). rewrite insert_asc_in, IH. cbn [In]. intuition. Qed.
Lemma insert_asc_sorted x l : StronglySorted Z.le l -> StronglySorted Z.le (insert_asc x l).
Proof.
  induction 1 as [|z l Hs IH Hz]; cbn [insert_asc]; [repeat constructor|].
  destruct (Z.leb_spec x z).
  - constructor; [constructor; assumption|]. constructor; [assumption|].
    eapply Forall_impl; [|exact Hz]. intros; cbn in *; lia.
  - constructor; [exact IH|]. apply Forall_forall. intros y Hy. apply insert_asc_in in Hy as [->|Hy]; [lia|].
    now apply (proj1 (Forall_forall _ _) Hz).
Qed.
Lemma sort_asc_sorted l : StronglySorted Z.le (sort_asc l).
Proof. induction l as [|x l IH]; [constructor|]. cbn [sort_asc fold_right]. now apply insert_asc_sorted. Qed.
Lemma sort_desc_in l y : In y (sort_desc l) <-> In y l.
Proof. unfold sort_desc. rewrite <- in_rev. apply sort_asc_in. Qed.
Lemma sorted_app_end l x : StronglySorted Z.ge l -> Forall (fun y => y >= x) l -> StronglySorted Z.ge (l ++ [x]).
Proof.
  induction 1 as [|a l Hs IH Ha]; intros Hf; cbn [app]; [repeat constructor|].
  inversion Hf; subst. constructor; [now apply IH|]. apply Forall_app. split; [exact Ha|]. constructor; [lia|constructor].
Qed.
Lemma sort_desc_sorted l : StronglySorted Z.ge (sort_desc l).
Proof.
  unfold sort_desc. pose proof (sort_asc_sorted l) as H. induction H as [|a l' Hs IH Ha]; [constructor|].
  cbn [rev]. apply sorted_app_end; [exact IH|]. apply Forall_forall. intros y Hy. apply in_rev in Hy.
  pose proof (proj1 (Forall_forall _ _) Ha y Hy). cbn in *. lia.
Qed.

(** * The newest block of a key *)
Lemma find_block_some s key recs ids t p : find_block s key recs ids = Some (t, p) ->
  In t ids /\ live s t = Some p /\ rec_off s p (false, key) <> None /\
  exists l1 l2, ids = l1 ++ t :: l2 /\
    forall t', In t' l1 -> forall p', live s t' = Some p' -> rec_off s p' (false, key) = None.
Proof.
  induction ids as [|u ids IH]; [discriminate|]. cbn [find_block].
  destruct (live s u) as [q|] eqn:El.
  - destruct (rec_off s q (false, key)) as [o|] eqn:Er.
    + intros [= -> ->]. split; [now left|]. split; [exact El|]. split; [congruence|].
      exists [], ids. split; [reflexivity|]. intros t' [].
    + destruct (afind Z.eqb recs u) as [f|]; [|discriminate]. destruct (fl_test f key); [|discriminate].
      intros H. destruct (IH H) as (H1 & H2 & H3 & l1 & l2 & -> & H4). split; [now right|]. split; [exact H2|].
      split; [exact H3|]. exists (u :: l1), l2. split; [reflexivity|].
      intros t' [<-|Ht'] p' Hp'; [|now apply (H4 t' Ht')]. rewrite El in Hp'. now injection Hp' as <-.
  - intros H. destruct (IH H) as (H1 & H2 & H3 & l1 & l2 & -> & H4). split; [now right|]. split; [exact H2|].
    split; [exact H3|]. exists (u :: l1), l2. split; [reflexivity|].
    intros t' [<-|Ht'] p' Hp'; [congruence|]. now apply (H4 t' Ht').
Qed.

Lemma newest_some c s key t p : newest c s key = Some (t, p) ->
  live s t = Some p /\ rec_off s p (false, key) <> None /\
  forall r, nth_error (m_filters s) (c_bkey c key) = Some r ->
    In t (map fst (tf_recs r)) /\
    forall t' p', t < t' -> In t' (map fst (tf_recs r)) -> live s t' = Some p' -> rec_off s p' (false, key) = None.
Proof.
  unfold newest. destruct (nth_error (m_filters s) (c_bkey c key)) as [r|]; [|discriminate].
  intros H. apply find_block_some in H as (H1 & H2 & H3 & l1 & l2 & E & H4).
  split; [exact H2|]. split; [exact H3|]. intros r' [= <-]. split; [exact (proj1 (sort_desc_in _ _) H1)|].
  intros t' p' Hlt Hin Hl. apply (H4 t'); [|exact Hl].
  apply (proj2 (sort_desc_in _ _)) in Hin. pose proof (sort_desc_sorted (map fst (tf_recs r))) as S. rewrite E in S, Hin.
  apply in_app_or in Hin as [Hin|Hin]; [exact Hin|]. exfalso.
  clear - S Hlt Hin. induction l1 as [|a l1 IH]; cbn [app] in S; apply StronglySorted_inv in S as [S1 S2]; [|now apply IH].
  destruct Hin as [->|Hin]; [lia|]. pose proof (proj1 (Forall_forall _ _) S2 t' Hin). cbn in *. lia.
Qed.

(** * The invariant *)
Definition kok (recs : list (ikey * Z)) : Prop := Forall (fun e => (snd (fst e) < 2 ^ 64)%N) recs.

Definition blk_at (s : mdb) (p : nat) (b : mblock) (d : bytes) : Prop :=
  nth_error (m_blocks s) p = Some b /\ nth_error (m_bufs s) (mb_buf b) = Some d.

Record winv (s : mdb) (A : contents) : Prop := {
  wi_open : m_closed s = false;
  wi_blk : forall t p, live s t = Some p -> exists b d rs, blk_at s p b d /\
    block_inv d (mb_recs b) rs /\ Z.of_nat (nkeys (mb_recs b)) <= mb_count b /\ kok (mb_recs b) /\
    ~ In (mb_buf b) (m_pool s) /\ forall k, A t k = bval d (mb_recs b) k;
  wi_none : forall t k, live s t = None -> A t k = None;
  wi_sep : forall t1 t2 p1 p2 b1 b2, t1 <> t2 -> live s t1 = Some p1 -> live s t2 = Some p2 ->
    nth_error (m_blocks s) p1 = Some b1 -> nth_error (m_blocks s) p2 = Some b2 ->
    p1 <> p2 /\ mb_buf b1 <> mb_buf b2;
  wi_pool : forall i, In i (m_pool s) -> (i < length (m_bufs s))%nat
}.

(** Every key is found among the times of its filter. *)
Definition frec (c : mcfg) (s : mdb) (A : contents) : Prop :=
  (forall k, (c_bkey c k < length (m_filters s))%nat) /\
  forall t k, A t k <> None -> exists r, nth_error (m_filters s) (c_bkey c k) = Some r /\ In t (map fst (tf_recs r)).

Lemma winv_same s s' A : winv s A -> m_blocks s' = m_blocks s -> m_bufs s' = m_bufs s -> m_pool s' = m_pool s ->
  m_live s' = m_live s -> m_closed s' = m_closed s -> winv s' A.
Proof.
  intros [H1 H2 H3 H4 H5] E1 E2 E3 E4 E5. split; unfold live, blk_at in *; rewrite ?E1, ?E2, ?E3, ?E4, ?E5; assumption.
Qed.
Lemma winv_ext s A A' : winv s A -> (forall t k, A' t k = A t k) -> winv s A'.
Proof.
  intros [H1 H2 H3 H4 H5] E. split; try assumption.
  - intros t p Hl. destruct (H2 t p Hl) as (b & d & rs & G1 & G2 & G3 & G4 & G5 & G6).
    exists b, d, rs. repeat split; try assumption; try apply G1; try apply G2. intros k. rewrite E. apply G6.
  - intros t k Hl. rewrite E. now apply H3.
Qed.

Lemma lookup_spec s A : winv s A -> forall t k,
  mem_lookup s t k = match A t k with Some v => GOk v | None => GNotExist end.
Proof.
  intros [H1 H2 H3 H4 H5] t k. unfold mem_lookup. rewrite H1.
  destruct (live s t) as [p|] eqn:El; [|now rewrite (H3 t k El)].
  destruct (H2 t p El) as (b & d & rs & [G1 G1'] & G2 & G3 & G4 & G5 & G6). rewrite G6.
  unfold rec_off, block_get. rewrite G1, G1'. pose proof (bval_get _ _ _ k G2) as V.
  destruct (afind ik_eqb (mb_recs b) (false, k)) as [off|].
  - destruct V as (v & -> & ->). reflexivity.
  - now rewrite V.
Qed.

Lemma has_spec s A t p k : winv s A -> live s t = Some p -> (rec_off s p (false, k) = None <-> A t k = None).
Proof.
  intros H Hl. destruct (wi_blk _ _ H _ _ Hl) as (b & d & rs & [G1 G1'] & G2 & _ & _ & _ & G6). rewrite G6.
  unfold rec_off. rewrite G1. pose proof (bval_get _ _ _ k G2) as V.
  destruct (afind ik_eqb (mb_recs b) (false, k)) as [off|]; [|tauto].
  destruct V as (v & -> & _). split; discriminate.
Qed.

(** One block changes. *)
Lemma winv_mod s A t p b d b' d' rs' A' : winv s A -> live s t = Some p -> blk_at s p b d ->
  mb_buf b' = mb_buf b -> block_inv d' (mb_recs b') rs' -> Z.of_nat (nkeys (mb_recs b')) <= mb_count b' ->
  kok (mb_recs b') -> (forall k, A' t k = bval d' (mb_recs b') k) ->
  (forall t' k, t' <> t -> A' t' k = A t' k) ->
  winv (set_block (set_buf s (mb_buf b) d') p b') A'.
Proof.
  intros H Hl [Hb Hd] Eb Hi Hc Hk Ha Hr. pose proof H as [H1 H2 H3 H4 H5].
  pose proof (nth_error_lt _ _ _ Hb) as Lb. pose proof (nth_error_lt _ _ _ Hd) as Ld.
  split; cbn [m_closed set_block set_buf m_pool m_blocks m_bufs].
  - exact H1.
  - intros t' p' Hl'. change (live s t' = Some p') in Hl'. unfold blk_at; cbn [m_blocks m_bufs set_block set_buf m_pool].
    destruct (Z.eq_dec t' t) as [->|Hn].
    + rewrite Hl in Hl'. injection Hl' as <-. exists b', d', rs'. rewrite !nth_error_update by (rewrite ?Eb; assumption).
      rewrite Eb, !Nat.eqb_refl. split; [auto|]. split; [exact Hi|]. split; [exact Hc|]. split; [exact Hk|].
      split; [|exact Ha]. destruct (H2 t p Hl) as (b2 & d2 & rs2 & [G1 _] & _ & _ & _ & G5 & _). congruence.
    + destruct (H2 t' p' Hl') as (b2 & d2 & rs2 & [G1 G1'] & G2 & G3 & G4 & G5 & G6).
      destruct (H4 t' t p' p b2 b Hn Hl' Hl G1 Hb) as [S1 S2].
      exists b2, d2, rs2. rewrite !nth_error_update by assumption.
      destruct (Nat.eqb_spec p' p); [contradiction|]. destruct (Nat.eqb_spec (mb_buf b2) (mb_buf b)); [contradiction|].
      split; [auto|]. split; [exact G2|]. split; [exact G3|]. split; [exact G4|]. split; [exact G5|].
      intros k. rewrite Hr by exact Hn. apply G6.
  - intros t' k Hl'. change (live s t' = None) in Hl'. destruct (Z.eq_dec t' t) as [->|Hn]; [congruence|].
    rewrite Hr by exact Hn. now apply H3.
  - intros t1 t2 p1 p2 b1 b2 Hn L1 L2 B1 B2. change (live s t1 = Some p1) in L1. change (live s t2 = Some p2) in L2.
    rewrite nth_error_update in B1, B2 by exact Lb.
    assert (F : forall q x, (if Nat.eqb q p then Some b' else nth_error (m_blocks s) q) = Some x ->
               exists y, nth_error (m_blocks s) q = Some y /\ mb_buf y = mb_buf x).
    { intros q x Hx. destruct (Nat.eqb_spec q p) as [->|]; [|eauto]. injection Hx as <-. eauto. }
    destruct (F _ _ B1) as (y1 & Y1 & E1). destruct (F _ _ B2) as (y2 & Y2 & E2).
    rewrite <- E1, <- E2. now apply (H4 t1 t2).
  - intros i Hin. rewrite update_length. now apply H5.
Qed.

Lemma kok_aset recs k o : kok recs -> (snd k < 2 ^ 64)%N -> kok (aset ik_eqb recs k o).
Proof.
  intros H Hk. unfold aset. constructor; [exact Hk|]. apply Forall_forall. intros x Hx. apply filter_In in Hx as [Hx _].
  now apply (proj1 (Forall_forall _ _) H).
Qed.
Lemma kok_adel recs k : kok recs -> kok (adel ik_eqb recs k).
Proof.
  intros H. apply Forall_forall. intros x Hx. apply filter_In in Hx as [Hx _].
  now apply (proj1 (Forall_forall _ _) H).
Qed.

Lemma block_put_inv s A t p k v s' : winv s A -> live s t = Some p -> item_ok (snd k) v ->
  block_put s p k v = Some s' ->
  winv s' (if fst k then A else upd A t (snd k) (Some v)) /\
  m_filters s' = m_filters s /\ m_cur s' = m_cur s /\ m_live s' = m_live s.
Proof.
  intros H Hl Hk E. destruct (wi_blk _ _ H _ _ Hl) as (b & d & rs & [G1 G1'] & G2 & G3 & G4 & G5 & G6).
  unfold block_put in E. rewrite G1, G1' in E. injection E as <-. split; [|auto].
  eapply winv_mod; [exact H|exact Hl|split; [exact G1|exact G1']|reflexivity|..]; cbn [mb_recs mb_count].
  - apply block_inv_put; [exact G2|exact Hk].
  - pose proof (nkeys_aset (mb_recs b) k (Z.of_nat (length d))). destruct (fst k); lia.
  - apply kok_aset; [exact G4|apply Hk].
  - intros k'. rewrite (bval_put _ _ rs) by assumption. destruct k as [fl key]. cbn [fst snd] in *. unfold ik_eqb; cbn [fst snd].
    destruct fl; cbn [Bool.eqb andb]; [apply G6|].
    unfold upd. rewrite Z.eqb_refl. cbn [andb]. destruct (N.eqb_spec k' key) as [->|Hn].
    + now rewrite N.eqb_refl.
    + destruct (N.eqb_spec key k'); [congruence|]. apply G6.
  - intros t' k' Hn. destruct (fst k); [reflexivity|]. unfold upd. destruct (Z.eqb_spec t' t); [contradiction|reflexivity].
Qed.

Lemma block_put_some s A t p k v : winv s A -> live s t = Some p -> exists s', block_put s p k v = Some s'.
Proof.
  intros H Hl. destruct (wi_blk _ _ H _ _ Hl) as (b & d & rs & [G1 G1'] & _).
  unfold block_put. rewrite G1, G1'. eauto.
Qed.

Lemma move_inv s A t key s' r : winv s A -> (key < 2 ^ 64)%N -> move s t key = (s', r) ->
  winv s' A /\ (r = MOk \/ r = MForbidden) /\ m_filters s' = m_filters s /\ m_cur s' = m_cur s /\ m_live s' = m_live s.
Proof.
  intros H Hk E. unfold move in E. destruct (live s (m_cur s)) as [p|] eqn:El.
  - destruct (block_put_some _ _ _ _ (true, key) (le 8 (to_unsigned 64 t)) H El) as [s2 E2]. rewrite E2 in E.
    injection E as <- <-.
    assert (Io : item_ok (snd (true, key)) (le 8 (to_unsigned 64 t))).
    { split; [exact Hk|]. rewrite le_length. split; [reflexivity|]. apply le_ok. }
    destruct (block_put_inv _ _ _ _ _ _ _ H El Io E2) as (W & F1 & F2 & F3). cbn [fst] in W. auto.
  - injection E as <- <-. auto.
Qed.

Lemma drop_tombs_inv s A t p b : winv s A -> live s t = Some p -> nth_error (m_blocks s) p = Some b ->
  mb_count b = 0 -> winv (drop_tombs s p) A /\ m_filters (drop_tombs s p) = m_filters s /\
    m_cur (drop_tombs s p) = m_cur s /\ m_live (drop_tombs s p) = m_live s /\
    exists b', nth_error (m_blocks (drop_tombs s p)) p = Some b' /\ mb_recs b' = [].
Proof.
  intros H Hl Hb Hc. unfold drop_tombs. rewrite Hb.
  destruct (wi_blk _ _ H _ _ Hl) as (b0 & d & rs & [G1 G1'] & G2 & G3 & G4 & G5 & G6).
  rewrite Hb in G1. injection G1 as <-.
  assert (An : forall k, A t k = None).
  { intros k. rewrite G6. unfold bval. rewrite nkeys_zero by lia. reflexivity. }
  set (f := fun (s : mdb) (e : ikey * Z) => match live s (snd e) with
       | Some _ => fst (move s (snd e) (snd (fst e))) | None => s end).
  assert (F : forall l s0, kok l -> winv s0 A -> let s1 := fold_left f l s0 in
             winv s1 A /\ m_filters s1 = m_filters s0 /\ m_cur s1 = m_cur s0 /\ m_live s1 = m_live s0).
  { induction l as [|e l IH]; intros s0 Hk H0; cbn [fold_left]; [auto|].
    inversion Hk; subst. assert (W : winv (f s0 e) A /\ m_filters (f s0 e) = m_filters s0 /\
      m_cur (f s0 e) = m_cur s0 /\ m_live (f s0 e) = m_live s0).
    { unfold f. destruct (live s0 (snd e)); [|auto]. destruct (move s0 (snd e) (snd (fst e))) as [s2 r] eqn:Em.
      destruct (move_inv _ _ _ _ _ _ H0 H3 Em) as (W & _ & W2). cbn [fst]. auto. }
    destruct W as (W1 & W2 & W3 & W4). destruct (IH (f s0 e)) as (I1 & I2 & I3 & I4); [assumption|assumption|].
    rewrite I2, I3, I4, W2, W3, W4. auto. }
  destruct (F _ _ G4 H) as (F1 & F2 & F3 & F4). fold f. set (s1 := fold_left f (mb_recs b) s) in *.
  assert (Hl1 : live s1 t = Some p) by (unfold live; rewrite F4; exact Hl).
  destruct (wi_blk _ _ F1 _ _ Hl1) as (b1 & d1 & rs1 & [K1 K1'] & K2 & K3 & K4 & K5 & K6). rewrite K1.
  split.
  - assert (E : set_block s1 p (mkMB (mb_count b1) (mb_buf b1) [] (mb_refs b1) (mb_last b1)) =
            set_block (set_buf s1 (mb_buf b1) d1) p (mkMB (mb_count b1) (mb_buf b1) [] (mb_refs b1) (mb_last b1))).
    { unfold set_block, set_buf; cbn. f_equal. symmetry. apply nth_ext with (d := []) (d' := []).
      - apply update_length.
      - intros i Hi. rewrite nth_update. destruct (Nat.eqb_spec (mb_buf b1) i) as [<-|]; [|reflexivity].
        cbn [andb]. destruct (Nat.ltb_spec (mb_buf b1) (length (m_bufs s1))); [|reflexivity]. symmetry. now apply nth_error_nth. }
    rewrite E. eapply winv_mod; [exact F1|exact Hl1|split; [exact K1|exact K1']|reflexivity|..]; cbn [mb_recs mb_count].
    + destruct K2 as [J1 J2 J3]. split; [exact J1|exact J2|]. intros k off Ek. discriminate.
    + cbn. lia.
    + constructor.
    + intros k. apply An.
    + reflexivity.
  - cbn [m_filters m_cur m_live set_block m_blocks]. split; [exact F2|]. split; [exact F3|]. split; [exact F4|].
    eexists. rewrite nth_error_update by (eapply nth_error_lt; exact K1). rewrite Nat.eqb_refl. split; reflexivity.
Qed.

Lemma releaseLog_inv s A t s' : winv s A -> releaseLog s t = Some s' ->
  winv s' (clear A t) /\ m_filters s' = m_filters s /\ m_cur s' = m_cur s.
Proof.
  intros H E. pose proof H as [H1 H2 H3 H4 H5]. unfold releaseLog in E. destruct (live s t) as [p|] eqn:El; [|discriminate].
  destruct (H2 t p El) as (b & d & rs & [G1 G1'] & G2 & G3 & G4 & G5 & G6). rewrite G1 in E. injection E as <-.
  pose proof (nth_error_lt _ _ _ G1') as Ld. split; [|auto].
  assert (L : forall u q, live (set_live (set_buf (mark_unref (set_wal s (fold_left del_log (mb_refs b) (m_wal s))) t)
      (mb_buf b) []) (adel Z.eqb (m_live s) t) (mb_buf b :: m_pool s)) u = Some q <-> u <> t /\ live s u = Some q).
  { intros u q. unfold live; cbn [m_live set_live]. destruct (Z.eq_dec u t) as [->|Hn].
    - rewrite afind_adel_same. split; [discriminate|tauto].
    - rewrite afind_adel_other by (first [exact Zeqb_iff|congruence]). tauto. }
  split; cbn [set_live set_buf mark_unref set_marks set_wal m_closed m_pool m_blocks m_bufs m_live] in *.
  - exact H1.
  - intros u q Hu. apply L in Hu as [Hn Hu]. destruct (H2 u q Hu) as (b2 & d2 & rs2 & [K1 K1'] & K2 & K3 & K4 & K5 & K6).
    destruct (H4 u t q p b2 b Hn Hu El K1 G1) as [S1 S2].
    exists b2, d2, rs2. unfold blk_at. cbn [m_blocks m_bufs set_live set_buf mark_unref set_marks set_wal].
    rewrite nth_error_update by exact Ld. destruct (Nat.eqb_spec (mb_buf b2) (mb_buf b)); [contradiction|].
    split; [auto|]. split; [exact K2|]. split; [exact K3|]. split; [exact K4|]. split.
    + intros [E|E]; [congruence|contradiction].
    + intros k. unfold clear. destruct (Z.eqb_spec u t); [contradiction|]. apply K6.
  - intros u k Hu. unfold clear. destruct (Z.eqb_spec u t) as [|Hn]; [reflexivity|]. apply H3.
    unfold live in Hu; cbn [m_live set_live] in Hu. now rewrite afind_adel_other in Hu by (first [exact Zeqb_iff|congruence]).
  - intros t1 t2 p1 p2 b1 b2 Hn L1 L2 B1 B2. apply L in L1 as [_ L1]. apply L in L2 as [_ L2]. now apply (H4 t1 t2).
  - intros i [<-|Hi]; rewrite update_length; [exact Ld|now apply H5].
Qed.

Lemma addTimeBlock_inv s A t pick : winv s A -> winv (addTimeBlock s t pick) A /\
  m_filters (addTimeBlock s t pick) = m_filters s /\ m_cur (addTimeBlock s t pick) = m_cur s.
Proof.
  intros H. unfold addTimeBlock. destruct (live s t) as [p0|] eqn:El; [auto|].
  pose proof H as [H1 H2 H3 H4 H5].
  set (ch := match pick with
    | Some i => if existsb (Nat.eqb i) (m_pool s)
                then (i, filter (fun j => negb (Nat.eqb i j)) (m_pool s), update (m_bufs s) i [])
                else (length (m_bufs s), m_pool s, m_bufs s ++ [[]])
    | None => (length (m_bufs s), m_pool s, m_bufs s ++ [[]]) end).
  assert (C : exists i pool bufs, ch = (i, pool, bufs) /\ nth_error bufs i = Some [] /\
     (length (m_bufs s) <= length bufs)%nat /\
     (forall j, In j pool -> In j (m_pool s)) /\ ~ In i pool /\
     (forall j, In j pool -> (j < length bufs)%nat) /\
     (forall u q b, live s u = Some q -> nth_error (m_blocks s) q = Some b -> mb_buf b <> i) /\
     (forall u q b, live s u = Some q -> nth_error (m_blocks s) q = Some b ->
        nth_error bufs (mb_buf b) = nth_error (m_bufs s) (mb_buf b))).
  { assert (N : exists i pool bufs, (length (m_bufs s), m_pool s, m_bufs s ++ [[]]) = (i, pool, bufs) /\ nth_error bufs i = Some [] /\
     (length (m_bufs s) <= length bufs)%nat /\
     (forall j, In j pool -> In j (m_pool s)) /\ ~ In i pool /\
     (forall j, In j pool -> (j < length bufs)%nat) /\
     (forall u q b, live s u = Some q -> nth_error (m_blocks s) q = Some b -> mb_buf b <> i) /\
     (forall u q b, live s u = Some q -> nth_error (m_blocks s) q = Some b ->
        nth_error bufs (mb_buf b) = nth_error (m_bufs s) (mb_buf b))).
    { exists (length (m_bufs s)), (m_pool s), (m_bufs s ++ [[]]). split; [reflexivity|].
      rewrite nth_error_app2, Nat.sub_diag by lia. split; [reflexivity|]. rewrite app_length. split; [lia|].
      split; [auto|]. split; [intros Hi; apply H5 in Hi; lia|]. split; [intros j Hj; apply H5 in Hj; lia|].
      assert (Q : forall u q b, live s u = Some q -> nth_error (m_blocks s) q = Some b -> (mb_buf b < length (m_bufs s))%nat).
      { intros u q b Hu Hq. destruct (H2 u q Hu) as (b2 & d2 & rs2 & [K1 K1'] & _). rewrite Hq in K1. injection K1 as <-.
        eapply nth_error_lt, K1'. }
      split; intros u q b Hu Hq; pose proof (Q u q b Hu Hq); [lia|]. now rewrite nth_error_app1. }
    unfold ch. destruct pick as [i|]; [|exact N]. destruct (existsb (Nat.eqb i) (m_pool s)) eqn:Ex; [|exact N].
    apply existsb_exists in Ex as (i' & Hi & Ei). apply Nat.eqb_eq in Ei. subst i'.
    pose proof (H5 i Hi) as Li.
    exists i, (filter (fun j => negb (Nat.eqb i j)) (m_pool s)), (update (m_bufs s) i []). split; [reflexivity|].
    rewrite update_length. rewrite nth_error_update by exact Li. rewrite Nat.eqb_refl. split; [reflexivity|]. split; [lia|].
    split; [intros j Hj; now apply filter_In in Hj|].
    split; [intros Hf; apply filter_In in Hf as [_ Hf]; now rewrite Nat.eqb_refl in Hf|].
    split; [intros j Hj; apply H5; now apply filter_In in Hj|].
    assert (Q : forall u q b, live s u = Some q -> nth_error (m_blocks s) q = Some b -> mb_buf b <> i).
    { intros u q b Hu Hq Eq. destruct (H2 u q Hu) as (b2 & d2 & rs2 & [K1 K1'] & _ & _ & _ & K5 & _).
      rewrite Hq in K1. injection K1 as <-. subst i; contradiction. }
    split; [exact Q|]. intros u q b Hu Hq. rewrite nth_error_update by exact Li.
    destruct (Nat.eqb_spec (mb_buf b) i) as [E|]; [|reflexivity]. exfalso. eapply Q; eassumption. }
  destruct C as (i & pool & bufs & -> & C1 & C2 & C3 & C4 & C5 & C6 & C7).
  assert (L : forall u, live (set_live (set_heap s (m_blocks s ++ [mkMB 0 i [] [] 0]) bufs)
       (aset Z.eqb (m_live s) t (length (m_blocks s))) pool) u = if u =? t then Some (length (m_blocks s)) else live s u).
  { intros u. unfold live; cbn [m_live set_live]. destruct (Z.eqb_spec u t) as [->|Hn].
    - now rewrite afind_aset_same by exact Zeqb_iff.
    - now rewrite afind_aset_other by (first [exact Zeqb_iff|congruence]). }
  split; [|auto].
  split; cbn [set_live set_heap m_closed m_pool m_blocks m_bufs m_live].
  - exact H1.
  - intros u q Hu. rewrite L in Hu. unfold blk_at; cbn [set_live set_heap m_blocks m_bufs m_pool].
    destruct (Z.eqb_spec u t) as [->|Hn].
    + injection Hu as <-. exists (mkMB 0 i [] [] 0), [], []. rewrite nth_error_app2, Nat.sub_diag by lia.
      cbn [mb_buf mb_recs mb_count]. split; [auto|]. split; [now apply block_inv_nil|]. split; [cbn; lia|].
      split; [constructor|]. split; [exact C4|]. intros k. rewrite (H3 t k El). reflexivity.
    + destruct (H2 u q Hu) as (b2 & d2 & rs2 & [K1 K1'] & K2 & K3 & K4 & K5 & K6).
      exists b2, d2, rs2. rewrite nth_error_app1 by (eapply nth_error_lt, K1). rewrite (C7 u q b2) by assumption.
      split; [auto|]. split; [exact K2|]. split; [exact K3|]. split; [exact K4|]. split; [|exact K6].
      intros Hi. apply K5. now apply C3.
  - intros u k Hu. rewrite L in Hu. destruct (u =? t); [discriminate|]. now apply H3.
  - assert (B : forall u q b, live s u = Some q -> nth_error (m_blocks s ++ [mkMB 0 i [] [] 0]) q = Some b ->
              nth_error (m_blocks s) q = Some b /\ (q < length (m_blocks s))%nat).
    { intros u q b Hu Hq. destruct (H2 u q Hu) as (b2 & d2 & rs2 & [K1 _] & _).
      pose proof (nth_error_lt _ _ _ K1). now rewrite nth_error_app1 in Hq. }
    intros t1 t2 p1 p2 b1 b2 Hn L1 L2 B1 B2. rewrite L in L1, L2.
    destruct (Z.eqb_spec t1 t) as [->|N1]; destruct (Z.eqb_spec t2 t) as [->|N2]; try contradiction.
    + injection L1 as <-. rewrite nth_error_app2, Nat.sub_diag in B1 by lia. injection B1 as <-.
      destruct (B _ _ _ L2 B2) as [B2' ?]. split; [lia|]. cbn [mb_buf]. apply not_eq_sym. eapply C6; eassumption.
    + injection L2 as <-. rewrite nth_error_app2, Nat.sub_diag in B2 by lia. injection B2 as <-.
      destruct (B _ _ _ L1 B1) as [B1' ?]. split; [lia|]. cbn [mb_buf]. eapply C6; eassumption.
    + destruct (B _ _ _ L1 B1) as [B1' _]. destruct (B _ _ _ L2 B2) as [B2' _]. now apply (H4 t1 t2).
  - exact C5.
Qed.

(** * Steps *)
Lemma addTimeFilter_same c s t key : m_blocks (addTimeFilter c s t key) = m_blocks s /\
  m_bufs (addTimeFilter c s t key) = m_bufs s /\ m_pool (addTimeFilter c s t key) = m_pool s /\
  m_live (addTimeFilter c s t key) = m_live s /\ m_closed (addTimeFilter c s t key) = m_closed s /\
  m_cur (addTimeFilter c s t key) = m_cur s.
Proof. unfold addTimeFilter. destruct (nth_error (m_filters s) (c_bkey c key)); repeat split; reflexivity. Qed.

Lemma addTimeFilter_rec c s t key A A' : frec c s A ->
  (forall t' k', A' t' k' <> None -> A t' k' <> None \/ (t' = t /\ k' = key)) ->
  frec c (addTimeFilter c s t key) A'.
Proof.
  intros [F1 F2] Hs. unfold addTimeFilter.
  pose proof (F1 key) as Fk. destruct (nth_error (m_filters s) (c_bkey c key)) as [r|] eqn:E;
    [|apply nth_error_None in E; lia].
  set (recs := match afind Z.eqb (tf_recs r) t with Some _ => tf_recs r | None => aset Z.eqb (tf_recs r) t (snapshot (tf_gen r)) end).
  assert (R : forall u, In u (map fst (tf_recs r)) \/ u = t -> In u (map fst recs)).
  { intros u Hu. unfold recs. destruct (afind Z.eqb (tf_recs r) t) as [x|] eqn:Ef.
    - destruct Hu as [Hu| ->]; [exact Hu|]. apply (afind_keys _ Zeqb_iff). congruence.
    - unfold aset. cbn [map fst In]. destruct (Z.eq_dec u t) as [->|Hn]; [now left|]. right.
      apply (adel_keys _ Zeqb_iff). split; [|exact Hn]. destruct Hu; [assumption|contradiction]. }
  split; cbn [m_filters set_filters].
  - intros k. rewrite update_length. apply F1.
  - intros t' k' Ha. rewrite nth_error_update by exact Fk.
    destruct (Hs _ _ Ha) as [Hold|[-> ->]].
    + destruct (F2 _ _ Hold) as (r' & Hr & Hin). destruct (Nat.eqb_spec (c_bkey c k') (c_bkey c key)) as [Eq|Hn].
      * eexists. split; [reflexivity|]. cbn [tf_recs]. apply R. left. rewrite Eq, E in Hr. now injection Hr as ->.
      * eauto.
    + rewrite Nat.eqb_refl. eexists. split; [reflexivity|]. cbn [tf_recs]. apply R. now right.
Qed.

Lemma frec_same c s s' A A' : frec c s A -> m_filters s' = m_filters s ->
  (forall t k, A' t k <> None -> A t k <> None) -> frec c s' A'.
Proof. intros [F1 F2] E Hs. split; rewrite E; [exact F1|]. intros t k Ha. now apply F2, Hs. Qed.

Lemma put_in_inv c s A t key v s' r : winv s A -> frec c s A -> item_ok key v -> put_in c s t key v = (s', r) ->
  m_cur s' = m_cur s /\
  ((r = MOk /\ winv s' (upd A t key (Some v)) /\ frec c s' (upd A t key (Some v)) /\ live s t <> None) \/
   (r = MForbidden /\ s' = s /\ live s t = None)).
Proof.
  intros H F Hk E. unfold put_in in E. rewrite (wi_open _ _ H) in E. destruct (live s t) as [p|] eqn:El.
  - destruct (block_put_some _ _ _ _ (false, key) v H El) as [s2 E2]. rewrite E2 in E. injection E as <- <-.
    destruct (block_put_inv _ _ _ _ (false, key) v _ H El Hk E2) as (W & F1 & F2 & F3). cbn [fst snd] in W.
    destruct (addTimeFilter_same c s2 t key) as (S1 & S2 & S3 & S4 & S5 & S6).
    split; [congruence|]. left. split; [reflexivity|]. split; [eapply winv_same; eassumption|].
    split; [|discriminate]. apply addTimeFilter_rec with (A := A).
    + eapply frec_same; [exact F|exact F1|auto].
    + intros t' k' Ha. unfold upd in Ha. destruct (Z.eqb_spec t' t), (N.eqb_spec k' key); cbn [andb] in Ha; auto.
  - injection E as <- <-. split; [reflexivity|]. right. auto.
Qed.

Lemma newest_inv c s A key t p : winv s A -> frec c s A -> newest c s key = Some (t, p) ->
  live s t = Some p /\ A t key <> None /\ (forall t', t < t' -> A t' key = None).
Proof.
  intros H [F1 F2] E. apply newest_some in E as (E1 & E2 & E3). split; [exact E1|].
  split; [rewrite <- (has_spec s A t p key H E1); exact E2|].
  intros t' Hlt. destruct (A t' key) as [v|] eqn:Ea; [|reflexivity]. exfalso.
  destruct (F2 t' key) as (r & Hr & Hin); [congruence|].
  destruct (live s t') as [p'|] eqn:El; [|rewrite (wi_none _ _ H _ key El) in Ea; discriminate].
  destruct (E3 r Hr) as [_ E4]. pose proof (E4 t' p' Hlt Hin El) as Hn.
  apply (has_spec s A t' p' key H El) in Hn. congruence.
Qed.

Lemma block_delete_inv s A t p key : winv s A -> live s t = Some p -> A t key <> None ->
  exists s', block_delete s p key = Some s' /\ winv s' (upd A t key None) /\
    m_filters s' = m_filters s /\ m_cur s' = m_cur s /\ m_live s' = m_live s.
Proof.
  intros H Hl Ha. destruct (wi_blk _ _ H _ _ Hl) as (b & d & rs & [G1 G1'] & G2 & G3 & G4 & G5 & G6).
  assert (Hf : exists off, afind ik_eqb (mb_recs b) (false, key) = Some off).
  { rewrite G6 in Ha. unfold bval in Ha. destruct (afind ik_eqb (mb_recs b) (false, key)); [eauto|congruence]. }
  destruct Hf as [off Hf]. unfold block_delete. rewrite G1, G1'. eexists. split; [reflexivity|]. split; [|auto].
  destruct (block_inv_del _ _ _ _ _ G2 Hf) as (rs' & I1 & I2 & I3 & _).
  eapply winv_mod; [exact H|exact Hl|split; [exact G1|exact G1']|reflexivity|..]; cbn [mb_recs mb_count].
  - exact I1.
  - pose proof (nkeys_adel _ _ _ Hf). lia.
  - now apply kok_adel.
  - intros k. unfold upd. rewrite Z.eqb_refl. cbn [andb]. destruct (N.eqb_spec k key) as [->|Hn].
    + unfold bval. now rewrite afind_adel_same.
    + fold (del_bytes d (mb_recs b) key). rewrite I3 by exact Hn. apply G6.
  - intros t' k Hn. unfold upd. destruct (Z.eqb_spec t' t); [contradiction|reflexivity].
Qed.

Lemma mem_delete_inv c s A key s' r : winv s A -> frec c s A -> (key < 2 ^ 64)%N -> mem_delete c s key = (s', r) ->
  m_cur s' = m_cur s /\
  ((r = MNotExist /\ s' = s /\ newest c s key = None) \/
   (exists t, A t key <> None /\ (forall t', t < t' -> A t' key = None) /\ (r = MOk \/ r = MForbidden) /\
      winv s' (upd A t key None) /\ frec c s' (upd A t key None) /\ m_filters s' = m_filters s)).
Proof.
  intros H F Hk E. unfold mem_delete in E. rewrite (wi_open _ _ H) in E.
  destruct (newest c s key) as [[t p]|] eqn:En; [|injection E as <- <-; auto].
  destruct (newest_inv _ _ _ _ _ _ H F En) as (Hl & Ha & Hnew).
  destruct (block_delete_inv _ _ _ _ _ H Hl Ha) as (s1 & E1 & W1 & F1 & C1 & L1). rewrite E1 in E.
  assert (Hl1 : live s1 t = Some p) by (unfold live; rewrite L1; exact Hl).
  destruct (wi_blk _ _ W1 _ _ Hl1) as (b & d & rs & [G1 G1'] & G2 & G3 & G4 & G5 & G6). rewrite G1 in E.
  assert (Fin : forall s2, m_filters s2 = m_filters s -> frec c s2 (upd A t key None)).
  { intros s2 E2. eapply frec_same; [exact F|exact E2|]. intros t' k'. unfold upd.
    destruct ((t' =? t) && (k' =? key)%N)%bool; [congruence|auto]. }
  assert (Mv : forall s0, winv s0 (upd A t key None) -> m_filters s0 = m_filters s -> m_cur s0 = m_cur s ->
     move s0 t key = (s', r) -> m_cur s' = m_cur s /\
     ((r = MNotExist /\ s' = s /\ @None (Z * nat) = None) \/
      (exists t, A t key <> None /\ (forall t', t < t' -> A t' key = None) /\ (r = MOk \/ r = MForbidden) /\
      winv s' (upd A t key None) /\ frec c s' (upd A t key None) /\ m_filters s' = m_filters s))).
  { intros s0 W0 F0 C0 Em. destruct (move_inv _ _ _ _ _ _ W0 Hk Em) as (W2 & R2 & F2 & C2 & L2).
    split; [congruence|]. right. exists t. split; [exact Ha|]. split; [exact Hnew|]. split; [exact R2|].
    split; [exact W2|]. split; [apply Fin|]; congruence. }
  destruct (Z.eqb_spec (mb_count b) 0) as [Hc|Hc]; cbn [andb] in E.
  2:{ destruct (Mv _ W1 F1 C1 E) as [M1 M2]. split; [exact M1|]. destruct M2 as [(-> & -> & _)|M2]; [|right; exact M2].
      exfalso. destruct (move_inv _ _ _ _ _ _ W1 Hk E) as (_ & [R|R] & _); discriminate. }
  destruct (drop_tombs_inv _ _ _ _ _ W1 Hl1 G1 Hc) as (W2 & F2 & C2 & L2 & _).
  destruct (Z.ltb_spec t (m_cur (drop_tombs s1 p))) as [Hlt|Hlt].
  - destruct (releaseLog (drop_tombs s1 p) t) as [s2|] eqn:Er.
    + injection E as <- <-. destruct (releaseLog_inv _ _ _ _ W2 Er) as (W3 & F3 & C3).
      split; [congruence|]. right. exists t. split; [exact Ha|]. split; [exact Hnew|]. split; [now left|].
      split; [|split; [apply Fin|]; congruence]. eapply winv_ext; [exact W3|]. intros t' k. unfold clear.
      destruct (Z.eqb_spec t' t) as [->|]; [|reflexivity]. rewrite G6. unfold bval. rewrite nkeys_zero by lia. reflexivity.
    + exfalso. unfold releaseLog in Er. unfold live in Er. rewrite L2 in Er. fold (live s1 t) in Er. rewrite Hl1 in Er.
      destruct (drop_tombs_inv _ _ _ _ _ W1 Hl1 G1 Hc) as (_ & _ & _ & _ & b' & B' & _). rewrite B' in Er. discriminate.
  - destruct (Mv _ W2) as [M1 M2]; [congruence|congruence|exact E|]. split; [exact M1|].
    destruct M2 as [(-> & -> & _)|M2]; [|right; exact M2].
    exfalso. destruct (move_inv _ _ _ _ _ _ W2 Hk E) as (_ & [R|R] & _); discriminate.
Qed.

Lemma seek_same c s key s' : seek c s key = Some s' ->
  exists qf qb, s' = set_query s (m_qrec s) qf qb.
Proof.
  unfold seek. destruct (newest c s key) as [[t p]|]; [|discriminate].
  destruct (nth_error (m_filters s) (c_bkey c key)); [|discriminate]. intros [= <-]. eauto.
Qed.
Lemma mem_get_same n c s key s' g : mem_get_n n c s key = (s', g) ->
  exists qr qf qb, s' = set_query s qr qf qb.
Proof.
  revert s; induction n as [|n IH]; intros s; cbn [mem_get_n].
  - intros [= <- _]. exists (m_qrec s), (m_qfilters s), (m_qblocks s). now destruct s.
  - assert (I : exists qr qf qb, s = set_query s qr qf qb).
    { exists (m_qrec s), (m_qfilters s), (m_qblocks s). now destruct s. }
    destruct (m_closed s); [intros [= <- _]; exact I|].
    assert (P : forall s1, (exists qr qf qb, s1 = set_query s qr qf qb) ->
        match get_cached c s1 key with
        | Some r => r
        | None => mem_get_n n c (set_query s1 (m_qrec s1) (update (m_qfilters s1) (c_bkey c key) []) (m_qblocks s1)) key
        end = (s', g) -> exists qr qf qb, s' = set_query s qr qf qb).
    { intros s1 (a1 & a2 & a3 & E1).
      destruct (get_cached c s1 key) as [[s2 g2]|] eqn:Ec.
      - intros [= -> ->]. unfold get_cached in Ec.
        assert (Sc : forall s2 g2, match query_scan s1 key (qrecs c s1 key) (sort_desc (map fst (qrecs c s1 key))) with
            | Some (t, p) => Some (set_query s1 t (m_qfilters s1) (m_qblocks s1), read_rec s1 p key)
            | None => None end = Some (s2, g2) -> exists qr qf qb, s2 = set_query s qr qf qb).
        { intros s2 g2. destruct (query_scan _ _ _ _) as [[t p]|]; [|discriminate]. intros Eq.
          injection Eq as Eq _. rewrite <- Eq. rewrite E1. eexists _, _, _. reflexivity. }
        destruct (afind Z.eqb (m_qblocks s1) (m_qrec s1)) as [p|]; [|eapply Sc; exact Ec].
        destruct (rec_off s1 p (false, key)); [|eapply Sc; exact Ec]. injection Ec as Eq _. rewrite <- Eq, E1. eauto.
      - intros E. apply IH in E as (qr & qf & qb & ->). rewrite E1. eexists _, _, _. reflexivity. }
    destruct (qrecs c s key) as [|x l].
    + destruct (seek c s key) as [s1|] eqn:Es; [|intros [= <- _]; exact I].
      apply seek_same in Es as (qf & qb & Es). apply P. eauto.
    + apply P, I.
Qed.

Lemma tinyWrite_inv s A id t : winv s A -> winv (tinyWrite s id t) A /\
  m_filters (tinyWrite s id t) = m_filters s /\ m_cur (tinyWrite s id t) = m_cur s /\
  m_live (tinyWrite s id t) = m_live s.
Proof.
  intros H. unfold tinyWrite. destruct (live s t) as [p|] eqn:Hl; [|auto].
  destruct (wi_blk _ _ H _ _ Hl) as (b & d & rs & [G1 G1'] & G2 & G3 & G4 & G5 & G6). rewrite G1, G1'.
  destruct (skipn (Z.to_nat (mb_last b)) d) as [|x l]; [auto|]. split; [|auto].
  set (s1 := set_wal s _). assert (W1 : winv s1 A) by (eapply winv_same; [exact H|reflexivity..]).
  set (b' := mkMB _ _ _ _ _).
  assert (E : set_block s1 p b' = set_block (set_buf s1 (mb_buf b) d) p b').
  { unfold set_block, set_buf; cbn. f_equal. symmetry. apply nth_ext with (d := []) (d' := []); [apply update_length|].
    intros i Hi. rewrite nth_update. destruct (Nat.eqb_spec (mb_buf b) i) as [<-|]; [|reflexivity].
    cbn [andb]. destruct (Nat.ltb_spec (mb_buf b) (length (m_bufs s))); [|reflexivity]. symmetry. now apply nth_error_nth. }
  rewrite E. eapply winv_mod; [exact W1|exact Hl|split; [exact G1|exact G1']|reflexivity|..]; unfold b'; cbn [mb_recs mb_count];
    try eassumption. reflexivity.
Qed.

Lemma marks_same s t : forall s', s' = mark_add s t \/ s' = mark_release s t \/ s' = mark_unref s t ->
  m_blocks s' = m_blocks s /\ m_bufs s' = m_bufs s /\ m_pool s' = m_pool s /\ m_live s' = m_live s /\
  m_closed s' = m_closed s /\ m_filters s' = m_filters s /\ m_cur s' = m_cur s.
Proof.
  intros s' [->|[->| ->]]; [repeat split; reflexivity| |repeat split; reflexivity].
  unfold mark_release. destruct (afind Z.eqb (m_marks s) t); [|repeat split; reflexivity].
  destruct (0 <? _); repeat split; reflexivity.
Qed.
Lemma marks_inv s t s' A : s' = mark_add s t \/ s' = mark_release s t \/ s' = mark_unref s t -> winv s A ->
  winv s' A /\ m_filters s' = m_filters s /\ m_cur s' = m_cur s /\ m_live s' = m_live s.
Proof.
  intros E H. destruct (marks_same s t s' E) as (E1 & E2 & E3 & E4 & E5 & E6 & E7).
  split; [eapply winv_same; eassumption|auto].
Qed.

Lemma commit_inv s A : winv s A -> winv (mem_commit s) A /\ m_filters (mem_commit s) = m_filters s /\
  m_cur (mem_commit s) = m_cur s /\ m_live (mem_commit s) = m_live s.
Proof.
  intros H. unfold mem_commit. destruct (m_queue s) as [|[id t] q]; [auto|].
  set (s1 := set_log s _ _ _). assert (W1 : winv s1 A) by (eapply winv_same; [exact H|reflexivity..]).
  destruct (tinyWrite_inv s1 A id t W1) as (W2 & F2 & C2 & L2).
  destruct (marks_inv _ t (mark_release (tinyWrite s1 id t) t) A (or_intror (or_introl eq_refl)) W2) as (W3 & F3 & C3 & L3).
  split; [exact W3|]. rewrite F3, C3, L3, F2, C2, L2. auto.
Qed.

Lemma newTinyLog_inv c s A now pick : winv s A -> winv (newTinyLog c s now pick) A /\
  m_filters (newTinyLog c s now pick) = m_filters s /\ m_cur (newTinyLog c s now pick) = trunc now (c_dur c).
Proof.
  intros H. unfold newTinyLog. destruct (addTimeBlock_inv s A (trunc now (c_dur c)) pick H) as (W & F & C).
  destruct (marks_inv _ (trunc now (c_dur c)) (mark_add (addTimeBlock s (trunc now (c_dur c)) pick) (trunc now (c_dur c))) A (or_introl eq_refl) W)
    as (W2 & F2 & C2 & L2).
  split; [eapply winv_same; [exact W2|reflexivity..]|]. cbn [m_filters m_cur set_log]. split; [congruence|reflexivity].
Qed.

Lemma batch_commit_inv g s A : winv s A -> winv (batch_commit s g) A /\ m_filters (batch_commit s g) = m_filters s /\
  m_cur (batch_commit s g) = m_cur s.
Proof.
  revert s; induction g as [|t g IH]; intros s H; cbn [batch_commit fold_left]; [auto|].
  destruct (marks_inv s t (mark_add s t) A (or_introl eq_refl) H) as (W1 & F1 & C1 & _).
  destruct (marks_inv _ t (mark_release (mark_add s t) t) A (or_intror (or_introl eq_refl)) W1) as (W2 & F2 & C2 & _).
  destruct (IH _ W2) as (W3 & F3 & C3). unfold batch_commit in *. split; [exact W3|]. split; congruence.
Qed.

Lemma step_inv c s A o s' out : winv s A -> frec c s A -> op_ok o -> mstep c s o = (s', out) ->
  exists A', acts c (m_cur s) A o out (m_cur s') A' /\ winv s' A' /\ frec c s' A'.
Proof.
  intros H F Ho E. destruct o; cbn [mstep op_ok] in *.
  - destruct (mem_put c s key data) as [s1 r] eqn:Ep. injection E as <- <-. unfold mem_put in Ep.
    destruct (put_in_inv _ _ _ _ _ _ _ _ H F Ho Ep) as (C & [(-> & W & F' & _)|(-> & -> & _)]).
    + rewrite C. eexists. split; [apply ac_put|]. auto.
    + exists A. split; [apply ac_put_no; discriminate|]. auto.
  - destruct (mem_delete c s key) as [s1 r] eqn:Ed. injection E as <- <-.
    destruct (mem_delete_inv _ _ _ _ _ _ H F Ho Ed) as (C & [(-> & -> & _)|(t & Ha & Hn & Hr & W & F' & _)]); rewrite ?C.
    + exists A. split; [apply ac_del_no|]. auto.
    + eexists. split; [eapply ac_del; eassumption|]. auto.
  - destruct (mem_get c s key) as [s1 g] eqn:Eg. injection E as <- <-.
    apply mem_get_same in Eg as (qr & qf & qb & ->). exists A. split; [apply ac_get|].
    split; [eapply winv_same; [exact H|reflexivity..]|]. eapply frec_same; [exact F|reflexivity|auto].
  - unfold mem_free in E. destruct (releaseLog s t) as [s1|] eqn:Er; injection E as <- <-.
    + destruct (releaseLog_inv _ _ _ _ H Er) as (W & F' & C). rewrite C. exists (clear A t).
      split; [apply ac_free|]. split; [exact W|]. eapply frec_same; [exact F|exact F'|].
      intros t' k. unfold clear. destruct (t' =? t); [congruence|auto].
    + exists A. split; [apply ac_free_no; discriminate|]. auto.
  - injection E as <- <-. unfold mem_tick. set (s1 := set_log s _ _ _).
    assert (W1 : winv s1 A) by (eapply winv_same; [exact H|reflexivity..]).
    destruct (newTinyLog_inv c s1 A now pick W1) as (W2 & F2 & C2). rewrite C2. exists A.
    split; [apply ac_tick|]. split; [exact W2|]. eapply frec_same; [exact F|rewrite F2; reflexivity|auto].
  - injection E as <- <-. destruct (commit_inv s A H) as (W & F' & C & _). rewrite C. exists A.
    split; [apply ac_commit|]. split; [exact W|]. eapply frec_same; [exact F|exact F'|auto].
  - injection E as <- <-. exists A. assert (S : m_blocks (mem_drop s) = m_blocks s /\ m_bufs (mem_drop s) = m_bufs s /\
      m_pool (mem_drop s) = m_pool s /\ m_live (mem_drop s) = m_live s /\ m_closed (mem_drop s) = m_closed s /\
      m_cur (mem_drop s) = m_cur s /\ m_filters (mem_drop s) = m_filters s).
    { unfold mem_drop. destruct (m_queue s); repeat split; reflexivity. }
    destruct S as (S1 & S2 & S3 & S4 & S5 & S6 & S7). rewrite S6. split; [apply ac_drop|].
    split; [eapply winv_same; eassumption|]. eapply frec_same; [exact F|exact S7|auto].
  - injection E as <- <-. unfold batch_new. destruct (addTimeBlock_inv s A now pick H) as (W & F' & C). rewrite C.
    exists A. split; [apply ac_bnew|]. split; [exact W|]. eapply frec_same; [exact F|exact F'|auto].
  - destruct (batch_put c s t key data) as [s1 r] eqn:Ep. injection E as <- <-. unfold batch_put in Ep.
    destruct (put_in_inv _ _ _ _ _ _ _ _ H F Ho Ep) as (C & [(-> & W & F' & _)|(-> & -> & _)]).
    + rewrite C. eexists. split; [apply ac_bput|]. auto.
    + exists A. split; [apply ac_bput_no; discriminate|]. auto.
  - injection E as <- <-. unfold batch_write. destruct (tinyWrite_inv s A t t H) as (W & F1 & C1 & _).
    destruct (addTimeBlock_inv _ A now pick W) as (W2 & F2 & C2). rewrite C2, C1.
    exists A. split; [apply ac_bwrite|]. split; [exact W2|]. eapply frec_same; [exact F|congruence|auto].
  - injection E as <- <-. destruct (batch_commit_inv group s A H) as (W & F1 & C1). rewrite C1.
    exists A. split; [apply ac_bcommit|]. split; [exact W|]. eapply frec_same; [exact F|exact F1|auto].
Qed.

Lemma run_inv c s h s' : mrun c s h s' -> forall A, winv s A -> frec c s A -> Forall (fun x => op_ok (fst x)) h ->
  exists A', acts_all c (m_cur s) A h (m_cur s') A' /\ winv s' A' /\ frec c s' A'.
Proof.
  induction 1 as [s|s o s1 out h s' E Hr IH]; intros A H F Ho.
  - exists A. split; [constructor|auto].
  - inversion Ho; subst. destruct (step_inv _ _ _ _ _ _ H F H2 E) as (A1 & Ha & W1 & F1).
    destruct (IH A1 W1 F1 H3) as (A2 & Haa & W2 & F2). exists A2. split; [econstructor; eassumption|auto].
Qed.

Lemma empty_inv c gens now s : cfg_ok c gens -> mem_open c gens [] now = Some s ->
  winv s (fun _ _ => None) /\ frec c s (fun _ _ => None) /\ m_cur s = trunc now (c_dur c).
Proof.
  intros [Hg Hc] E. unfold mem_open in E. cbn [replay all_ids flat_map map recover_logs fold_left] in E. injection E as <-.
  assert (W : winv (mem_empty gens []) (fun _ _ => None)).
  { split; unfold live; cbn [mem_empty m_closed m_live m_pool m_bufs afind]; try reflexivity; try discriminate.
    intros i []. }
  destruct (newTinyLog_inv c _ _ now None W) as (W2 & F2 & C2). split; [exact W2|]. split; [|exact C2].
  split; [|congruence]. intros k. rewrite F2. cbn [mem_empty m_filters]. rewrite map_length. apply Hc.
Qed.

Lemma lookup_run c gens now s h s' : cfg_ok c gens -> mem_open c gens [] now = Some s -> mrun c s h s' ->
  Forall (fun x => op_ok (fst x)) h ->
  exists A, acts_all c (trunc now (c_dur c)) (fun _ _ => None) h (m_cur s') A /\
    forall t k, mem_lookup s' t k = match A t k with Some v => GOk v | None => GNotExist end.
Proof.
  intros Hc E Hr Ho. destruct (empty_inv _ _ _ _ Hc E) as (W & F & C).
  destruct (run_inv _ _ _ _ Hr _ W F Ho) as (A & Ha & W' & F'). rewrite C in Ha. exists A. split; [exact Ha|].
  now apply lookup_spec.
Qed.
