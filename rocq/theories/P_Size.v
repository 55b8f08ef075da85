(** Proofs for C71, C72. *)
From Verif Require Import M_Bytes P_Bytes M_Hash M_Bloom M_File M_Wal M_MemDB S_MemDB S_Size P_MemBlock P_MemDB.
From Coq Require Import Lia ZifyBool ZifyNat ZifyN.
Open Scope Z_scope.

(** * Counts *)
Definition fine (b : mblock) : Prop := mb_count b = Z.of_nat (nkeys (mb_recs b)) /\ NoDup (map fst (mb_recs b)).
Record cinv (s : mdb) : Prop := {
  ci_live : NoDup (map fst (m_live s));
  ci_fine : forall t p b, live s t = Some p -> nth_error (m_blocks s) p = Some b -> fine b
}.
Lemma cinv_same s s' : cinv s -> m_blocks s' = m_blocks s -> m_live s' = m_live s -> cinv s'.
Proof. intros [H1 H2] E1 E2. split; unfold live in *; rewrite ?E1, ?E2; assumption. Qed.

Section Assoc.
Context {K V : Type} (eqb : K -> K -> bool) (Heq : forall a b, eqb a b = true <-> a = b).
Lemma nodup_adel (m : list (K * V)) k : NoDup (map fst m) -> NoDup (map fst (adel eqb m k)).
Proof.
  unfold adel. induction m as [|[x v] r IH]; cbn [map filter fst]; [auto|]. intros H. inversion H as [|? ? Hx Hr]; subst.
  destruct (negb _); cbn [map fst]; [|auto]. constructor; [|auto]. intros Hin. apply Hx. apply in_map_iff in Hin as (e & <- & He).
  apply filter_In in He as [He _]. now apply in_map.
Qed.
Lemma nodup_aset (m : list (K * V)) k v : NoDup (map fst m) -> NoDup (map fst (aset eqb m k v)).
Proof.
  intros H. unfold aset. cbn [map fst]. constructor; [|now apply nodup_adel]. intros Hin. apply (adel_keys eqb Heq) in Hin. tauto.
Qed.
End Assoc.

Lemma adel_absent (recs : list (ikey * Z)) k : afind ik_eqb recs k = None -> adel ik_eqb recs k = recs.
Proof.
  unfold adel. induction recs as [|[x o] r IH]; [reflexivity|]. cbn [afind filter fst]. destruct (ik_eqb x k) eqn:E; [discriminate|]. cbn [negb].
  intros H. now rewrite IH.
Qed.
Lemma nkeys_new recs k o : afind ik_eqb recs (false, k) = None -> nkeys (aset ik_eqb recs (false, k) o) = S (nkeys recs).
Proof. intros H. unfold aset. rewrite adel_absent by exact H. reflexivity. Qed.
Lemma nkeys_tomb recs k o : nkeys (aset ik_eqb recs (true, k) o) = nkeys recs.
Proof.
  unfold nkeys, aset. cbn [filter fst negb]. unfold adel. induction recs as [|[[f x] v] r IH]; [reflexivity|]. cbn [filter fst].
  destruct f.
  - destruct (negb (ik_eqb (true, x) (true, k))); cbn [filter fst negb]; exact IH.
  - rewrite (eqb_diff _ ik_eqb_iff) by discriminate. cbn [negb filter fst length]. now rewrite IH.
Qed.
Lemma nkeys_gone recs k off : NoDup (map fst recs) -> afind ik_eqb recs (false, k) = Some off -> S (nkeys (adel ik_eqb recs (false, k))) = nkeys recs.
Proof.
  unfold nkeys, adel. induction recs as [|[[f x] o] r IH]; [discriminate|]. cbn [afind filter fst map]. intros Hd. inversion Hd as [|? ? Hx Hr]; subst.
  destruct (ik_eqb (f, x) (false, k)) eqn:E.
  - intros _. apply ik_eqb_iff in E. injection E as -> ->. cbn [negb filter fst length]. f_equal.
    fold (adel ik_eqb r (false, k)). rewrite adel_absent; [reflexivity|]. destruct (afind ik_eqb r (false, k)) eqn:Ea; [|reflexivity].
    exfalso. apply Hx. apply (afind_keys ik_eqb ik_eqb_iff). congruence.
  - intros Ha. cbn [negb filter fst]. destruct f; cbn [negb filter fst length]; [now apply IH|]. f_equal. now apply IH.
Qed.

(** One block changes. *)
Lemma cinv_mod s A t p b b' s' : winv s A -> cinv s -> live s t = Some p -> nth_error (m_blocks s) p = Some b ->
  m_live s' = m_live s -> m_blocks s' = update (m_blocks s) p b' -> fine b' -> cinv s'.
Proof.
  intros W [H1 H2] Hl Hb El Eb Hf. split; [now rewrite El|]. intros u q x Hu Hq. unfold live in Hu. rewrite El in Hu. fold (live s u) in Hu.
  rewrite Eb, nth_error_update in Hq by (eapply nth_error_lt; exact Hb). destruct (Nat.eqb_spec q p) as [->|Hn].
  - now injection Hq as <-.
  - eapply H2; eassumption.
Qed.
Lemma fine_put b k o : fine b -> (fst k = false -> afind ik_eqb (mb_recs b) k = None) ->
  fine (mkMB (if fst k then mb_count b else mb_count b + 1) (mb_buf b) (aset ik_eqb (mb_recs b) k o) (mb_refs b) (mb_last b)).
Proof.
  intros [H1 H2] Hn. destruct k as [[|] k]; cbn [fst] in *; split; cbn [mb_count mb_recs]; try (apply (nodup_aset _ ik_eqb_iff); exact H2).
  - now rewrite nkeys_tomb.
  - rewrite nkeys_new by auto. lia.
Qed.
Lemma block_put_fine s A t p k v s' : winv s A -> cinv s -> live s t = Some p -> (fst k = false -> rec_off s p k = None) ->
  block_put s p k v = Some s' -> cinv s'.
Proof.
  intros W C Hl Hn E. unfold block_put in E. unfold rec_off in Hn. destruct (nth_error (m_blocks s) p) as [b|] eqn:Hb; [|discriminate].
  destruct (nth_error (m_bufs s) (mb_buf b)) as [d|]; [|discriminate]. injection E as <-.
  eapply cinv_mod; [exact W|exact C|exact Hl|exact Hb|reflexivity|reflexivity|]. apply fine_put; [eapply ci_fine; eassumption|exact Hn].
Qed.
Lemma block_put_counts s p k v s' q : fst k = true -> block_put s p k v = Some s' ->
  option_map mb_count (nth_error (m_blocks s') q) = option_map mb_count (nth_error (m_blocks s) q).
Proof.
  intros Hk E. unfold block_put in E. destruct (nth_error (m_blocks s) p) as [b|] eqn:Hb; [|discriminate].
  destruct (nth_error (m_bufs s) (mb_buf b)) as [d|]; [|discriminate]. injection E as <-. cbn [set_block set_buf m_blocks].
  rewrite nth_error_update by (eapply nth_error_lt; exact Hb). destruct (Nat.eqb_spec q p) as [->|]; [|reflexivity]. rewrite Hb, Hk. reflexivity.
Qed.
Lemma move_fine s A t key s' r : winv s A -> cinv s -> move s t key = (s', r) -> cinv s' /\
  forall q, option_map mb_count (nth_error (m_blocks s') q) = option_map mb_count (nth_error (m_blocks s) q).
Proof.
  intros W C E. unfold move in E. destruct (live s (m_cur s)) as [p|] eqn:El; [|injection E as <- <-; auto].
  destruct (block_put s p (true, key) _) as [s1|] eqn:Ep; injection E as <- <-; [|auto]. split.
  - apply (block_put_fine s A (m_cur s) p (true, key) _ s1 W C El) in Ep; [exact Ep|discriminate].
  - intros q. now apply (block_put_counts _ _ _ _ _ q) in Ep.
Qed.
Lemma drop_tombs_fine s A t p b : winv s A -> cinv s -> live s t = Some p -> nth_error (m_blocks s) p = Some b -> mb_count b = 0 -> cinv (drop_tombs s p).
Proof.
  intros W C Hl Hb Hc. unfold drop_tombs. rewrite Hb.
  destruct (wi_blk _ _ W _ _ Hl) as (b0 & d & rs & [G1 G1'] & G2 & G3 & G4 & G5 & G6). rewrite Hb in G1. injection G1 as <-.
  set (f := fun (s : mdb) (e : ikey * Z) => match live s (snd e) with
       | Some _ => fst (move s (snd e) (snd (fst e))) | None => s end).
  assert (F : forall l s0, kok l -> winv s0 A -> cinv s0 -> let s1 := fold_left f l s0 in
             winv s1 A /\ cinv s1 /\ m_live s1 = m_live s0 /\ option_map mb_count (nth_error (m_blocks s1) p) = option_map mb_count (nth_error (m_blocks s0) p)).
  { induction l as [|e l IH]; intros s0 Hk H0 C0; cbn [fold_left]; [auto|]. inversion Hk as [|? ? He Hr]; subst.
    assert (Q : winv (f s0 e) A /\ cinv (f s0 e) /\ m_live (f s0 e) = m_live s0 /\ option_map mb_count (nth_error (m_blocks (f s0 e)) p) = option_map mb_count (nth_error (m_blocks s0) p)).
    { unfold f. destruct (live s0 (snd e)); [|auto]. destruct (move s0 (snd e) (snd (fst e))) as [s2 r] eqn:Em.
      destruct (move_inv _ _ _ _ _ _ H0 He Em) as (W2 & _ & _ & _ & L2). destruct (move_fine _ _ _ _ _ _ H0 C0 Em) as (C2 & N2). cbn [fst]. auto. }
    destruct Q as (Q1 & Q2 & Q3 & Q4). destruct (IH _ Hr Q1 Q2) as (I1 & I2 & I3 & I4). rewrite I3, I4, Q3, Q4. auto. }
  destruct (F _ _ G4 W C) as (F1 & F2 & F3 & F4). fold f. set (s1 := fold_left f (mb_recs b) s) in *. rewrite Hb in F4.
  destruct (nth_error (m_blocks s1) p) as [b1|] eqn:B1; [|exact F2]. cbn [option_map] in F4. injection F4 as F4.
  eapply cinv_mod; [exact F1|exact F2|unfold live; rewrite F3; exact Hl|exact B1|reflexivity|reflexivity|]. split; [|constructor].
  cbn [mb_count mb_recs nkeys filter length]. cbn. lia.
Qed.
Lemma release_fine s t s' : cinv s -> releaseLog s t = Some s' -> cinv s' /\ live s' t = None.
Proof.
  intros [C1 C2] E. unfold releaseLog in E. destruct (live s t) as [p|] eqn:El; [|discriminate]. destruct (nth_error (m_blocks s) p) as [b|]; [|discriminate].
  injection E as <-. split; [split|]; unfold live; cbn [set_live set_buf mark_unref set_marks set_wal m_live m_blocks].
  - now apply nodup_adel.
  - intros u q x Hu Hq. destruct (Z.eq_dec u t) as [->|Hn]; [rewrite afind_adel_same in Hu; discriminate|].
    rewrite afind_adel_other in Hu by (first [exact Zeqb_iff|congruence]). eapply C2; eassumption.
  - apply afind_adel_same.
Qed.
Lemma add_block_fine s A t pick : winv s A -> cinv s -> cinv (addTimeBlock s t pick).
Proof.
  intros W C. unfold addTimeBlock. destruct (live s t) eqn:El; [exact C|]. cbv zeta.
  match goal with |- context [let (_, _) := ?x in _] => destruct x as [[i pool] bufs] end.
  destruct C as [C1 C2]. split; unfold live; cbn [set_live set_heap m_live m_blocks]; [now apply (nodup_aset _ Zeqb_iff)|].
  intros u q x Hu Hq. destruct (Z.eq_dec u t) as [->|Hn].
  - rewrite afind_aset_same in Hu by exact Zeqb_iff. injection Hu as <-. rewrite nth_error_app2, Nat.sub_diag in Hq by lia. injection Hq as <-. split; [reflexivity|constructor].
  - rewrite afind_aset_other in Hu by (first [exact Zeqb_iff|congruence]). fold (live s u) in Hu.
    destruct (wi_blk _ _ W _ _ Hu) as (b & d & rs & [G1 _] & _). pose proof (nth_error_lt _ _ _ G1). rewrite nth_error_app1 in Hq by lia. eapply C2; eassumption.
Qed.
Lemma tiny_fine s A id t : winv s A -> cinv s -> cinv (tinyWrite s id t).
Proof.
  intros W C. unfold tinyWrite. destruct (live s t) as [p|] eqn:El; [|exact C]. destruct (nth_error (m_blocks s) p) as [b|] eqn:Eb; [|exact C].
  destruct (nth_error (m_bufs s) (mb_buf b)) as [d|]; [|exact C]. destruct (skipn _ d); [exact C|].
  eapply cinv_mod; [exact W|exact C|exact El|exact Eb|reflexivity|reflexivity|]. destruct (ci_fine _ C _ _ _ El Eb) as [F1 F2]. split; assumption.
Qed.
Lemma put_in_fine c s A t key v s' r : winv s A -> cinv s -> A t key = None -> put_in c s t key v = (s', r) -> cinv s'.
Proof.
  intros W C Ha E. unfold put_in in E. rewrite (wi_open _ _ W) in E. destruct (live s t) as [p|] eqn:El; [|injection E as <- <-; exact C].
  destruct (block_put s p (false, key) v) as [s1|] eqn:Ep; injection E as <- <-; [|exact C].
  destruct (addTimeFilter_same c s1 t key) as (S1 & _ & _ & S4 & _). apply (cinv_same s1); [|exact S1|exact S4].
  eapply block_put_fine; [exact W|exact C|exact El| |exact Ep]. intros _. now apply (has_spec s A t p key W El).
Qed.

Lemma delete_fine c s A key s' r : winv s A -> frec c s A -> cinv s -> (key < 2 ^ 64)%N -> mem_delete c s key = (s', r) -> cinv s' /\
  (r <> MNotExist -> forall t, A t key <> None -> (forall t', t < t' -> A t' key = None) -> t < m_cur s -> (forall k, k <> key -> A t k = None) -> live s' t = None).
Proof.
  intros W F C Hk E. unfold mem_delete in E. rewrite (wi_open _ _ W) in E. destruct (newest c s key) as [[t p]|] eqn:En.
  2:{ injection E as <- <-. split; [exact C|]. congruence. }
  destruct (newest_inv _ _ _ _ _ _ W F En) as (Hl & Ha & Hnew).
  destruct (block_delete_inv _ _ _ _ _ W Hl Ha) as (s1 & E1 & W1 & F1 & C1 & L1). rewrite E1 in E.
  assert (Hl1 : live s1 t = Some p) by (unfold live; rewrite L1; exact Hl).
  assert (Q1 : cinv s1).
  { unfold block_delete in E1. destruct (nth_error (m_blocks s) p) as [b|] eqn:Eb; [|discriminate]. destruct (nth_error (m_bufs s) (mb_buf b)) as [d|]; [|discriminate].
    injection E1 as <-. eapply cinv_mod; [exact W|exact C|exact Hl|exact Eb|reflexivity|reflexivity|].
    destruct (ci_fine _ C _ _ _ Hl Eb) as [G1 G2]. split; cbn [mb_count mb_recs]; [|now apply nodup_adel].
    rewrite <- (has_spec s A t p key W Hl) in Ha. unfold rec_off in Ha. rewrite Eb in Ha. destruct (afind ik_eqb (mb_recs b) (false, key)) as [off|] eqn:Ef; [|contradiction].
    pose proof (nkeys_gone _ _ _ G2 Ef). lia. }
  destruct (wi_blk _ _ W1 _ _ Hl1) as (b & d & rs & [G1 G1'] & G2 & G3 & G4 & G5 & G6). rewrite G1 in E.
  assert (Hempty : (forall k, k <> key -> A t k = None) -> mb_count b = 0).
  { intros Ho. destruct (ci_fine _ Q1 _ _ _ Hl1 G1) as [K1 K2]. rewrite K1. unfold nkeys. destruct (filter _ (mb_recs b)) as [|[[f x] o] r0] eqn:Ef; [reflexivity|]. exfalso.
    assert (Hin : In ((f, x), o) (mb_recs b) /\ f = false).
    { assert (In ((f, x), o) (filter (fun e : ikey * Z => negb (fst (fst e))) (mb_recs b))) as Hi by (rewrite Ef; now left).
      apply filter_In in Hi as [Hi Hf]. cbn [fst] in Hf. now destruct f. }
    destruct Hin as [Hin ->]. assert (Hx : upd A t key None t x = None).
    { unfold upd. rewrite Z.eqb_refl. cbn [andb]. destruct (N.eqb_spec x key); [reflexivity|now apply Ho]. }
    rewrite <- (has_spec s1 _ t p x W1 Hl1) in Hx. unfold rec_off in Hx. rewrite G1 in Hx. revert Hx. apply (afind_keys _ ik_eqb_iff).
    apply in_map_iff. now exists ((false, x), o). }
  assert (Hu : forall t', A t' key <> None -> (forall u, t' < u -> A u key = None) -> t' = t).
  { intros t' H1 H2. destruct (Z.lt_trichotomy t t') as [Hlt|[->|Hlt]]; [now apply Hnew in Hlt|reflexivity|now apply H2 in Hlt]. }
  destruct (Z.eqb_spec (mb_count b) 0) as [Hc|Hc]; cbn [andb] in E.
  2:{ destruct (move_fine _ _ _ _ _ _ W1 Q1 E) as [Q2 _]. split; [exact Q2|]. intros _ t' H1 H2 H3 H4. rewrite (Hu t' H1 H2) in H4. now apply Hempty in H4. }
  destruct (drop_tombs_inv _ _ _ _ _ W1 Hl1 G1 Hc) as (W2 & F2 & C2 & L2 & _). pose proof (drop_tombs_fine _ _ _ _ _ W1 Q1 Hl1 G1 Hc) as Q2.
  destruct (Z.ltb_spec t (m_cur (drop_tombs s1 p))) as [Hlt|Hlt].
  - destruct (releaseLog (drop_tombs s1 p) t) as [s2|] eqn:Er.
    + injection E as <- <-. destruct (release_fine _ _ _ Q2 Er) as [Q3 Q4]. split; [exact Q3|]. intros _ t' H1 H2 H3 H4. now rewrite (Hu t' H1 H2).
    + exfalso. unfold releaseLog in Er. unfold live in Er. rewrite L2 in Er. fold (live s1 t) in Er. rewrite Hl1 in Er.
      destruct (drop_tombs_inv _ _ _ _ _ W1 Hl1 G1 Hc) as (_ & _ & _ & _ & b' & B' & _). rewrite B' in Er. discriminate.
  - destruct (move_fine _ _ _ _ _ _ W2 Q2 E) as [Q3 _]. split; [exact Q3|]. intros _ t' H1 H2 H3 H4. rewrite (Hu t' H1 H2) in H3. lia.
Qed.

(** * Steps *)
Lemma step_fine c s A o s' out : winv s A -> frec c s A -> cinv s -> op_ok o -> new_key (m_cur s) A o -> mstep c s o = (s', out) -> cinv s'.
Proof.
  intros W F C Ho Hn E. destruct o; cbn [mstep op_ok new_key] in *.
  - destruct (mem_put c s key data) as [s1 r] eqn:Ep. injection E as <- <-. eapply put_in_fine; eassumption.
  - destruct (mem_delete c s key) as [s1 r] eqn:Ed. injection E as <- <-. eapply delete_fine; eassumption.
  - destruct (mem_get c s key) as [s1 g] eqn:Eg. injection E as <- <-. apply mem_get_same in Eg as (qr & qf & qb & ->).
    eapply cinv_same; [exact C|reflexivity|reflexivity].
  - unfold mem_free in E. destruct (releaseLog s t) as [s1|] eqn:Er; injection E as <- <-; [|exact C]. eapply release_fine; eassumption.
  - injection E as <- <-. unfold mem_tick, newTinyLog. set (s1 := set_log s _ _ _).
    assert (W1 : winv s1 A) by (eapply winv_same; [exact W|reflexivity..]).
    eapply cinv_same; [|reflexivity|reflexivity]. eapply cinv_same; [eapply (add_block_fine s1 A (trunc now (c_dur c)) pick W1)|reflexivity|reflexivity].
    eapply cinv_same; [exact C|reflexivity|reflexivity].
  - injection E as <- <-. unfold mem_commit. destruct (m_queue s) as [|[id t] q]; [exact C|]. set (s1 := set_log s _ _ _).
    assert (W1 : winv s1 A) by (eapply winv_same; [exact W|reflexivity..]).
    destruct (marks_same (tinyWrite s1 id t) t _ (or_intror (or_introl eq_refl))) as (E1 & _ & _ & E4 & _).
    eapply cinv_same; [eapply (tiny_fine s1 A id t W1)|exact E1|exact E4]. eapply cinv_same; [exact C|reflexivity|reflexivity].
  - injection E as <- <-. unfold mem_drop. destruct (m_queue s); [exact C|]. eapply cinv_same; [exact C|reflexivity|reflexivity].
  - injection E as <- <-. eapply add_block_fine; eassumption.
  - destruct (batch_put c s t key data) as [s1 r] eqn:Ep. injection E as <- <-. eapply put_in_fine; eassumption.
  - injection E as <- <-. unfold batch_write. destruct (tinyWrite_inv s A t t W) as (W1 & _). eapply add_block_fine; [exact W1|]. eapply tiny_fine; eassumption.
  - injection E as <- <-. clear Hn Ho. unfold batch_commit. clear W F A. revert s C. induction group as [|t r IH]; intros s C; cbn [fold_left]; [exact C|]. apply IH.
    destruct (marks_same s t _ (or_introl eq_refl)) as (E1 & _ & _ & E4 & _).
    destruct (marks_same (mark_add s t) t _ (or_intror (or_introl eq_refl))) as (E1' & _ & _ & E4' & _).
    eapply cinv_same; [exact C|congruence|congruence].
Qed.

Lemma run_fine c s h s' : mrun c s h s' -> forall A, winv s A -> frec c s A -> cinv s -> Forall (fun x => op_ok (fst x)) h ->
  (forall h1 o out h2 cur B, h = h1 ++ (o, out) :: h2 -> acts_all c (m_cur s) A h1 cur B -> new_key cur B o) ->
  exists A', acts_all c (m_cur s) A h (m_cur s') A' /\ winv s' A' /\ frec c s' A' /\ cinv s'.
Proof.
  induction 1 as [s|s o s1 out h s' E Hr IH]; intros A W F C Ho Hn.
  - exists A. split; [constructor|auto].
  - inversion Ho as [|? ? Ho1 Ho2]; subst. destruct (step_inv _ _ _ _ _ _ W F Ho1 E) as (A1 & Ha & W1 & F1).
    pose proof (step_fine c s A o s1 out W F C Ho1 (Hn [] o out h (m_cur s) A eq_refl (aa_nil _ _ _)) E) as C1.
    destruct (IH A1 W1 F1 C1 Ho2) as (A2 & Haa & R).
    + intros h1 o' out' h2 cur B -> Hb. apply (Hn ((o, out) :: h1) o' out' h2 cur B eq_refl). econstructor; eassumption.
    + exists A2. split; [econstructor; eassumption|exact R].
Qed.
Lemma empty_fine c gens now s : mem_open c gens [] now = Some s -> cinv s.
Proof.
  intros E. unfold mem_open in E. cbn [replay all_ids flat_map map recover_logs fold_left] in E. injection E as <-.
  unfold newTinyLog, addTimeBlock. cbn. split; cbn; [repeat constructor; tauto|]. intros t p b Hl Hb. unfold live in Hl. cbn in Hl.
  destruct (_ =? _) in Hl; [|discriminate]. injection Hl as <-. cbn in Hb. injection Hb as <-. split; [reflexivity|constructor].
Qed.

(** * Size *)
Definition held (s : mdb) : list (Z * N) := flat_map (fun e => map (pair (fst e)) (block_keys s (fst e))) (m_live s).
Lemma keys_of recs : length (flat_map (fun e : ikey * Z => if fst (fst e) then [] else [snd (fst e)]) recs) = nkeys recs.
Proof.
  unfold nkeys. induction recs as [|[[f x] o] r IH]; [reflexivity|]. cbn [flat_map filter fst snd]. destruct f; cbn [negb app length]; [exact IH|]. now rewrite IH.
Qed.
Lemma in_keys recs k : In k (flat_map (fun e : ikey * Z => if fst (fst e) then [] else [snd (fst e)]) recs) <-> afind ik_eqb recs (false, k) <> None.
Proof.
  rewrite (afind_keys _ ik_eqb_iff). rewrite in_flat_map, in_map_iff. split.
  - intros ([[f x] o] & Hin & Hx). cbn [fst snd] in Hx. destruct f; [contradiction|]. destruct Hx as [<-|[]]. exists ((false, x), o). auto.
  - intros ([[f x] o] & Ex & Hin). cbn [fst] in Ex. injection Ex as -> ->. exists ((false, k), o). split; [exact Hin|]. now left.
Qed.
Lemma keys_nodup recs : NoDup (map fst recs) -> NoDup (flat_map (fun e : ikey * Z => if fst (fst e) then [] else [snd (fst e)]) recs).
Proof.
  induction recs as [|[[f x] o] r IH]; cbn [flat_map map fst snd]; [constructor|]. intros H. inversion H as [|? ? Hx Hr]; subst. destruct f; cbn [app]; [now apply IH|].
  constructor; [|now apply IH]. intros Hin. apply in_keys in Hin. apply (afind_keys _ ik_eqb_iff) in Hin. contradiction.
Qed.
Lemma afind_nodup {V} (m : list (Z * V)) t p : NoDup (map fst m) -> In (t, p) m -> afind Z.eqb m t = Some p.
Proof.
  induction m as [|[u q] r IH]; cbn [map fst afind]; [contradiction|]. intros H Hin. inversion H as [|? ? Hx Hr]; subst. destruct Hin as [E|Hin].
  - injection E as -> ->. now rewrite Z.eqb_refl.
  - destruct (Z.eqb_spec u t) as [->|]; [|now apply IH]. exfalso. apply Hx. apply in_map_iff. now exists (t, p).
Qed.
Lemma size_held s A : winv s A -> cinv s -> NoDup (held s) /\ (forall t k, In (t, k) (held s) <-> A t k <> None) /\ mem_size s = Z.of_nat (length (held s)).
Proof.
  intros W [C1 C2].
  assert (Hb : forall t p, live s t = Some p -> exists b, nth_error (m_blocks s) p = Some b /\ fine b).
  { intros t p Hl. destruct (wi_blk _ _ W _ _ Hl) as (b & d & rs & [G1 _] & _). exists b. split; [exact G1|]. eapply C2; eassumption. }
  split; [|split].
  - unfold held. assert (Hl : forall t p, In (t, p) (m_live s) -> live s t = Some p) by (intros; now apply afind_nodup).
    revert C1 Hl. generalize (m_live s). induction l as [|[t p] r IH]; intros C1 Hl; cbn [flat_map fst]; [constructor|]. cbn [map fst] in C1. inversion C1 as [|? ? Hx Hr]; subst.
    assert (N1 : NoDup (map (pair t) (block_keys s t))).
    { apply FinFun.Injective_map_NoDup; [intros a b [= E]; exact E|]. unfold block_keys. rewrite (Hl t p) by now left. destruct (Hb t p) as (b & Eb & [_ Hf]); [apply Hl; now left|].
      rewrite Eb. now apply keys_nodup. }
    assert (N2 : NoDup (flat_map (fun e => map (pair (fst e)) (block_keys s (fst e))) r)) by (apply IH; [exact Hr|intros; apply Hl; now right]).
    assert (Hd : forall x, In x (map (pair t) (block_keys s t)) -> ~ In x (flat_map (fun e => map (pair (fst e)) (block_keys s (fst e))) r)).
    { intros x Hx1 Hx2. apply in_map_iff in Hx1 as (k & <- & _). apply in_flat_map in Hx2 as ([u q] & Hu & Hk). cbn [fst] in Hk. apply in_map_iff in Hk as (k' & E & _).
      injection E as -> _. apply Hx. apply in_map_iff. now exists (t, q). }
    clear - N1 N2 Hd. induction (map (pair t) (block_keys s t)) as [|a l IHl]; [exact N2|]. cbn [app]. inversion N1; subst. constructor.
    + rewrite in_app_iff. intros [Hi|Hi]; [contradiction|]. apply (Hd a); [now left|exact Hi].
    + apply IHl; [assumption|]. intros x Hx. apply Hd. now right.
  - intros t k. unfold held. rewrite in_flat_map. split.
    + intros ([u q] & Hu & Hk). cbn [fst] in Hk. apply in_map_iff in Hk as (k' & E & Hk). injection E as -> ->. pose proof (afind_nodup _ _ _ C1 Hu) as Hl. fold (live s t) in Hl.
      rewrite <- (has_spec s A t q k W Hl). unfold block_keys in Hk. rewrite Hl in Hk. unfold rec_off. destruct (nth_error (m_blocks s) q); [|contradiction]. now apply in_keys.
    + intros Ha. destruct (live s t) as [p|] eqn:El; [|now rewrite (wi_none _ _ W _ k El) in Ha]. exists (t, p). split; [now apply (afind_In _ Zeqb_iff)|]. cbn [fst].
      apply in_map_iff. exists k. split; [reflexivity|]. rewrite <- (has_spec s A t p k W El) in Ha. unfold block_keys. rewrite El. unfold rec_off in Ha.
      destruct (nth_error (m_blocks s) p); [|contradiction]. now apply in_keys.
  - unfold mem_size, held. assert (Hl : forall t p, In (t, p) (m_live s) -> live s t = Some p) by (intros; now apply afind_nodup). revert Hl.
    generalize (m_live s). induction l as [|[t p] r IH]; intros Hl; cbn [fold_right flat_map fst snd]; [reflexivity|]. rewrite app_length, map_length.
    rewrite IH by (intros; apply Hl; now right). destruct (Hb t p) as (b & Eb & [Hf _]); [apply Hl; now left|]. rewrite Eb. unfold block_keys. rewrite (Hl t p) by now left. rewrite Eb, keys_of. lia.
Qed.
Lemma size_run c gens now s h s' : cfg_ok c gens -> mem_open c gens [] now = Some s -> mrun c s h s' -> Forall (fun x => op_ok (fst x)) h -> new_keys c now h ->
  exists A ks, acts_all c (trunc now (c_dur c)) (fun _ _ => None) h (m_cur s') A /\ NoDup ks /\ (forall t k, In (t, k) ks <-> A t k <> None) /\
    mem_size s' = Z.of_nat (length ks).
Proof.
  intros Hc E Hr Ho Hn. destruct (empty_inv _ _ _ _ Hc E) as (W & F & C). unfold new_keys in Hn. rewrite <- C in Hn.
  destruct (run_fine _ _ _ _ Hr _ W F (empty_fine _ _ _ _ E) Ho Hn) as (A & Ha & W' & F' & C'). rewrite C in Ha.
  destruct (size_held s' A W' C') as (H1 & H2 & H3). exists A, (held s'). auto.
Qed.

(** * Log files *)
Record keeps (s s' : mdb) : Prop := {
  kp_live : m_live s' = m_live s;
  kp_refs : forall p b, nth_error (m_blocks s) p = Some b -> exists b', nth_error (m_blocks s') p = Some b' /\ incl (mb_refs b) (mb_refs b');
  kp_wal : m_wal s' = m_wal s;
  kp_log : m_cur s' = m_cur s /\ m_curid s' = m_curid s /\ m_queue s' = m_queue s
}.
Lemma keeps_refl s : keeps s s.
Proof. split; auto. intros p b Hb. exists b. split; [exact Hb|apply incl_refl]. Qed.
Lemma keeps_trans a b d : keeps a b -> keeps b d -> keeps a d.
Proof.
  intros [A1 A2 A3 (A4 & A5 & A6)] [B1 B2 B3 (B4 & B5 & B6)]. split; try congruence; [|repeat split; congruence].
  intros p x Hx. destruct (A2 p x Hx) as (y & Hy & I1). destruct (B2 p y Hy) as (z & Hz & I2). exists z. split; [exact Hz|]. eapply incl_tran; eassumption.
Qed.
Lemma keeps_same s s' : m_live s' = m_live s -> m_blocks s' = m_blocks s -> m_wal s' = m_wal s -> m_cur s' = m_cur s -> m_curid s' = m_curid s -> m_queue s' = m_queue s -> keeps s s'.
Proof. intros E1 E2 E3 E4 E5 E6. split; auto. rewrite E2. intros p b Hb. exists b. split; [exact Hb|apply incl_refl]. Qed.
Lemma keeps_mod s s' p b b' : nth_error (m_blocks s) p = Some b -> m_blocks s' = update (m_blocks s) p b' -> mb_refs b' = mb_refs b ->
  m_live s' = m_live s -> m_wal s' = m_wal s -> m_cur s' = m_cur s -> m_curid s' = m_curid s -> m_queue s' = m_queue s -> keeps s s'.
Proof.
  intros Hb Eb Er E1 E3 E4 E5 E6. split; auto. intros q x Hx. rewrite Eb, nth_error_update by (eapply nth_error_lt; exact Hb).
  destruct (Nat.eqb_spec q p) as [->|]; [|exists x; split; [exact Hx|apply incl_refl]]. exists b'. split; [reflexivity|]. rewrite Hb in Hx. injection Hx as <-. rewrite Er. apply incl_refl.
Qed.
Lemma put_keeps s p k v s' : block_put s p k v = Some s' -> keeps s s'.
Proof.
  intros E. unfold block_put in E. destruct (nth_error (m_blocks s) p) as [b|] eqn:Hb; [|discriminate]. destruct (nth_error (m_bufs s) (mb_buf b)); [|discriminate].
  injection E as <-. eapply keeps_mod; [exact Hb|reflexivity..].
Qed.
Lemma del_keeps s p k s' : block_delete s p k = Some s' -> keeps s s'.
Proof.
  intros E. unfold block_delete in E. destruct (nth_error (m_blocks s) p) as [b|] eqn:Hb; [|discriminate]. destruct (nth_error (m_bufs s) (mb_buf b)); [|discriminate].
  injection E as <-. eapply keeps_mod; [exact Hb|reflexivity..].
Qed.
Lemma move_keeps s t k : keeps s (fst (move s t k)).
Proof. unfold move. destruct (live s (m_cur s)); [|apply keeps_refl]. destruct (block_put _ _ _ _) eqn:E; [|apply keeps_refl]. eapply put_keeps; exact E. Qed.
Lemma drop_keeps s p : keeps s (drop_tombs s p).
Proof.
  unfold drop_tombs. destruct (nth_error (m_blocks s) p) as [b|] eqn:Hb; [|apply keeps_refl].
  match goal with |- keeps s (match nth_error (m_blocks ?x) p with _ => _ end) => assert (K : keeps s x) end.
  { clear Hb. generalize (mb_recs b). intros l. revert s. induction l as [|e r IH]; intros s; cbn [fold_left]; [apply keeps_refl|].
    eapply keeps_trans; [|apply IH]. destruct (live s (snd e)); [apply move_keeps|apply keeps_refl]. }
  match type of K with keeps s ?x => set (s1 := x) in *; clearbody s1 end.
  eapply keeps_trans; [exact K|]. destruct (nth_error (m_blocks s1) p) as [b'|] eqn:Hb'; [|apply keeps_refl]. eapply keeps_mod; [exact Hb'|reflexivity..].
Qed.
Lemma put_in_keeps c s t k v : keeps s (fst (put_in c s t k v)).
Proof.
  unfold put_in. destruct (m_closed s); [apply keeps_refl|]. destruct (live s t); [|apply keeps_refl]. destruct (block_put _ _ _ _) eqn:E; [|apply keeps_refl].
  eapply keeps_trans; [eapply put_keeps; exact E|]. cbn [fst]. unfold addTimeFilter. destruct (nth_error _ _); [|apply keeps_refl]. apply keeps_same; reflexivity.
Qed.

Record linv (c : mcfg) (s : mdb) : Prop := {
  li_cur : m_cur s = trunc (m_curid s) (c_dur c);
  li_queue : forall id t, In (id, t) (m_queue s) -> t = trunc id (c_dur c);
  li_file : forall id, log_of (m_wal s) id -> exists p b, live s (trunc id (c_dur c)) = Some p /\ nth_error (m_blocks s) p = Some b /\ In id (mb_refs b)
}.
Lemma linv_keeps c s s' : linv c s -> keeps s s' -> linv c s'.
Proof.
  intros [H1 H2 H3] [K1 K2 K3 (K4 & K5 & K6)]. split; [congruence|rewrite K6; exact H2|]. rewrite K3. intros id Hid. destruct (H3 id Hid) as (p & b & Hl & Hb & Hr).
  destruct (K2 p b Hb) as (b' & Hb' & Hi). exists p, b'. split; [unfold live; rewrite K1; exact Hl|]. auto.
Qed.
Lemma log_ddel d n id : log_of (ddel d n) id <-> log_of d id /\ FLog id <> n.
Proof.
  unfold log_of, ddel. split.
  - intros H. apply in_map_iff in H as (f & Ef & Hf). apply filter_In in Hf as [Hf Hn]. split; [rewrite <- Ef; now apply in_map|]. intros <-. rewrite Ef in Hn. cbn in Hn. now rewrite Z.eqb_refl in Hn.
  - intros [H Hn]. apply in_map_iff in H as (f & Ef & Hf). apply in_map_iff. exists f. split; [exact Ef|]. apply filter_In. split; [exact Hf|]. rewrite Ef.
    destruct n; cbn; try reflexivity. destruct (Z.eqb_spec id0 id) as [->|]; [contradiction|reflexivity].
Qed.
Lemma log_dels l : forall d id, log_of (fold_left del_log l d) id <-> log_of d id /\ ~ In id l.
Proof.
  induction l as [|x r IH]; intros d id; cbn [fold_left In]; [tauto|]. rewrite IH. unfold del_log. rewrite log_ddel. split.
  - intros [[H1 H2] H3]. split; [exact H1|]. intros [->|H]; [now apply H2|contradiction].
  - intros [H1 H2]. split; [split; [exact H1|]|tauto]. intros [= ->]. tauto.
Qed.
Lemma log_dset d n x id : (forall i, n <> FLog i) -> log_of (dset d n x) id -> log_of d id.
Proof.
  intros Hn H. unfold dset, log_of in H. rewrite map_app, in_app_iff in H. destruct H as [H|[H|[]]]; [now apply (log_ddel d n id)|]. cbn [fst] in H. exfalso. eapply Hn; exact H.
Qed.
Lemma log_write d w id x : log_of (writeLog d w id) x -> x = id \/ log_of d x.
Proof.
  unfold writeLog, log_ops. destruct (lw_size w =? 0)%N; [auto|]. unfold put_ops. cbn [li_timeID fold_left].
  assert (Ht : forall i, FTmp id <> FLog i) by discriminate.
  assert (S1 : forall d0 off b y, log_of (apply_op d0 (OWriteAt (FTmp id) off b)) y -> log_of d0 y).
  { intros d0 off b y. cbn [apply_op]. destruct (dget d0 (FTmp id)); [|auto]. destruct (write_at _ _ _); [|auto]. now apply log_dset. }
  assert (S2 : forall d0 y, log_of (apply_op d0 (ORename (FTmp id) (FLog id))) y -> y = id \/ log_of d0 y).
  { intros d0 y. cbn [apply_op]. destruct (dget d0 (FTmp id)); [|auto]. unfold log_of. rewrite map_map. intros H. apply in_map_iff in H as (f & Ef & Hf).
    destruct (fname_eqb (FTmp id) (fst f)); cbn [fst] in Ef; [left; congruence|]. right. rewrite <- Ef. unfold ddel in Hf. apply filter_In in Hf as [Hf _]. now apply in_map. }
  intros H. apply S2 in H as [H|H]; [auto|]. right. apply S1, S1 in H. cbn [apply_op] in H. now apply log_dset in H.
Qed.

Lemma linv_release c s t s' : linv c s -> releaseLog s t = Some s' -> linv c s' /\ forall id, log_of (m_wal s') id -> trunc id (c_dur c) <> t.
Proof.
  intros [H1 H2 H3] E. unfold releaseLog in E. destruct (live s t) as [p|] eqn:El; [|discriminate]. destruct (nth_error (m_blocks s) p) as [b|] eqn:Eb; [|discriminate].
  injection E as <-.
  assert (Hne : forall id, log_of (fold_left del_log (mb_refs b) (m_wal s)) id -> trunc id (c_dur c) <> t).
  { intros id Hid Et. apply log_dels in Hid as [Hid Hn]. destruct (H3 id Hid) as (q & b' & Hl & Hb & Hr). rewrite Et, El in Hl. injection Hl as <-. congruence. }
  split; [|exact Hne]. split; cbn [set_live set_buf mark_unref set_marks set_wal m_cur m_curid m_queue m_wal m_blocks]; [exact H1|exact H2|].
  intros id Hid. pose proof (Hne id Hid) as Hn. apply log_dels in Hid as [Hid _]. destruct (H3 id Hid) as (q & b' & Hl & Hb & Hr). exists q, b'. split; [|auto].
  unfold live. cbn [set_live m_live]. now rewrite afind_adel_other by (first [exact Zeqb_iff|congruence]).
Qed.
Lemma linv_add c s A t pick : winv s A -> linv c s -> linv c (addTimeBlock s t pick).
Proof.
  intros W [H1 H2 H3]. unfold addTimeBlock. destruct (live s t) eqn:El; [split; assumption|]. cbv zeta.
  match goal with |- context [let (_, _) := ?x in _] => destruct x as [[i pool] bufs] end. split; cbn [set_live set_heap m_cur m_curid m_queue m_wal m_blocks]; [exact H1|exact H2|].
  intros id Hid. destruct (H3 id Hid) as (q & b & Hl & Hb & Hr). exists q, b. unfold live. cbn [set_live m_live].
  rewrite afind_aset_other by (first [exact Zeqb_iff|congruence]). split; [exact Hl|]. split; [|exact Hr]. rewrite nth_error_app1; [exact Hb|eapply nth_error_lt; exact Hb].
Qed.
Lemma linv_tiny c s A id t : winv s A -> linv c s -> t = trunc id (c_dur c) -> linv c (tinyWrite s id t).
Proof.
  intros W [H1 H2 H3] Et. unfold tinyWrite. destruct (live s t) as [p|] eqn:El; [|split; assumption]. destruct (nth_error (m_blocks s) p) as [b|] eqn:Eb; [|split; assumption].
  destruct (nth_error (m_bufs s) (mb_buf b)) as [d|]; [|split; assumption]. destruct (skipn _ d) as [|x l]; [split; assumption|].
  split; cbn [set_block set_wal m_cur m_curid m_queue m_wal m_blocks]; [exact H1|exact H2|]. intros y Hy.
  pose proof (nth_error_lt _ _ _ Eb) as Lp. apply log_write in Hy as [->|Hy].
  - exists p. rewrite <- Et. eexists. split; [exact El|]. rewrite nth_error_update, Nat.eqb_refl by exact Lp. split; [reflexivity|]. cbn [mb_refs]. apply in_or_app. right. now left.
  - destruct (H3 y Hy) as (q & b' & Hl & Hb & Hr). exists q. rewrite nth_error_update by exact Lp. destruct (Nat.eqb_spec q p) as [->|].
    + eexists. split; [exact Hl|]. split; [reflexivity|]. rewrite Eb in Hb. injection Hb as <-. cbn [mb_refs]. apply in_or_app. now left.
    + exists b'. auto.
Qed.
Lemma linv_delete c s A key s' r : winv s A -> linv c s -> mem_delete c s key = (s', r) -> linv c s'.
Proof.
  intros W L E. unfold mem_delete in E. destruct (m_closed s); [injection E as <- <-; exact L|]. destruct (newest c s key) as [[t p]|]; [|injection E as <- <-; exact L].
  destruct (block_delete s p key) as [s1|] eqn:Ed; [|injection E as <- <-; exact L]. apply del_keeps in Ed. pose proof (linv_keeps _ _ _ L Ed) as L1.
  cbv zeta in E. set (e := match nth_error (m_blocks s1) p with Some b => mb_count b =? 0 | None => false end) in *.
  set (s2 := if e then drop_tombs s1 p else s1) in *. assert (L2 : linv c s2) by (unfold s2; destruct e; [eapply linv_keeps; [exact L1|apply drop_keeps]|exact L1]).
  destruct (e && _)%bool.
  - destruct (releaseLog s2 t) as [s3|] eqn:Er; injection E as <- <-; [|exact L2]. eapply linv_release; eassumption.
  - pose proof (move_keeps s2 t key) as K. rewrite E in K. eapply linv_keeps; [exact L2|exact K].
Qed.
Lemma step_logs c s A o s' out : winv s A -> linv c s -> no_batch o -> mstep c s o = (s', out) -> linv c s'.
Proof.
  intros W L Hn E. destruct o; cbn [mstep no_batch] in *; try contradiction.
  - pose proof (put_in_keeps c s (m_cur s) key data) as K. unfold mem_put in E. destruct (put_in c s (m_cur s) key data) as [s1 r]. injection E as <- <-. eapply linv_keeps; eassumption.
  - destruct (mem_delete c s key) as [s1 r] eqn:Ed. injection E as <- <-. eapply linv_delete; eassumption.
  - destruct (mem_get c s key) as [s1 g] eqn:Eg. injection E as <- <-. apply mem_get_same in Eg as (qr & qf & qb & ->). eapply linv_keeps; [exact L|]. apply keeps_same; reflexivity.
  - unfold mem_free in E. destruct (releaseLog s t) as [s1|] eqn:Er; injection E as <- <-; [|exact L]. eapply linv_release; eassumption.
  - injection E as <- <-. unfold mem_tick, newTinyLog. set (s1 := set_log s _ _ _).
    assert (W1 : winv s1 A) by (eapply winv_same; [exact W|reflexivity..]).
    assert (L1 : linv c s1).
    { destruct L as [L1 L2 L3]. split; [exact L1| |exact L3]. intros id t Hin. unfold s1 in Hin. cbn [set_log m_queue] in Hin. apply in_app_iff in Hin as [Hin|[[= <- <-]|[]]]; [now apply L2|exact L1]. }
    destruct (linv_add c s1 A (trunc now (c_dur c)) pick W1 L1) as [M1 M2 M3]. split; cbn [set_log mark_add set_marks m_cur m_curid m_queue m_wal m_blocks]; [reflexivity|exact M2|exact M3].
  - injection E as <- <-. unfold mem_commit. destruct (m_queue s) as [|[id t] q] eqn:Eq; [exact L|]. set (s1 := set_log s _ _ _).
    assert (W1 : winv s1 A) by (eapply winv_same; [exact W|reflexivity..]).
    assert (L1 : linv c s1).
    { destruct L as [L1 L2 L3]. split; [exact L1| |exact L3]. intros i u Hin. apply L2. rewrite Eq. now right. }
    assert (Et : t = trunc id (c_dur c)) by (apply (li_queue _ _ L); rewrite Eq; now left).
    pose proof (linv_tiny c s1 A id t W1 L1 Et) as L2. eapply linv_keeps; [exact L2|]. unfold mark_release.
    destruct (afind Z.eqb _ t); [|apply keeps_refl]. destruct (0 <? _); apply keeps_same; reflexivity.
  - injection E as <- <-. unfold mem_drop. destruct (m_queue s) as [|x q] eqn:Eq; [exact L|]. destruct L as [L1 L2 L3]. split; [exact L1| |exact L3].
    intros i u Hin. apply L2. rewrite Eq. now right.
Qed.
Lemma run_logs c s h s' : mrun c s h s' -> forall A, winv s A -> frec c s A -> linv c s -> Forall (fun x => op_ok (fst x)) h -> Forall (fun x => no_batch (fst x)) h -> linv c s'.
Proof.
  induction 1 as [s|s o s1 out h s' E Hr IH]; intros A W F L Ho Hn; [exact L|]. inversion Ho as [|? ? Ho1 Ho2]; subst. inversion Hn as [|? ? Hn1 Hn2]; subst.
  destruct (step_inv _ _ _ _ _ _ W F Ho1 E) as (A1 & _ & W1 & F1). exact (IH A1 W1 F1 (step_logs c s A o s1 out W L Hn1 E) Ho2 Hn2).
Qed.
Lemma empty_logs c gens now s : mem_open c gens [] now = Some s -> linv c s.
Proof.
  intros E. unfold mem_open in E. cbn [replay all_ids flat_map map recover_logs fold_left] in E. injection E as <-.
  unfold newTinyLog, addTimeBlock. cbn. split; cbn; [reflexivity|contradiction|]. intros id Hid. contradiction.
Qed.

Lemma release_run c gens now s h s' k s'' : cfg_ok c gens -> mem_open c gens [] now = Some s -> mrun c s h s' ->
  Forall (fun x => op_ok (fst x)) h -> Forall (fun x => no_batch (fst x)) h -> new_keys c now h -> (k < 2 ^ 64)%N -> mem_delete c s' k = (s'', MOk) ->
  exists A, acts_all c (trunc now (c_dur c)) (fun _ _ => None) h (m_cur s') A /\
    forall t, A t k <> None -> (forall t', t < t' -> A t' k = None) -> t < m_cur s' -> (forall k', k' <> k -> A t k' = None) ->
      snd (mem_free s'' t) = MNotExist /\ forall id, log_of (m_wal s'') id -> trunc id (c_dur c) <> t.
Proof.
  intros Hc E Hr Ho Hb Hn Hk Ed. destruct (empty_inv _ _ _ _ Hc E) as (W & F & C). unfold new_keys in Hn. rewrite <- C in Hn.
  destruct (run_fine _ _ _ _ Hr _ W F (empty_fine _ _ _ _ E) Ho Hn) as (A & Ha & W' & F' & C'). rewrite C in Ha. exists A. split; [exact Ha|].
  intros t H1 H2 H3 H4. destruct (delete_fine _ _ _ _ _ _ W' F' C' Hk Ed) as [_ Hg]. pose proof (Hg ltac:(discriminate) t H1 H2 H3 H4) as Hl. split.
  - unfold mem_free, releaseLog. rewrite Hl. reflexivity.
  - intros id Hid Et. pose proof (run_logs _ _ _ _ Hr _ W F (empty_logs _ _ _ _ E) Ho Hb) as L. pose proof (linv_delete _ _ _ _ _ _ W' L Ed) as L'.
    destruct (li_file _ _ L' id Hid) as (p & b & Hx & _). rewrite Et, Hl in Hx. discriminate.
Qed.

(** * Histories that put every key once *)
Lemma acts_put c cur A h cur' A' : acts_all c cur A h cur' A' -> forall t k, A' t k <> None -> A t k <> None \/ In k (flat_map (fun x => put_key (fst x)) h).
Proof.
  induction 1 as [cur A|cur A o out cur1 A1 h cur2 A2 Ha Hr IH]; intros t k Hk; [now left|]. cbn [flat_map fst]. rewrite in_app_iff.
  destruct (IH t k Hk) as [H|H]; [|auto]. inversion Ha; subst; cbn [put_key]; auto.
  - unfold upd in H. destruct (_ && _)%bool eqn:E; [|auto]. right. left. left. lia.
  - unfold upd in H. destruct (_ && _)%bool eqn:E; [|auto]. right. left. left. lia.
  - unfold upd in H. destruct (_ && _)%bool eqn:E; [contradiction|auto].
  - unfold clear in H. destruct (_ =? _); [contradiction|auto].
Qed.
Lemma once_new c now h : NoDup (flat_map (fun x => put_key (fst x)) h) -> new_keys c now h.
Proof.
  intros H h1 o out h2 cur A -> Ha. rewrite flat_map_app in H. cbn [flat_map fst] in H.
  assert (Hk : forall k, In k (put_key o) -> forall t, A t k = None).
  { intros k Hk t. destruct (A t k) as [w|] eqn:E; [|reflexivity]. exfalso. destruct (acts_put _ _ _ _ _ _ Ha t k ltac:(congruence)) as [Hn|Hn]; [congruence|].
    apply in_split in Hn as (a & b & Eab). rewrite Eab, <- app_assoc in H. cbn [app] in H. apply NoDup_remove_2 in H. apply H. rewrite !in_app_iff. auto. }
  destruct o; cbn [new_key put_key] in *; auto; apply Hk; now left.
Qed.

(** * A closed store *)
Lemma closed_answers c s : let s' := mem_close s in
  (forall k v, mem_put c s' k v = (s', MClosed)) /\ (forall t k v, batch_put c s' t k v = (s', MClosed)) /\
  (forall k, mem_get c s' k = (s', GClosed)) /\ (forall t k, mem_lookup s' t k = GClosed) /\ (forall k, mem_delete c s' k = (s', MClosed)) /\
  (forall t, mem_free s' t = (s', MNotExist)) /\ mem_size s' = 0 /\ (forall t, block_keys s' t = []).
Proof.
  cbv zeta. set (s' := mem_close s). assert (Hc : m_closed s' = true) by reflexivity. assert (Hl : m_live s' = []) by reflexivity. clearbody s'.
  assert (Hv : forall t, live s' t = None) by (intros t; unfold live; now rewrite Hl).
  split; [intros k v; unfold mem_put, put_in; now rewrite Hc|]. split; [intros t k v; unfold batch_put, put_in; now rewrite Hc|].
  split; [intros k; unfold mem_get; cbn [mem_get_n]; now rewrite Hc|]. split; [intros t k; unfold mem_lookup; now rewrite Hc|].
  split; [intros k; unfold mem_delete; now rewrite Hc|]. split; [intros t; unfold mem_free, releaseLog; now rewrite Hv|].
  split; [unfold mem_size; now rewrite Hl|intros t; unfold block_keys; now rewrite Hv].
Qed.
