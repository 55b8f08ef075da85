(** Proofs about the in-memory store: the order of its logs and its time marks. *)
From Verif Require Import M_Bytes M_Hash M_Bloom M_Wal M_MemDB S_Wal S_MemDB P_Bytes P_Bloom P_Wal P_MemBlock P_MemDB P_MemGet P_MemLog P_MemWal.
From Coq Require Import Lia ZifyBool ZifyNat ZifyN Sorted Permutation.
Open Scope Z_scope.

(** Keys put later are held at later times and logged later. *)
Definition logged (L : list lg) : list (ikey * bytes) := flat_map l_recs L.
Record lorder (sl : N -> slot) (Q : list (Z * Z)) (L : list lg) (cur : Z) : Prop := {
  od_time : forall k1 k2 t1 t2 v1 v2, sl k1 = Held t1 v1 -> sl k2 = Held t2 v2 -> (k1 < k2)%N -> t1 <= t2;
  od_logs : StronglySorted N.lt (map rkey (logged L));
  od_after : forall k k' t' v', In k (map rkey (logged L)) -> sl k' = Held t' v' -> ~ In k' (map rkey (logged L)) -> (k < k')%N;
  od_q : StronglySorted Z.le (map snd Q);
  od_cur : forall k t v, sl k = Held t v -> t <= cur
}.
(** Every block with something in it is released or will be. *)
Record mmarks (s : mdb) (sl : N -> slot) (Q : list (Z * Z)) : Prop := {
  mk_one : forall t r, afind Z.eqb (m_marks s) t = Some r -> r = 1;
  mk_held : forall k t v, sl k = Held t v -> In t (m_released s) \/ (afind Z.eqb (m_marks s) t <> None /\ In t (map snd Q));
  mk_cur : In (m_cur s) (m_released s) \/ afind Z.eqb (m_marks s) (m_cur s) <> None;
  mk_le : forall t q, In t (m_released s) -> In q (map snd Q) -> t <= q
}.
Record mkeep (s : mdb) (sl : N -> slot) (L : list lg) : Prop := {
  kp_wal : walinv s sl (pending s) L;
  kp_order : lorder sl (pending s) L (m_cur s);
  kp_marks : mmarks s sl (pending s)
}.

Lemma logged_app a b : logged (a ++ b) = logged a ++ logged b.
Proof. apply flat_map_app. Qed.
Lemma in_logged L r : In r (logged L) <-> exists x, In x L /\ In r (l_recs x).
Proof. apply in_flat_map. Qed.
Lemma cur_pending s : In (m_cur s) (map snd (pending s)).
Proof. unfold pending. rewrite map_app. apply in_or_app. right. now left. Qed.

(** * Put *)
Lemma order_put sl Q L cur k v : lorder sl Q L cur -> sl k = Absent ->
  (forall k' t' v', sl k' = Held t' v' -> (k' < k)%N) ->
  (forall r, In r (logged L) -> exists t', sl (rkey r) = Held t' (snd r)) ->
  lorder (fun k' => if (k' =? k)%N then Held cur v else sl k') Q L cur.
Proof.
  intros [O1 O2 O3 O4 O5] Hk Hlast Hin. split; try assumption.
  - intros k1 k2 t1 t2 v1 v2 H1 H2 Hlt. destruct (N.eqb_spec k1 k) as [->|N1], (N.eqb_spec k2 k) as [->|N2].
    + lia.
    + apply Hlast in H2. lia.
    + injection H2 as <- _. eapply O5, H1.
    + eapply O1; eassumption.
  - intros k1 k2 t2 v2 H1 H2 Hn. destruct (N.eqb_spec k2 k) as [->|N2].
    + apply in_map_iff in H1 as (r & <- & Hr). destruct (Hin r Hr) as [t' Ht]. eapply Hlast, Ht.
    + eapply O3; eassumption.
  - intros k' t v' H. destruct (N.eqb_spec k' k) as [->|]; [injection H as <- _; lia|eapply O5, H].
Qed.

Lemma logged_held sl V Q L r : mwal sl V Q L -> In r (logged L) -> exists t', sl (rkey r) = Held t' (snd r).
Proof.
  intros M Hr. apply in_logged in Hr as (x & Hx & Hr). destruct r as [k v]. destruct (in_recs _ _ _ _ _ _ _ M Hx Hr) as [_ H].
  exists (l_t x). exact H.
Qed.

Lemma keep_put c s g L k v s' r : ginv c s g -> mkeep s (g_slot g) L -> item_ok k v -> g_slot g k = Absent ->
  (forall k' t' v', g_slot g k' = Held t' v' -> (k' < k)%N) ->
  mem_put c s k v = (s', r) -> r = MOk -> mkeep s' (g_slot (gset g k (Held (g_cur g) v))) L.
Proof.
  intros G [Wl Od Mk] Hi Hk Hlast E Er. pose proof (wal_put _ _ _ _ _ _ _ _ G Wl Hi Hk Hlast E Er) as Wl'.
  unfold mem_put in E. destruct (put_fields _ _ _ _ _ _ _ E) as (F1 & F2 & F3 & F4 & F5).
  assert (Ep : pending s' = pending s) by (unfold pending; now rewrite F2, F3, F4).
  assert (Em : m_marks s' = m_marks s).
  { clear - E. unfold put_in in E. destruct (m_closed s); [now injection E as <- _|]. destruct (live s (m_cur s)) as [p|]; [|now injection E as <- _].
    destruct (block_put s p (false, k) v) as [s2|] eqn:Ep; [|now injection E as <- _]. injection E as <- _. unfold block_put in Ep.
    destruct (nth_error (m_blocks s) p) as [b|]; [|discriminate]. destruct (nth_error (m_bufs s) (mb_buf b)); [|discriminate].
    injection Ep as <-. unfold addTimeFilter. cbn [m_filters set_block set_buf]. now destruct (nth_error (m_filters s) (c_bkey c k)). }
  pose proof (gi_cur _ _ _ G) as Hc. cbn [g_slot gset] in *. split.
  - exact Wl'.
  - rewrite Ep, F4, <- Hc. apply order_put; try assumption. intros r0 Hr0. eapply logged_held; [apply Wl|exact Hr0].
  - rewrite Ep. destruct Mk as [K1 K2 K3 K4]. split; rewrite ?Em, ?F4, ?F5; try assumption.
    intros k' t v' H. destruct (N.eqb_spec k' k) as [->|]; [|eapply K2, H]. injection H as <- _. rewrite <- Hc.
    destruct K3 as [K3|K3]; [now left|right]. split; [exact K3|apply cur_pending].
Qed.

Lemma keep_get c s g L k s' r : mkeep s (g_slot g) L -> mem_get c s k = (s', r) -> mkeep s' (g_slot g) L.
Proof.
  intros [Wl Od Mk] E. pose proof (wal_get _ _ _ _ _ _ _ Wl E) as Wl'. unfold mem_get in E. apply mem_get_same in E as (qr & qf & qb & ->).
  split; [exact Wl'|exact Od|]. destruct Mk as [K1 K2 K3 K4]. split; assumption.
Qed.

(** The same store but for what queries leave behind. *)
Lemma keep_same s s' sl sl' L : mkeep s sl L -> (forall k t v, sl' k = Held t v <-> sl k = Held t v) ->
  m_blocks s' = m_blocks s -> m_bufs s' = m_bufs s -> m_live s' = m_live s ->
  m_cur s' = m_cur s -> m_curid s' = m_curid s -> m_queue s' = m_queue s -> m_marks s' = m_marks s -> m_released s' = m_released s -> m_wal s' = m_wal s ->
  mkeep s' sl' L.
Proof.
  intros [[M D] [O1 O2 O3 O4 O5] [K1 K2 K3 K4]] Es E1 E2 E3 E4 E5 E6 E7 E8 E9.
  assert (Ep : pending s' = pending s) by (unfold pending; now rewrite E4, E5, E6). split; rewrite ?Ep, ?E4.
  - split; [|now rewrite E9]. eapply mwal_ext; [exact M|exact Es|]. intros u. now apply vw_same.
  - split; try assumption.
    + intros k1 k2 t1 t2 v1 v2 H1 H2. apply Es in H1, H2. eapply O1; eassumption.
    + intros k1 k2 t v H1 H2. apply Es in H2. eapply O3; eassumption.
    + intros k t v H. apply Es in H. eapply O5, H.
  - split; rewrite ?E4, ?E7, ?E8; try assumption. intros k t v H. apply Es in H. eapply K2, H.
Qed.

(** * Tick *)
Lemma sorted_le_end l x : StronglySorted Z.le l -> (forall y, In y l -> y <= x) -> StronglySorted Z.le (l ++ [x]).
Proof.
  induction l as [|a l IH]; intros H Hx; cbn [app]; [repeat constructor|]. apply StronglySorted_inv in H as [H1 H2].
  constructor; [apply IH; [exact H1|intros y Hy; apply Hx; now right]|]. apply Forall_app. split; [exact H2|].
  constructor; [apply Hx; now left|constructor].
Qed.
Lemma sorted_le_all l x : StronglySorted Z.le (l ++ [x]) -> forall y, In y (l ++ [x]) -> y <= x.
Proof.
  intros H y Hy. apply in_app_or in Hy as [Hy|[->|[]]]; [|lia]. exact (sorted_before _ _ _ _ H y Hy).
Qed.

Lemma keep_tick c s g L now : ginv c s g -> mkeep s (g_slot g) L -> m_curid s < now -> m_cur s <= trunc now (c_dur c) ->
  mkeep (mem_tick c s now None) (g_slot g) L.
Proof.
  intros G [Wl [O1 O2 O3 O4 O5] [K1 K2 K3 K4]] Hid Hle. pose proof (wal_tick _ _ _ _ _ G Wl Hid Hle) as Wl'.
  set (t := trunc now (c_dur c)) in *. set (s1 := set_log s (m_cur s) (m_curid s) (m_queue s ++ [(m_curid s, m_cur s)])).
  assert (E1 : m_marks (mem_tick c s now None) = aset Z.eqb (m_marks s) t 1 /\ m_released (mem_tick c s now None) = m_released s /\
               m_cur (mem_tick c s now None) = t /\ pending (mem_tick c s now None) = pending s ++ [(now, t)]).
  { unfold mem_tick, newTinyLog, pending. fold s1. fold t. cbn [m_marks m_released m_cur m_queue m_curid set_log mark_add set_marks].
    destruct (add_fields s1 t None) as (-> & _ & _ & _ & -> & ->). repeat split; reflexivity. }
  destruct E1 as (E1 & E2 & E3 & E4).
  assert (Hq : forall q, In q (map snd (pending s)) -> q <= t).
  { intros q Hq. unfold pending in O4, Hq. rewrite map_app in O4, Hq. cbn [map snd] in O4, Hq. pose proof (sorted_le_all _ _ O4 q Hq). lia. }
  split; [exact Wl'| |].
  - rewrite E3, E4. split; try assumption.
    + rewrite map_app. cbn [map snd]. now apply sorted_le_end.
    + intros k u v H. specialize (O5 k u v H). lia.
  - split; rewrite ?E1, ?E2, ?E3, ?E4.
    + intros u r. destruct (Z.eq_dec u t) as [->|Hn]; [rewrite (afind_aset_same _ Zeqb_iff); congruence|].
      rewrite (afind_aset_other _ Zeqb_iff) by congruence. apply K1.
    + intros k u v H. destruct (K2 k u v H) as [A|[A B]]; [now left|right]. rewrite map_app. split.
      * destruct (Z.eq_dec u t) as [->|Hn]; [rewrite (afind_aset_same _ Zeqb_iff); discriminate|].
        now rewrite (afind_aset_other _ Zeqb_iff) by congruence.
      * apply in_or_app. now left.
    + right. rewrite (afind_aset_same _ Zeqb_iff). discriminate.
    + intros u q Hu Hin. rewrite map_app in Hin. apply in_app_or in Hin as [Hin|[<-|[]]]; [now apply K4|].
      cbn [snd]. pose proof (K4 u (m_cur s) Hu (cur_pending s)). lia.
Qed.

(** * Commit *)
Lemma release_marks s t : (forall u r, afind Z.eqb (m_marks s) u = Some r -> r = 1) ->
  (afind Z.eqb (m_marks s) t = None /\ mark_release s t = s) \/
  (afind Z.eqb (m_marks s) t <> None /\ m_marks (mark_release s t) = adel Z.eqb (m_marks s) t /\
   m_released (mark_release s t) = t :: filter (fun u => negb (u =? t)) (m_released s)).
Proof.
  intros H1. unfold mark_release. destruct (afind Z.eqb (m_marks s) t) as [r|] eqn:E; [right|now left].
  rewrite (H1 t r E). split; [discriminate|]. split; reflexivity.
Qed.
Lemma in_released s t u : In u (t :: filter (fun x => negb (x =? t)) (m_released s)) <-> u = t \/ In u (m_released s).
Proof.
  cbn [In]. rewrite filter_In. split.
  - intros [H|[H _]]; [left; congruence|now right].
  - intros [->|H]; [now left|]. destruct (Z.eq_dec u t) as [->|]; [now left|right]. split; [exact H|]. lia.
Qed.

Lemma sorted_appN a b : StronglySorted N.lt a -> StronglySorted N.lt b -> (forall x y, In x a -> In y b -> (x < y)%N) -> StronglySorted N.lt (a ++ b).
Proof.
  induction a as [|x a IH]; intros Ha Hb H; cbn [app]; [exact Hb|]. apply StronglySorted_inv in Ha as [Ha1 Ha2]. constructor.
  - apply IH; [exact Ha1|exact Hb|]. intros; apply H; [now right|assumption].
  - apply Forall_app. split; [exact Ha2|]. apply Forall_forall. intros y Hy. apply H; [now left|exact Hy].
Qed.

(** The queue shortens by one, whether or not the current log is at its end. *)
Lemma logged_keys sl V Q L k : mwal sl V Q L -> In k (map rkey (logged L)) -> exists v, In ((false, k), v) (logged L).
Proof.
  intros M Hk. apply in_map_iff in Hk as ([[b k2] v] & <- & Hr). unfold rkey; cbn [fst snd]. exists v.
  pose proof Hr as Hr2. apply in_logged in Hr2 as (x & Hx & Hr2). destruct (in_recs _ _ _ _ _ _ _ M Hx Hr2) as [E _]. cbn [fst] in E. now subst b.
Qed.
Lemma keys_logged L k v : In ((false, k), v) (logged L) -> In k (map rkey (logged L)).
Proof. intros H. apply in_map_iff. now exists ((false, k), v). Qed.
Lemma recs_logged L t r : In r (recs_at L t) -> In r (logged L).
Proof. intros H. apply recs_at_in in H as (x & Hx & _ & Hr). apply in_logged. eauto. Qed.

Lemma order_commit sl V id t Q L L2 cur : mwal sl V Q (L ++ L2) -> NoDup (map fst (logged (L ++ L2))) ->
  (L2 = [] \/ exists rest, L2 = [mkL id t rest] /\ StronglySorted N.lt (map rkey rest) /\
       forall k v, sl k = Held t v -> In ((false, k), v) (recs_at L t ++ rest)) ->
  lorder sl ((id, t) :: Q) L cur -> lorder sl Q (L ++ L2) cur.
Proof.
  intros M Hd HL [O1 O2 O3 O4 O5]. cbn [map snd] in O4. apply StronglySorted_inv in O4 as [O4 O4'].
  destruct HL as [->|(rest & -> & Hs & Hall)]; [rewrite app_nil_r in *; split; assumption|].
  assert (El : logged (L ++ [mkL id t rest]) = logged L ++ rest).
  { rewrite logged_app. unfold logged at 2. cbn [flat_map l_recs]. now rewrite app_nil_r. }
  assert (Hrest : forall k, In k (map rkey rest) -> exists v, In ((false, k), v) rest /\ sl k = Held t v).
  { intros k Hk. apply in_map_iff in Hk as ([[b k2] v] & <- & Hr). unfold rkey; cbn [fst snd].
    destruct (in_recs _ _ _ _ (mkL id t rest) _ _ M ltac:(apply in_or_app; right; now left) Hr) as [E E2]. cbn [fst snd l_t] in E, E2. subst b. eauto. }
  assert (Hnew : forall k, In k (map rkey rest) -> ~ In k (map rkey (logged L))).
  { intros k Hk Hin. destruct (Hrest k Hk) as (v & Hr & Hh). rewrite El, map_app in Hd. apply nodup_app_r in Hd as [_ Hd].
    assert (Hin2 : exists w, In ((false, k), w) (logged L)).
    { apply in_map_iff in Hin as ([[b k2] w] & <- & Hr2). unfold rkey in *; cbn [fst snd] in *. exists w.
      pose proof Hr2 as Hr3. apply in_logged in Hr3 as (x & Hx & Hr3).
      destruct (in_recs _ _ _ _ x _ _ M ltac:(apply in_or_app; now left) Hr3) as [E _]. cbn [fst] in E. now subst b. }
    destruct Hin2 as [w Hw]. apply (Hd (false, k)); [now apply (in_map fst) in Hw|now apply (in_map fst) in Hr]. }
  split; try assumption; rewrite ?El, ?map_app.
  - apply sorted_appN; [exact O2|exact Hs|]. intros x y Hx Hy. destruct (Hrest y Hy) as (v & _ & Hh). eapply O3; [exact Hx|exact Hh|now apply Hnew].
  - intros k k' t' v' Hk Hh Hn.
    assert (Hn1 : ~ In k' (map rkey (logged L))) by (intros H; apply Hn, in_or_app; now left).
    apply in_app_or in Hk as [Hk|Hk]; [eapply O3; eassumption|].
    assert (Hne : k <> k') by (intros ->; apply Hn, in_or_app; now right).
    destruct (Hrest k Hk) as (v & _ & Hk2).
    assert (Ht : t < t').
    { destruct M as [M1 M2 M3]. destruct (V t') as [[[refs last] d]|] eqn:Ev; [|now apply (M2 t' k' v' Ev) in Hh].
      destruct (M1 _ _ _ _ Ev) as (rs & [B1 B2 B3 B4 B5 B6 B7]). pose proof (B4 _ _ Hh) as Hin.
      assert (Hno : ~ In ((false, k'), v') (recs_at (L ++ [mkL id t rest]) t')).
      { intros H. apply recs_logged in H. rewrite El in H. apply Hn. rewrite <- map_app. apply in_map_iff. eexists. split; [|exact H]. reflexivity. }
      destruct B7 as [(rest' & -> & _ & _ & Hq)|[_ H]]; [|apply H in Hin; contradiction].
      apply in_app_or in Hin as [Hin|Hin]; [contradiction|].
      assert (Hin2 : In t' (map snd Q)) by (apply Hq; intros ->; contradiction).
      pose proof (proj1 (Forall_forall _ _) O4' t' Hin2) as Hle. cbn beta in Hle.
      destruct (Z.eq_dec t t') as [<-|]; [|lia]. exfalso. specialize (Hall _ _ Hh). apply Hno.
      rewrite recs_at_app, recs_at_one. cbn [l_t l_recs]. now rewrite Z.eqb_refl. }
    destruct (N.lt_trichotomy k k') as [H|[H|H]]; [exact H|contradiction|]. specialize (O1 _ _ _ _ _ _ Hh Hk2 H). lia.
Qed.

Lemma keep_commit_gen s sl L id t q Q : winv s (A_of sl) -> walinv s sl ((id, t) :: Q) L -> lorder sl ((id, t) :: Q) L (m_cur s) ->
  mmarks s sl ((id, t) :: Q) ->
  fits s -> m_queue s = (id, t) :: q -> - 2 ^ 63 <= id < 2 ^ 63 ->
  exists L2, walinv (mem_commit s) sl Q (L ++ L2) /\ lorder sl Q (L ++ L2) (m_cur s) /\ mmarks (mem_commit s) sl Q /\ m_queue (mem_commit s) = q /\
    m_curid (mem_commit s) = m_curid s /\ m_cur (mem_commit s) = m_cur s /\ fits (mem_commit s) /\ incl (map l_id L2) [id].
Proof.
  intros W Wl Od [K1 K2 K3 K4] Hf Eq Hid. destruct (wal_commit _ _ _ _ _ _ _ W Wl Hf Eq Hid) as (L2 & Wl' & HL & Q1 & Q2 & Hf').
  destruct (commit_inv s _ W) as (_ & _ & Ec & _).
  exists L2. split; [exact Wl'|]. split; [eapply order_commit; [apply Wl'|apply Wl'|exact HL|exact Od]|].
  split; [|repeat split; try assumption; destruct HL as [->|(rest & -> & _)]; [intros x []|apply incl_refl]].
  pose proof (od_q _ _ _ _ Od) as Oq. cbn [map snd] in Oq. apply StronglySorted_inv in Oq as [_ Oq].
  unfold mem_commit in *. rewrite Eq in *. set (s1 := set_log s (m_cur s) (m_curid s) q) in *.
  destruct (tiny_fields s1 id t) as (_ & _ & T3 & T4 & T5).
  destruct (release_mark_fields (tinyWrite s1 id t) t) as (_ & _ & _ & R4 & _).
  assert (J1 : forall u r, afind Z.eqb (m_marks (tinyWrite s1 id t)) u = Some r -> r = 1) by (rewrite T5; exact K1).
  assert (Hsplit : forall k u v, sl k = Held u v -> u = t \/ In u (m_released s) \/ (afind Z.eqb (m_marks s) u <> None /\ In u (map snd Q))).
  { intros k u v H. destruct (K2 k u v H) as [A|[A [B|B]]]; [now right; left|left; now symmetry|right; right; auto]. }
  destruct (release_marks _ t J1) as [[E1 E2]|(E1 & E2 & E3)].
  - rewrite E2. rewrite T5 in E1. split; rewrite ?T3, ?T4, ?T5; cbn [s1 m_marks m_released m_cur set_log].
    + exact K1.
    + intros k u v H. destruct (K2 k u v H) as [A|[A [B|B]]]; [now left|cbn in B; subst u; contradiction|right; auto].
    + exact K3.
    + intros u x Hu Hx. apply K4; [exact Hu|now right].
  - rewrite T5 in E1, E2. rewrite T4 in E3. cbn [s1 m_marks m_released set_log] in E1, E2, E3. split; rewrite ?R4, ?T3, ?E2, ?E3; cbn [s1 m_cur set_log].
    + intros u r Hu. destruct (Z.eq_dec u t) as [->|Hn]; [rewrite afind_adel_same in Hu; discriminate|].
      rewrite (afind_adel_other _ Zeqb_iff) in Hu by congruence. eapply K1, Hu.
    + intros k u v H. rewrite in_released. destruct (Hsplit k u v H) as [A|[A|[A B]]]; [now left; left|now left; right|].
      destruct (Z.eq_dec u t) as [->|Hn]; [now left; left|right]. split; [|exact B]. now rewrite (afind_adel_other _ Zeqb_iff) by congruence.
    + rewrite in_released. destruct K3 as [K3|K3]; [now left; right|]. destruct (Z.eq_dec (m_cur s) t) as [->|Hn]; [now left; left|].
      right. now rewrite (afind_adel_other _ Zeqb_iff) by congruence.
    + intros u x Hu Hx. apply in_released in Hu as [->|Hu]; [exact (proj1 (Forall_forall _ _) Oq x Hx)|]. apply K4; [exact Hu|now right].
Qed.

Lemma keep_commit s sl L : winv s (A_of sl) -> mkeep s sl L -> fits s -> (forall id, In id (map fst (pending s)) -> - 2 ^ 63 <= id < 2 ^ 63) ->
  exists L', mkeep (mem_commit s) sl L' /\ fits (mem_commit s) /\ incl (map fst (pending (mem_commit s))) (map fst (pending s)) /\
    m_curid (mem_commit s) = m_curid s.
Proof.
  intros W [Wl Od Mk] Hf Hid. destruct (m_queue s) as [|[id t] q] eqn:Eq.
  - assert (E : mem_commit s = s) by (unfold mem_commit; now rewrite Eq). rewrite E. exists L. split; [split; assumption|]. split; [exact Hf|]. split; [apply incl_refl|reflexivity].
  - assert (Ep : pending s = (id, t) :: q ++ [(m_curid s, m_cur s)]) by (unfold pending; now rewrite Eq).
    rewrite Ep in Wl, Od, Mk, Hid.
    destruct (keep_commit_gen _ _ _ _ _ _ _ W Wl Od Mk Hf Eq (Hid id (or_introl eq_refl))) as (L2 & Wl' & Od' & Mk' & Q1 & Q2 & Q3 & Hf' & Hi').
    assert (Ep' : pending (mem_commit s) = q ++ [(m_curid s, m_cur s)]) by (unfold pending; now rewrite Q1, Q2, Q3).
    exists (L ++ L2). split; [split; rewrite Ep', ?Q3; assumption|]. split; [exact Hf'|]. split; [|exact Q2]. rewrite Ep', Ep.
    intros x Hx. now right.
Qed.

(** * Free *)
Definition slfree (sl : N -> slot) (t : Z) (k : N) : slot :=
  match sl k with Held t' v => if t' =? t then Freed else Held t' v | x => x end.
Lemma slfree_held sl t k u v : slfree sl t k = Held u v <-> sl k = Held u v /\ u <> t.
Proof.
  unfold slfree. destruct (sl k) as [|t' w|]; [split; [discriminate|intros [? _]; discriminate]| |split; [discriminate|intros [? _]; discriminate]].
  destruct (Z.eqb_spec t' t) as [->|Hn]; split; intros H; try discriminate.
  - destruct H as [[= -> ->] H]. congruence.
  - injection H as -> ->. auto.
  - tauto.
Qed.

Lemma sorted_sub {A} (R : A -> A -> Prop) (f : A -> bool) l : StronglySorted R l -> StronglySorted R (filter f l).
Proof.
  induction 1 as [|x l Hs IH Hx]; cbn [filter]; [constructor|]. destruct (f x); [|exact IH]. constructor; [exact IH|].
  apply Forall_forall. intros y Hy. apply filter_In in Hy as [Hy _]. exact (proj1 (Forall_forall _ _) Hx y Hy).
Qed.
Lemma sorted_partN a b c : StronglySorted N.lt (a ++ b ++ c) -> StronglySorted N.lt (a ++ c).
Proof.
  induction a as [|x a IH]; cbn [app]; intros H.
  - induction b as [|y b IHb]; cbn [app] in H; [exact H|]. apply IHb. now apply StronglySorted_inv in H as [H _].
  - apply StronglySorted_inv in H as [H1 H2]. constructor; [now apply IH|]. apply Forall_forall. intros y Hy.
    apply (proj1 (Forall_forall _ _) H2). apply in_app_or in Hy as [Hy|Hy]; apply in_or_app; [now left|right; apply in_or_app; now right].
Qed.
Lemma sorted_logs (f : lg -> bool) L : forall pre, StronglySorted N.lt (pre ++ map rkey (logged L)) -> StronglySorted N.lt (pre ++ map rkey (logged (filter f L))).
Proof.
  induction L as [|x L IH]; intros pre H; [exact H|]. cbn [filter]. change (logged (x :: L)) with (l_recs x ++ logged L) in H. rewrite map_app in H.
  destruct (f x).
  - change (logged (x :: filter f L)) with (l_recs x ++ logged (filter f L)). rewrite map_app, app_assoc. apply IH. now rewrite <- app_assoc.
  - apply IH. eapply sorted_partN, H.
Qed.

Lemma keep_free s sl L t s' : winv s (A_of sl) -> mkeep s sl L -> t <> m_cur s -> releaseLog s t = Some s' ->
  mkeep s' (slfree sl t) (filter (fun x => negb (l_t x =? t)) L) /\ pending s' = pending s /\ m_cur s' = m_cur s /\ m_curid s' = m_curid s /\
  m_released s' = filter (fun x => negb (x =? t)) (m_released s) /\ m_queue s' = m_queue s.
Proof.
  intros W [Wl [O1 O2 O3 O4 O5] [K1 K2 K3 K4]] Hc E. pose proof (wal_free _ _ _ _ _ _ W Wl E) as Wl'. fold (slfree sl t) in Wl'.
  destruct (vw s t) as [[[refs last] d]|] eqn:Et.
  2:{ apply (vw_live _ _ _ W) in Et. unfold releaseLog in E. rewrite Et in E. discriminate. }
  destruct (vw_release s sl t s' t _ _ _ W Et E) as (_ & _ & E1 & E2 & E3).
  assert (E4 : m_cur s' = m_cur s /\ m_marks s' = m_marks s).
  { unfold releaseLog in E. destruct (live s t) as [p|]; [|discriminate]. destruct (nth_error (m_blocks s) p) as [b|]; [|discriminate].
    injection E as <-. split; reflexivity. }
  destruct E4 as [E4 E5]. assert (Ep : pending s' = pending s) by (unfold pending; now rewrite E2, E3, E4).
  split; [|repeat split; assumption].
  split; rewrite ?Ep; [exact Wl'| |].
  - rewrite E4. split; try assumption.
    + intros k1 k2 t1 t2 v1 v2 H1 H2. apply slfree_held in H1 as [H1 _], H2 as [H2 _]. eapply O1; eassumption.
    + exact (sorted_logs _ L [] O2).
    + intros k k' t' v' Hk Hh Hn. apply slfree_held in Hh as [Hh Ht]. apply (O3 k k' t' v').
      * apply in_map_iff in Hk as (r & <- & Hr). apply in_map. apply in_logged in Hr as (x & Hx & Hr). apply filter_In in Hx as [Hx _].
        apply in_logged. eauto.
      * exact Hh.
      * intros Hin. apply Hn. destruct (logged_keys _ _ _ _ _ (wl_mem _ _ _ _ Wl) Hin) as (v & Hv). apply (keys_logged _ _ v).
        apply in_logged in Hv as (x & Hx & Hr). apply in_logged. exists x. split; [|exact Hr]. apply filter_In. split; [exact Hx|].
        destruct (in_recs _ _ _ _ _ _ _ (wl_mem _ _ _ _ Wl) Hx Hr) as [_ H]. cbn [snd] in H. rewrite Hh in H. injection H as <- _. lia.
    + intros k u v H. apply slfree_held in H as [H _]. eapply O5, H.
  - split; rewrite ?E1, ?E4, ?E5.
    + exact K1.
    + intros k u v H. apply slfree_held in H as [H Hn]. destruct (K2 k u v H) as [A|A]; [left|now right]. apply filter_In. split; [exact A|lia].
    + destruct K3 as [K3|K3]; [left|now right]. apply filter_In. split; [exact K3|lia].
    + intros u q Hu. apply filter_In in Hu as [Hu _]. now apply K4.
Qed.

(** * Close *)
(** With nothing left to log, the logs hold what the blocks hold. *)
Lemma held_logged sl V L k t v : mwal sl V [] L -> (sl k = Held t v <-> exists x, In x L /\ l_t x = t /\ In ((false, k), v) (l_recs x)).
Proof.
  intros M. split.
  - intros H. pose proof M as [M1 M2 M3]. destruct (V t) as [[[refs last] d]|] eqn:Ev; [|now apply (M2 t k v Ev) in H].
    destruct (M1 _ _ _ _ Ev) as (rs & [B1 B2 B3 B4 B5 B6 B7]). pose proof (B4 _ _ H) as Hin. apply recs_at_in.
    destruct B7 as [(rest & -> & _ & _ & Hq)|[_ E]]; [|now apply E]. apply in_app_or in Hin as [Hin|Hin]; [exact Hin|].
    exfalso. apply Hq. intros ->. contradiction.
  - intros (x & Hx & <- & Hr). now destruct (in_recs _ _ _ _ _ _ _ M Hx Hr).
Qed.

Lemma commits s sl : forall n L, winv s (A_of sl) -> walinv s sl (m_queue s) L -> lorder sl (m_queue s) L (m_cur s) -> mmarks s sl (m_queue s) ->
  fits s -> (forall id, In id (map fst (m_queue s)) -> - 2 ^ 63 <= id < 2 ^ 63) -> n = length (m_queue s) ->
  exists L', walinv (commit_n n s) sl [] L' /\ lorder sl [] L' (m_cur s) /\ incl (map l_id L') (map l_id L ++ map fst (m_queue s)).
Proof.
  intros n. revert s. induction n as [|n IH]; intros s L W Wl Od Mk Hf Hid En; cbn [commit_n].
  - destruct (m_queue s); [|discriminate]. exists L. split; [exact Wl|]. split; [exact Od|]. cbn [map]. rewrite app_nil_r. apply incl_refl.
  - destruct (m_queue s) as [|[id t] q] eqn:Eq; [discriminate|].
    destruct (keep_commit_gen _ _ _ _ _ _ _ W Wl Od Mk Hf Eq (Hid id (or_introl eq_refl))) as (L2 & Wl' & Od' & Mk' & Q1 & Q2 & Q3 & Hf' & Hi').
    destruct (commit_inv s _ W) as (W' & _).
    destruct (IH (mem_commit s) (L ++ L2)) as (L' & A1 & A2 & A3); rewrite ?Q1, ?Q3; try assumption.
    + intros i Hi. apply Hid. now right.
    + now injection En.
    + exists L'. rewrite Q3 in A2. split; [exact A1|]. split; [exact A2|]. rewrite Q1 in A3. cbn [map fst].
      intros i Hi. apply A3 in Hi. rewrite map_app, <- app_assoc in Hi. apply in_app_or in Hi as [Hi|Hi]; apply in_or_app; [now left|right].
      apply in_app_or in Hi as [Hi|Hi]; [|now right]. apply Hi' in Hi as [<-|[]]. now left.
Qed.

Lemma keep_close s sl L : winv s (A_of sl) -> mkeep s sl L -> fits s -> (forall id, In id (map fst (pending s)) -> - 2 ^ 63 <= id < 2 ^ 63) ->
  exists L', dwal (m_wal (mem_close s)) [] L' /\ StronglySorted N.lt (map rkey (logged L')) /\ incl (map l_id L') (map l_id L ++ map fst (pending s)) /\
    (forall k t v, sl k = Held t v <-> exists x, In x L' /\ l_t x = t /\ In ((false, k), v) (l_recs x)) /\
    (forall x r, In x L' -> In r (l_recs x) -> fst (fst r) = false /\ rec_ok r).
Proof.
  intros W [[M D] Od [K1 K2 K3 K4]] Hf Hid. unfold mem_close. set (s1 := set_log s (m_cur s) (m_curid s) (m_queue s ++ [(m_curid s, m_cur s)])).
  assert (V1 : forall u, vw s1 u = vw s u) by (intros; now apply vw_same).
  destruct (commits s1 sl (length (m_queue s1)) L) as (L' & [M' D'] & Od' & Hi).
  - eapply winv_same; [exact W|reflexivity..].
  - split; [|exact D]. eapply mwal_ext; [exact M|reflexivity|exact V1].
  - exact Od.
  - split; assumption.
  - intros u refs last d E. rewrite V1 in E. eapply Hf, E.
  - exact Hid.
  - reflexivity.
  - exists L'. cbn [m_wal]. split; [exact D'|]. split; [apply Od'|]. split; [exact Hi|]. split; [intros; eapply held_logged, M'|].
    intros x [k v] Hx Hr. destruct (in_recs _ _ _ _ _ _ _ M' Hx Hr) as [E H]. split; [exact E|].
    pose proof M' as [M1 M2 M3]. destruct (vw (commit_n (length (m_queue s1)) s1) (l_t x)) as [[[refs last] d]|] eqn:Ev; [|now apply (M3 x Hx) in Ev].
    destruct (M1 _ _ _ _ Ev) as (rs & [B1 B2 B3 B4 B5 B6 B7]). apply (proj1 (Forall_forall _ _) B2). destruct k as [b k]. cbn [fst snd] in *. subst b.
    now apply B4.
Qed.
