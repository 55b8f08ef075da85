(** Proofs about the in-memory store: opening the logs that closing left. *)
From Verif Require Import M_Bytes M_Hash M_Bloom M_Wal M_MemDB S_Wal S_MemDB P_Bytes P_Bloom P_Wal P_MemBlock P_MemDB P_MemGet P_MemLog P_MemWal P_MemKeep.
From Coq Require Import Lia ZifyBool ZifyNat ZifyN Sorted Permutation.
Open Scope Z_scope.

Lemma replay_lfiles L : StronglySorted Z.lt (map l_id L) -> (forall x, In x L -> log_ok (l_id x) [encs (l_recs x)]) ->
  replay (map lfile L) = map (fun x => (l_id x, ([encs (l_recs x)], EndOk))) L.
Proof.
  induction L as [|x L IH] using rev_ind; intros Hs Hok; [reflexivity|]. rewrite !map_app. cbn [map].
  rewrite map_app in Hs. cbn [map] in Hs. change (lfile x) with (FLog (l_id x), logfile (l_id x) [encs (l_recs x)]). rewrite replay_app.
  - rewrite IH; [reflexivity| |].
    + rewrite <- (app_nil_r (map l_id L)). eapply sorted_skip. exact Hs.
    + intros y Hy. apply Hok, in_or_app. now left.
  - apply Hok, in_or_app. right. now left.
  - rewrite (dir_ids L). 2:{ clear. induction L as [|y L IH]; [reflexivity|]. cbn [map filter is_log fst]. exact (f_equal (cons (lfile y)) IH). }
    intros Hin. pose proof (sorted_before _ _ _ _ Hs _ Hin). lia.
Qed.
Lemma dwal_replay W L : dwal W [] L -> replay W = map (fun x => (l_id x, ([encs (l_recs x)], EndOk))) L.
Proof.
  intros [D1 D2 D3 D4]. rewrite <- (replay_filter W), D1. cbn [map fst] in D3. rewrite app_nil_r in D3. now apply replay_lfiles.
Qed.

(** Logs without tombstones and without repeats. *)
Lemma adel_none {V} (m : list (N * V)) k : ~ In k (map fst m) -> adel N.eqb m k = m.
Proof.
  intros H. unfold adel. induction m as [|[k2 v] m IH]; [reflexivity|]. cbn [map fst] in H. cbn [filter fst].
  destruct (N.eqb_spec k2 k) as [->|]; [exfalso; apply H; now left|]. cbn [negb]. f_equal. apply IH. intros Hin. apply H. now right.
Qed.
Definition kv (r : ikey * bytes) : N * bytes := (rkey r, snd r).
Lemma split_plain rs : forall log dels, (forall r, In r rs -> fst (fst r) = false) -> NoDup (map rkey rs ++ map fst log) ->
  split_log rs log dels = Some (rev (map kv rs) ++ log, dels).
Proof.
  induction rs as [|[[b k] v] rs IH]; intros log dels Hf Hd; cbn [split_log]; [reflexivity|].
  pose proof (Hf _ (or_introl eq_refl)) as E. cbn [fst] in E. subst b. cbn [map app rkey fst snd] in Hd. inversion Hd; subst.
  rewrite IH.
  - unfold aset. rewrite adel_none by (intros H; apply H1, in_or_app; now right). cbn [map rev]. rewrite <- app_assoc. reflexivity.
  - intros r Hr. apply Hf. now right.
  - unfold aset. rewrite adel_none by (intros H; apply H1, in_or_app; now right). cbn [map fst].
    apply (Permutation_NoDup (l := k :: map rkey rs ++ map fst log)); [apply Permutation_middle|exact Hd].
Qed.

Definition unkv (e : N * bytes) : ikey * bytes := ((false, fst e), snd e).
Lemma unkv_kv rs : (forall r, In r rs -> fst (fst r) = false) -> map unkv (map kv rs) = rs.
Proof.
  induction rs as [|[[b k] v] rs IH]; intros Hf; [reflexivity|]. cbn [map]. rewrite IH by (intros r Hr; apply Hf; now right).
  pose proof (Hf _ (or_introl eq_refl)) as E. cbn [fst] in E. now subst b.
Qed.

(** The view after a log is put back. *)
Lemma fold_view c t p log : forall s sl refs last d s', rinv c s sl t -> live s t = Some p -> vw s t = Some (refs, last, d) ->
  (forall k v, In (k, v) log -> item_ok k v /\ (sl k = Absent \/ exists w, sl k = Held t w)) ->
  fold_left (fun s e => match s with
                         | None => None
                         | Some s => match block_put s p (false, fst e) (snd e) with
                                     | None => None
                                     | Some s' => Some (addTimeFilter c s' t (fst e))
                                     end
                         end) log (Some s) = Some s' ->
  (forall u, vw s' u = if u =? t then Some (refs, last, d ++ encs (map unkv log)) else vw s u) /\
  (m_wal s' = m_wal s /\ m_queue s' = m_queue s /\ m_marks s' = m_marks s /\ m_released s' = m_released s) /\
  (exists sl2, winv s' (A_of sl2)) /\ live s' t = Some p.
Proof.
  induction log as [|[k v] log IH]; intros s sl refs last d s' R Hl Ev Hi E; cbn [fold_left fst snd] in E.
  - injection E as <-. split; [|repeat split; auto; exists sl; apply R]. intros u. destruct (Z.eqb_spec u t) as [->|]; [|reflexivity]. cbn. now rewrite app_nil_r.
  - destruct (Hi k v (or_introl eq_refl)) as [Hk Hs].
    destruct (block_put_some _ _ _ _ (false, k) v (ri_w _ _ _ _ R) Hl) as [s2 Ep]. rewrite Ep in E.
    destruct (rinv_put _ _ _ _ _ _ _ _ R Hl Hk Hs Ep) as [R2 L2].
    destruct (addTimeFilter_same c s2 t k) as (S1 & S2 & _ & S4 & _).
    assert (V2 : forall u, vw (addTimeFilter c s2 t k) u = if u =? t then Some (refs, last, d ++ mrecord (false, k) v) else vw s u).
    { intros u. rewrite (vw_same s2) by assumption. eapply vw_put; [exact (ri_w _ _ _ _ R)|eassumption..]. }
    assert (F2 : m_wal (addTimeFilter c s2 t k) = m_wal s /\ m_queue (addTimeFilter c s2 t k) = m_queue s /\
                 m_marks (addTimeFilter c s2 t k) = m_marks s /\ m_released (addTimeFilter c s2 t k) = m_released s).
    { unfold block_put in Ep. destruct (nth_error (m_blocks s) p) as [b|]; [|discriminate]. destruct (nth_error (m_bufs s) (mb_buf b)); [|discriminate].
      injection Ep as <-. unfold addTimeFilter. cbn [m_filters set_block set_buf]. destruct (nth_error (m_filters s) (c_bkey c k)); repeat split; reflexivity. }
    destruct (IH _ _ refs last (d ++ mrecord (false, k) v) s' R2 L2) as (V3 & F3 & F4).
    + rewrite V2, Z.eqb_refl. reflexivity.
    + intros k2 v2 Hin. destruct (Hi k2 v2 (or_intror Hin)) as [G1 G2]. split; [exact G1|].
      destruct (N.eqb_spec k2 k) as [->|]; [right; eauto|exact G2].
    + exact E.
    + destruct F2 as (A1 & A2 & A3 & A4). destruct F3 as (B1 & B2 & B3 & B4). split; [|split; [repeat split; congruence|exact F4]].
      intros u. rewrite V3, V2. destruct (u =? t); [|reflexivity]. cbn [map]. rewrite encs_cons, <- app_assoc. reflexivity.
Qed.

Lemma put_view c s sl b t id log s' : rinv c s sl b -> b <= t ->
  (forall k v, In (k, v) log -> item_ok k v /\ (sl k = Absent \/ exists w, sl k = Held t w)) ->
  recover_put c s t id log = Some s' -> (forall u, afind Z.eqb (m_marks s) u = None) ->
  (forall u, vw s' u = if u =? t then
       Some (match vw s t with None => ([id], 0, encs (map unkv log)) | Some (refs, last, d) => (refs ++ [id], last, d ++ encs (map unkv log)) end)
     else vw s u) /\
  m_wal s' = m_wal s /\ m_queue s' = m_queue s /\ (forall u, afind Z.eqb (m_marks s') u = None) /\
  (forall u, In u (m_released s') <-> u = t \/ In u (m_released s)).
Proof.
  intros R Hb Hi E Hm. unfold recover_put in E.
  assert (R1 : rinv c (mark_add s t) sl b) by (eapply rinv_same; [exact R|reflexivity..|lia]).
  destruct (rinv_add _ _ _ _ _ R1 Hb) as [R2 [p Hp]]. rewrite Hp in E. set (s1 := addTimeBlock (mark_add s t) t None) in *.
  destruct (fold_left _ log (Some s1)) as [s2|] eqn:Ef; [|discriminate].
  destruct (nth_error (m_blocks s2) p) as [x|] eqn:Ex; [|discriminate]. injection E as <-.
  assert (V1 : forall u, vw s1 u = if u =? t then match vw s t with None => Some ([], 0, []) | y => y end else vw s u).
  { intros u. unfold s1. rewrite (vw_add _ _ _ _ (ri_w _ _ _ _ R1)). reflexivity. }
  set (x0 := match vw s t with None => ([], 0, []) | Some y => y end).
  assert (V1t : vw s1 t = Some x0) by (rewrite V1, Z.eqb_refl; unfold x0; destruct (vw s t); reflexivity).
  destruct x0 as [[refs last] d] eqn:Ex0.
  destruct (fold_view c t p log s1 sl refs last d s2 R2 Hp V1t Hi Ef) as (V2 & (F1 & F2 & F3 & F4) & [sl2 W2] & L2).
  destruct (add_fields (mark_add s t) t None) as (G1 & _ & _ & G2 & G3 & G4). fold s1 in G1, G2, G3, G4.
  set (x' := mkMB _ _ _ _ _). set (s3 := set_block s2 p x').
  assert (V2t : vw s2 t = Some (refs, last, d ++ encs (map unkv log))) by (rewrite V2, Z.eqb_refl; reflexivity).
  assert (Ed : nth_error (m_bufs s2) (mb_buf x) = Some (d ++ encs (map unkv log)) /\ mb_refs x = refs /\ mb_last x = last).
  { unfold vw in V2t. rewrite L2, Ex in V2t. destruct (nth_error (m_bufs s2) (mb_buf x)); [|discriminate]. injection V2t as -> -> ->. auto. }
  destruct Ed as (Ed & Er & El).
  assert (V3 : forall u, vw s3 u = if u =? t then Some (refs ++ [id], last, d ++ encs (map unkv log)) else vw s2 u).
  { intros u. unfold s3. rewrite <- (setbuf_same s2 (mb_buf x) _ Ed). rewrite (vw_mod s2 sl2 t p x) by (first [assumption|reflexivity]).
    unfold x'. cbn [mb_refs mb_last]. rewrite Er, El, (setbuf_same s2 _ _ Ed). reflexivity. }
  assert (M3 : m_marks s3 = aset Z.eqb (m_marks s) t 1 /\ m_released s3 = m_released s).
  { unfold s3. cbn [m_marks m_released set_block]. rewrite F3, F4, G3, G4. split; reflexivity. }
  destruct M3 as [M3 M3'].
  destruct (release_marks s3 t) as [[A1 _]|(A1 & A2 & A3)].
  { intros u r. rewrite M3. destruct (Z.eq_dec u t) as [->|Hn]; [rewrite (afind_aset_same _ Zeqb_iff); congruence|].
    rewrite (afind_aset_other _ Zeqb_iff) by congruence. rewrite Hm. discriminate. }
  { rewrite M3, (afind_aset_same _ Zeqb_iff) in A1. discriminate. }
  destruct (release_mark_fields s3 t) as (B1 & B2 & _).
  destruct (marks_same s3 t _ (or_intror (or_introl eq_refl))) as (C1 & C2 & _ & C4 & _).
  split; [|split; [rewrite B1; unfold s3; cbn [m_wal set_block]; rewrite F1, G2; reflexivity|
           split; [rewrite B2; unfold s3; cbn [m_queue set_block]; rewrite F2, G1; reflexivity|split]]].
  - intros u. rewrite (vw_same s3) by assumption. rewrite V3, V2, V1. destruct (Z.eqb_spec u t) as [->|]; [|reflexivity].
    unfold x0 in Ex0. destruct (vw s t) as [[[r0 l0] d0]|]; injection Ex0 as <- <- <-; reflexivity.
  - intros u. rewrite A2, M3. destruct (Z.eq_dec u t) as [->|Hn]; [apply afind_adel_same|].
    rewrite (afind_adel_other _ Zeqb_iff), (afind_aset_other _ Zeqb_iff) by congruence. apply Hm.
  - intros u. rewrite A3, in_released, M3'. reflexivity.
Qed.

(** * All the logs *)
Lemma some_inj {A} (a b : A) : Some a = Some b -> a = b.
Proof. congruence. Qed.
Lemma mwal_recover sl sl' V V' L x : mwal sl V [] L ->
  (forall r, In r (l_recs x) -> fst (fst r) = false /\ rec_ok r) -> NoDup (map fst (logged (L ++ [x]))) ->
  (forall u, V' u = if u =? l_t x then
       Some (match V (l_t x) with None => ([l_id x], 0, encs (rev (l_recs x)))
             | Some (refs, last, d) => (refs ++ [l_id x], last, d ++ encs (rev (l_recs x))) end) else V u) ->
  (forall k t v, sl' k = Held t v <-> sl k = Held t v \/ (t = l_t x /\ In ((false, k), v) (l_recs x))) ->
  mwal sl' V' [] (L ++ [x]).
Proof.
  intros M Hok Hd EV Es. set (t := l_t x) in *.
  assert (El : logged (L ++ [x]) = logged L ++ l_recs x) by (rewrite logged_app; unfold logged at 2; cbn [flat_map]; now rewrite app_nil_r).
  rewrite El, map_app in Hd. pose proof (nodup_app_r _ _ Hd) as [Hd1 Hd2].
  assert (Hshape : forall k v, In (k, v) (l_recs x) -> k = (false, snd k)).
  { intros [b k] v H. destruct (Hok _ H) as [E _]. cbn [fst snd] in *. now subst b. }
  pose proof M as [M1 M2 M3].
  assert (At : recs_at (L ++ [x]) t = recs_at L t ++ l_recs x) by (rewrite recs_at_app, recs_at_one; unfold t; now rewrite Z.eqb_refl).
  assert (Bt : map l_id (logs_at (L ++ [x]) t) = map l_id (logs_at L t) ++ [l_id x]).
  { rewrite logs_at_app, map_app, logs_at_one. unfold t. now rewrite Z.eqb_refl. }
  split.
  - intros u refs last d Eu. rewrite EV in Eu. destruct (Z.eqb_spec u t) as [->|Hn].
    + assert (Old : exists refs0 last0 d0 rs0, (refs, last, d) = (refs0 ++ [l_id x], last0, d0 ++ encs (rev (l_recs x))) /\
         refs0 = map l_id (logs_at L t) /\ d0 = encs rs0 /\ Forall rec_ok rs0 /\ NoDup (map fst rs0) /\
         (forall k v, In (k, v) rs0 -> fst k = false /\ sl (snd k) = Held t v) /\ (forall k v, sl k = Held t v -> In ((false, k), v) rs0) /\
         (forall r, In r rs0 <-> In r (recs_at L t))).
      { destruct (V t) as [[[r0 l0] d0]|] eqn:Ev.
        - apply some_inj in Eu. destruct (M1 _ _ _ _ Ev) as (rs & [B1 B2 B3 B4 B5 B6 B7]).
          exists r0, l0, d0, rs. split; [congruence|]. repeat (split; [assumption|]).
          intros r. destruct B7 as [(rest & -> & _ & _ & Hq)|[_ H]]; [|apply H].
          destruct rest as [|y rest]; [rewrite app_nil_r; tauto|]. exfalso. apply Hq. discriminate.
        - apply some_inj in Eu. assert (E0 : logs_at L t = []).
          { destruct (logs_at L t) as [|y l] eqn:E0; [reflexivity|]. exfalso.
            assert (Hin : In y (logs_at L t)) by (rewrite E0; now left). apply filter_In in Hin as [Hin Hx]. apply Z.eqb_eq in Hx.
            apply (M3 y Hin). now rewrite Hx. }
          exists [], 0, [], []. rewrite E0. split; [rewrite <- Eu; reflexivity|]. split; [reflexivity|]. split; [reflexivity|]. split; [constructor|]. split; [constructor|].
          split; [intros k v []|]. split; [intros k v Hk; now apply (M2 t k v Ev) in Hk|]. unfold recs_at. rewrite E0. reflexivity. }
      destruct Old as (refs0 & last0 & d0 & rs0 & Eq & C1 & C2 & C3 & C4 & C5 & C6 & C7). injection Eq as -> -> ->.
      exists (rs0 ++ rev (l_recs x)). split.
      * rewrite encs_app, C2. reflexivity.
      * apply Forall_app. split; [exact C3|]. apply Forall_rev. apply Forall_forall. intros r Hr. now apply Hok.
      * intros k v Hin. apply in_app_or in Hin as [Hin|Hin].
        -- destruct (C5 _ _ Hin) as [H1 H2]. split; [exact H1|]. apply Es. now left.
        -- apply in_rev in Hin. destruct (Hok _ Hin) as [H1 _]. cbn [fst] in H1. split; [exact H1|]. apply Es. right. split; [reflexivity|].
           rewrite <- (Hshape _ _ Hin). exact Hin.
      * intros k v Hs. apply Es in Hs as [Hs|[_ Hs]]; apply in_or_app; [left; now apply C6|right; now apply -> in_rev].
      * rewrite map_app, map_rev. apply nodup_app; [exact C4|apply NoDup_rev; exact Hd1|].
        intros k H1 H2. apply in_rev in H2. apply (Hd2 k); [|exact H2]. apply in_map_iff in H1 as (r & <- & H1). apply C7 in H1.
        apply recs_logged in H1. now apply in_map.
      * rewrite C1, Bt. reflexivity.
      * right. split; [intros q []|]. intros r. rewrite At, !in_app_iff, C7, <- in_rev. reflexivity.
    + destruct (M1 _ _ _ _ Eu) as (rs & [B1 B2 B3 B4 B5 B6 B7]). exists rs.
      assert (Ea : recs_at (L ++ [x]) u = recs_at L u /\ logs_at (L ++ [x]) u = logs_at L u).
      { rewrite recs_at_app, recs_at_one, logs_at_app, logs_at_one. destruct (Z.eqb_spec (l_t x) u) as [E|]; [exfalso; apply Hn; now symmetry|]. now rewrite !app_nil_r. }
      destruct Ea as [Ea Eb]. split; try assumption; rewrite ?Ea, ?Eb; try assumption.
      * intros k v Hin. destruct (B3 _ _ Hin) as [H1 H2]. split; [exact H1|]. apply Es. now left.
      * intros k v Hs. apply Es in Hs as [Hs|[Ht _]]; [now apply B4|contradiction].
  - intros u k v Eu Hs. rewrite EV in Eu. destruct (Z.eqb_spec u t) as [->|Hn]; [discriminate|].
    apply Es in Hs as [Hs|[Ht _]]; [now apply (M2 u k v Eu) in Hs|contradiction].
  - intros y Hy. rewrite EV. destruct (Z.eqb_spec (l_t y) t) as [_|Hn]; [discriminate|].
    apply in_app_or in Hy as [Hy|[<-|[]]]; [now apply M3|exfalso; now apply Hn].
Qed.

Record reopened (c : mcfg) (s : mdb) (sl : N -> slot) (b : Z) (L : list lg) : Prop := {
  re_inv : rinv c s sl b;
  re_wal : mwal sl (vw s) [] L;
  re_free : forall k, sl k <> Freed;
  re_marks : forall u, afind Z.eqb (m_marks s) u = None;
  re_rel : forall u, In u (m_released s) <-> In u (map l_t L);
  re_view : forall u, vw s u <> None -> In u (map l_t L)
}.

Lemma reopen_logs c : forall todo done s sl b, reopened c s sl b done ->
  (forall x, In x todo -> l_t x = trunc (l_id x) (c_logint c) /\ b <= l_t x) -> StronglySorted Z.le (map l_t todo) ->
  (forall x r, In x todo -> In r (l_recs x) -> fst (fst r) = false /\ rec_ok r) -> NoDup (map fst (logged (done ++ todo))) ->
  exists s' sl' b', recover_logs c s (map (fun x => (l_id x, ([encs (l_recs x)], EndOk))) todo) [] = Some (s', []) /\
    reopened c s' sl' b' (done ++ todo) /\ (b' = b \/ In b' (map l_t todo)) /\ m_wal s' = m_wal s /\ m_queue s' = m_queue s.
Proof.
  induction todo as [|x todo IH]; intros done s sl b Re Ht Hs Hok Hd.
  - exists s, sl, b. rewrite app_nil_r. cbn [map recover_logs]. auto 6.
  - cbn [map recover_logs recover_log]. destruct (Ht x (or_introl eq_refl)) as [Et Hb].
    pose proof (fun r => Hok x r (or_introl eq_refl)) as Hx.
    rewrite (parse_encs (l_recs x) (S (length (encs (l_recs x))))).
    2:{ apply Forall_forall. intros r Hr. now apply Hx. }
    2:{ lia. }
    assert (Hd' : NoDup (map fst (logged (done ++ [x])))).
    { replace (done ++ x :: todo) with ((done ++ [x]) ++ todo) in Hd by (rewrite <- app_assoc; reflexivity).
      rewrite (logged_app (done ++ [x])), map_app in Hd. eapply nodup_l, Hd. }
    pose proof Hd' as Hd2. rewrite logged_app, map_app in Hd2. unfold logged at 2 in Hd2. cbn [flat_map] in Hd2. rewrite app_nil_r in Hd2.
    apply nodup_app_r in Hd2 as [Hdx Hdd].
    assert (Hrk : NoDup (map rkey (l_recs x))).
    { clear - Hdx Hx. induction (l_recs x) as [|[[b k] v] rs IH]; [constructor|]. cbn [map] in *. inversion Hdx; subst. constructor.
      - intros Hin. apply H1. apply in_map_iff in Hin as ([[b2 k2] v2] & E & Hin). unfold rkey in E; cbn [fst snd] in E. subst k2.
        destruct (Hx _ (or_introl eq_refl)) as [E1 _]. destruct (Hx _ (or_intror Hin)) as [E2 _]. cbn [fst] in *. subst b b2.
        apply in_map_iff. eexists. split; [|exact Hin]. reflexivity.
      - apply IH; [|exact H2]. intros r Hr. apply Hx. now right. }
    rewrite split_plain; [|intros r Hr; now apply Hx|cbn [map]; now rewrite app_nil_r]. rewrite app_nil_r. rewrite <- Et.
    destruct Re as [R M Fz Hm Hr Hv]. set (log := rev (map kv (l_recs x))).
    assert (Hlog : forall k v, In (k, v) log <-> In ((false, k), v) (l_recs x)).
    { intros k v. unfold log. rewrite <- in_rev, in_map_iff. split.
      - intros ([[b2 k2] v2] & E & Hin). unfold kv, rkey in E; cbn [fst snd] in E. injection E as -> ->.
        destruct (Hx _ Hin) as [E _]. cbn [fst] in E. now subst b2.
      - intros Hin. eexists. split; [|exact Hin]. reflexivity. }
    assert (Hnk : NoDup (map fst log)).
    { unfold log. rewrite map_rev. apply NoDup_rev. rewrite map_map. exact Hrk. }
    assert (Hab : forall k v, In (k, v) log -> sl k = Absent).
    { intros k v Hin. apply Hlog in Hin. destruct (sl k) as [|t' w|] eqn:Ek; [reflexivity| |now apply Fz in Ek]. exfalso.
      apply (held_logged _ _ _ _ _ _ M) in Ek as (y & Hy & _ & Hin2). apply (Hdd (false, k)).
      - apply in_map_iff. exists ((false, k), w). split; [reflexivity|]. apply in_logged. eauto.
      - apply in_map_iff. exists ((false, k), v). auto. }
    assert (Hit : forall k v, In (k, v) log -> item_ok k v /\ (sl k = Absent \/ exists w, sl k = Held (l_t x) w)).
    { intros k v Hin. split; [|left; eapply Hab, Hin]. apply Hlog in Hin. destruct (Hx _ Hin) as [_ H]. exact H. }
    destruct (recover_put_inv c s sl b (l_t x) (l_id x) log R Hb Hit Hnk) as (s1 & E1 & R1). rewrite E1.
    destruct (put_view c s sl b (l_t x) (l_id x) log s1 R Hb Hit E1 Hm) as (V1 & W1 & Q1 & M1 & P1).
    set (sl1 := fun k => match afind N.eqb log k with Some v => Held (l_t x) v | None => sl k end) in *.
    assert (Hsl : forall k t v, sl1 k = Held t v <-> sl k = Held t v \/ (t = l_t x /\ In ((false, k), v) (l_recs x))).
    { intros k t v. unfold sl1. destruct (afind N.eqb log k) as [w|] eqn:Ea.
      - apply (afind_In _ Neqb_iff) in Ea. split.
        + intros [= -> ->]. right. split; [reflexivity|]. now apply Hlog.
        + intros [H|[-> H]]; [rewrite (Hab _ _ Ea) in H; discriminate|]. f_equal. apply Hlog in H. clear - Hnk Ea H.
          induction log as [|[k2 v2] l IH]; [contradiction|]. cbn [map fst] in Hnk. inversion Hnk; subst.
          destruct Ea as [[= -> ->]|Ea], H as [[= E]|H].
          * exact E.
          * exfalso. apply H2. now apply (in_map fst) in H.
          * subst. exfalso. apply H2. now apply (in_map fst) in Ea.
          * now apply IH.
      - split; [now left|]. intros [H|[_ H]]; [exact H|]. exfalso. apply Hlog in H. clear - Ea H.
        induction log as [|[k2 v2] l IH]; [contradiction|]. cbn [afind] in Ea. destruct (N.eqb_spec k2 k) as [->|Hn]; [discriminate|].
        destruct H as [[= E _]|H]; [contradiction|now apply IH]. }
    destruct (IH (done ++ [x]) s1 sl1 (l_t x)) as (s' & sl' & b' & E2 & Re' & Hb' & W' & Q').
    + split.
      * exact R1.
      * eapply mwal_recover with (x := x); [exact M|exact Hx|exact Hd'| |exact Hsl].
        intros u. rewrite V1. replace (encs (map unkv log)) with (encs (rev (l_recs x))); [reflexivity|].
        unfold log. rewrite map_rev, unkv_kv; [reflexivity|]. intros r Hr2. now apply Hx.
      * intros k. unfold sl1. destruct (afind N.eqb log k); [discriminate|apply Fz].
      * exact M1.
      * intros u. rewrite P1, map_app, in_app_iff, Hr. cbn [map In]. intuition.
      * intros u. rewrite V1, map_app, in_app_iff. destruct (Z.eqb_spec u (l_t x)) as [->|]; [intros _; right; now left|left; now apply Hv].
    + intros y Hy. split; [apply Ht; now right|]. cbn [map] in Hs. apply StronglySorted_inv in Hs as [_ Hs].
      apply (proj1 (Forall_forall _ _) Hs). now apply in_map.
    + cbn [map] in Hs. now apply StronglySorted_inv in Hs as [Hs _].
    + intros y r Hy. apply Hok. now right.
    + rewrite <- app_assoc. exact Hd.
    + exists s', sl', b'. rewrite <- app_assoc in Re'. split; [exact E2|]. split; [exact Re'|]. split; [|split; congruence].
      right. destruct Hb' as [->|Hb']; [now left|now right].
Qed.

(** * Opening *)
Definition retime (c : mcfg) (x : lg) : lg := mkL (l_id x) (trunc (l_id x) (c_logint c)) (l_recs x).

Lemma keep_open c gens W L now : cfg_ok c gens -> 0 < c_logint c -> dwal W [] L -> StronglySorted N.lt (map rkey (logged L)) ->
  (forall x r, In x L -> In r (l_recs x) -> fst (fst r) = false /\ rec_ok r) ->
  (forall x, In x L -> l_id x < now /\ trunc (l_id x) (c_logint c) < trunc now (c_dur c)) ->
  exists s sl, mem_open c gens W now = Some s /\ ginv c s (mkG (trunc now (c_dur c)) true sl) /\ mkeep s sl (map (retime c) L) /\
    m_queue s = [] /\ m_curid s = now /\ (forall k, sl k <> Freed) /\
    (forall k t v, sl k = Held t v <-> exists x, In x L /\ trunc (l_id x) (c_logint c) = t /\ In ((false, k), v) (l_recs x)) /\
    (forall u, In u (m_released s) <-> exists x, In x L /\ u = trunc (l_id x) (c_logint c)).
Proof.
  intros [Hg Hc] Hli D Hsort Hok Hnow. pose proof D as [D1 D2 D3 D4]. cbn [map fst] in D3. rewrite app_nil_r in D3.
  set (T := trunc now (c_dur c)) in *. set (L' := map (retime c) L).
  assert (Elog : logged L' = logged L).
  { unfold L', logged. clear. induction L as [|x L IH]; [reflexivity|]. cbn [map flat_map]. now rewrite IH. }
  assert (Eid : map l_id L' = map l_id L) by (unfold L'; rewrite map_map; reflexivity).
  assert (Efile : map (fun x => (l_id x, ([encs (l_recs x)], EndOk))) L' = map (fun x => (l_id x, ([encs (l_recs x)], EndOk))) L).
  { unfold L'. rewrite map_map. reflexivity. }
  assert (Hin' : forall x, In x L' -> exists y, In y L /\ x = retime c y).
  { intros x Hx. apply in_map_iff in Hx as (y & <- & Hy). eauto. }
  unfold mem_open. rewrite (dwal_replay _ _ D).
  set (b0 := fold_right (fun x a => Z.min (l_t x) a) T L').
  assert (Hb0 : b0 <= T /\ forall x, In x L' -> b0 <= l_t x).
  { unfold b0. clear. induction L' as [|a l [IH1 IH2]]; cbn [fold_right].
    - split; [lia|intros a []].
    - split; [lia|]. intros a2 [<-|Hin]; [lia|]. specialize (IH2 a2 Hin). lia. }
  assert (R0 : reopened c (mem_empty gens W) (fun _ => Absent) b0 []).
  { split.
    - split.
      + split; unfold live; cbn [mem_empty m_closed m_live m_pool m_bufs afind]; try reflexivity; try discriminate. intros i [].
      + split; [|intros t k Ha; now elim Ha]. intros k. cbn [mem_empty m_filters]. rewrite map_length. apply Hc.
      + split; cbn [mem_empty m_blocks m_bufs]; [reflexivity|intros [|p] x; discriminate|intros [|p] x; discriminate].
      + intros i r. cbn [mem_empty m_filters]. rewrite nth_error_map. destruct (nth_error gens i) as [g|] eqn:Eg; [|discriminate].
        intros [= <-]. cbn [tf_gen tf_recs]. split; [|split; [intros t f []|discriminate]].
        exists g, []. split; [|reflexivity]. apply (proj1 (Forall_forall _ _) Hg). eapply nth_error_In, Eg.
      + cbn [mem_empty m_qfilters m_filters]. now rewrite !map_length.
    - split; [discriminate|discriminate|intros x []].
    - discriminate.
    - reflexivity.
    - reflexivity.
    - intros u H. now elim H. }
  assert (Hmono : StronglySorted Z.le (map l_t L')).
  { unfold L'. clear - D3 Hli. induction L as [|x L IH]; [constructor|]. cbn [map] in *. apply StronglySorted_inv in D3 as [D3 D3'].
    constructor; [now apply IH|]. apply Forall_forall. intros t Ht. rewrite map_map in Ht. apply in_map_iff in Ht as (y & <- & Hy). cbn [retime l_t].
    pose proof (proj1 (Forall_forall _ _) D3' (l_id y) (in_map _ _ _ Hy)) as Hlt. cbn beta in Hlt.
    unfold trunc. pose proof (Z.div_mod (l_id x) (c_logint c) ltac:(lia)). pose proof (Z.div_mod (l_id y) (c_logint c) ltac:(lia)).
    pose proof (Z.div_le_mono (l_id x) (l_id y) _ Hli ltac:(lia)). nia. }
  destruct (reopen_logs c L' [] (mem_empty gens W) (fun _ => Absent) b0 R0) as (s1 & sl & b1 & E1 & [R1 M1 Fz Hm Hr Hv] & Hb1 & W1 & Q1).
  { intros x Hx. split; [|now apply Hb0]. apply Hin' in Hx as (y & _ & ->). reflexivity. }
  { exact Hmono. }
  { intros x r Hx Hr. apply Hin' in Hx as (y & Hy & ->). exact (Hok y r Hy Hr). }
  { cbn [app]. rewrite Elog. exact D4. }
  rewrite Efile in E1. rewrite E1. cbn [fold_left]. cbn [app] in M1, Hr, Hv.
  assert (Hlt : forall x, In x L' -> l_t x < T).
  { intros x Hx. apply Hin' in Hx as (y & Hy & ->). now apply Hnow. }
  assert (Hb : b1 <= T).
  { destruct Hb1 as [->|Hb1]; [apply Hb0|]. apply in_map_iff in Hb1 as (x & <- & Hx). specialize (Hlt x Hx). lia. }
  destruct (rinv_add c s1 sl b1 T R1 Hb) as [R3 [p Hp]].
  exists (newTinyLog c s1 now None), sl. split; [reflexivity|].
  set (s2 := newTinyLog c s1 now None).
  assert (R4 : rinv c s2 sl T) by (eapply rinv_same; [exact R3|reflexivity..|lia]).
  destruct (add_fields s1 T None) as (A1 & _ & _ & A4 & A5 & A6).
  assert (Q2 : m_queue s2 = []).
  { unfold s2, newTinyLog. fold T. cbn [m_queue set_log mark_add set_marks]. rewrite A1, Q1. reflexivity. }
  assert (Rel2 : m_released s2 = m_released s1).
  { unfold s2, newTinyLog. fold T. cbn [m_released set_log mark_add set_marks]. exact A5. }
  assert (Mk2 : m_marks s2 = aset Z.eqb (m_marks s1) T 1).
  { unfold s2, newTinyLog. fold T. cbn [m_marks set_log mark_add set_marks]. now rewrite A6. }
  assert (Wal2 : m_wal s2 = W).
  { unfold s2, newTinyLog. fold T. cbn [m_wal set_log mark_add set_marks]. rewrite A4, W1. reflexivity. }
  assert (Pd : pending s2 = [(now, T)]) by (unfold pending; rewrite Q2; reflexivity).
  assert (V2 : forall u, vw s2 u = if u =? T then match vw s1 T with None => Some ([], 0, []) | x => x end else vw s1 u).
  { intros u. unfold s2, newTinyLog. fold T. rewrite (vw_same (addTimeBlock s1 T None)) by reflexivity. apply (vw_add _ _ _ _ (ri_w _ _ _ _ R1)). }
  assert (Hheld : forall k t v, sl k = Held t v -> exists x, In x L' /\ l_t x = t /\ In ((false, k), v) (l_recs x)).
  { intros k t v H. now apply (held_logged _ _ _ _ _ _ M1). }
  assert (Hall : forall k t v, sl k = Held t v -> In k (map rkey (logged L'))).
  { intros k t v H. apply Hheld in H as (x & Hx & _ & Hi). apply (keys_logged _ _ v). apply in_logged. eauto. }
  assert (HvT : vw s1 T = None).
  { destruct (vw s1 T) as [[[refs last] d]|] eqn:Ev; [|reflexivity]. exfalso.
    assert (HT : In T (map l_t L')) by (apply Hv; congruence). apply in_map_iff in HT as (x & Ex & Hx). specialize (Hlt x Hx). lia. }
  split; [|split; [|split; [exact Q2|split; [reflexivity|split; [exact Fz|split]]]]].
  - destruct R4 as [RW RFr RH RF RQ]. split; try assumption; [reflexivity|]. split; [reflexivity|]. intros _. cbn [g_cur].
    change (live (addTimeBlock s1 T None) T <> None). congruence.
  - split.
    + rewrite Pd. split.
      * destruct M1 as [N1 N2 N3]. split.
        -- intros u refs last d Eu. rewrite V2 in Eu. destruct (Z.eqb_spec u T) as [->|Hn].
           ++ rewrite HvT in Eu. injection Eu as <- <- <-.
              assert (E0 : logs_at L' T = []).
              { destruct (logs_at L' T) as [|y l] eqn:E0; [reflexivity|]. exfalso.
                assert (Hin : In y (logs_at L' T)) by (rewrite E0; now left). apply filter_In in Hin as [Hin Hx]. apply Z.eqb_eq in Hx.
                specialize (Hlt y Hin). lia. }
              exists []. split.
              ** reflexivity.
              ** constructor.
              ** intros k v [].
              ** intros k v Hs. now apply (N2 T k v HvT) in Hs.
              ** constructor.
              ** now rewrite E0.
              ** left. exists []. unfold recs_at. rewrite E0. split; [reflexivity|]. split; [reflexivity|]. split; [constructor|congruence].
           ++ destruct (N1 _ _ _ _ Eu) as (rs & [B1 B2 B3 B4 B5 B6 B7]). exists rs. split; try assumption.
              right. split.
              ** intros q [<-|[]]. cbn [snd]. assert (Hu : In u (map l_t L')) by (apply Hv; congruence). apply in_map_iff in Hu as (x & <- & Hx). now apply Hlt.
              ** destruct B7 as [(rest & -> & _ & _ & Hq)|[_ H]]; [|exact H].
                 destruct rest as [|y rest]; [intros r; rewrite app_nil_r; tauto|]. exfalso. apply Hq. discriminate.
        -- intros u k v Eu. rewrite V2 in Eu. destruct (Z.eqb_spec u T) as [->|Hn]; [rewrite HvT in Eu; discriminate|now apply N2].
        -- intros x Hx. rewrite V2. destruct (Z.eqb_spec (l_t x) T) as [_|]; [rewrite HvT; discriminate|now apply N3].
      * rewrite Wal2. split.
        -- rewrite D1. unfold L'. rewrite map_map. reflexivity.
        -- intros x Hx. apply Hin' in Hx as (y & Hy & ->). exact (D2 y Hy).
        -- rewrite Eid. cbn [map fst]. apply sorted_end; [exact D3|]. intros i Hi. apply in_map_iff in Hi as (x & <- & Hx). now apply Hnow.
        -- change (NoDup (map fst (logged L'))). rewrite Elog. exact D4.
    + rewrite Pd. change (m_cur s2) with T. split.
      * intros k1 k2 t1 t2 v1 v2 H1 H2 Hlt12. apply Hheld in H1 as (x1 & Hx1 & <- & Hi1), H2 as (x2 & Hx2 & <- & Hi2).
        rewrite <- Elog in Hsort. clear - Hx1 Hi1 Hx2 Hi2 Hlt12 Hsort Hmono. induction L' as [|y l IH]; [contradiction|].
        change (logged (y :: l)) with (l_recs y ++ logged l) in Hsort. rewrite map_app in Hsort. cbn [map] in Hmono.
        apply StronglySorted_inv in Hmono as [Hm1 Hm2].
        assert (Hs2 : StronglySorted N.lt (map rkey (logged l))).
        { clear - Hsort. induction (map rkey (l_recs y)) as [|a r IHr]; cbn [app] in Hsort; [exact Hsort|]. apply IHr. now apply StronglySorted_inv in Hsort as [Hsort _]. }
        destruct Hx1 as [->|Hx1], Hx2 as [->|Hx2].
        -- lia.
        -- apply (proj1 (Forall_forall _ _) Hm2). now apply in_map.
        -- exfalso. assert (In k2 (map rkey (l_recs x2))) as J2 by (apply in_map_iff; eexists; split; [|exact Hi2]; reflexivity).
           assert (In k1 (map rkey (logged l))) as J1 by (apply (keys_logged _ _ v1), in_logged; eauto).
           apply in_split in J1 as (l1 & l2 & J1). rewrite J1 in Hsort.
           pose proof (sorted_before N.lt (map rkey (l_recs x2) ++ l1) k1 l2) as Hb. rewrite <- app_assoc in Hb. specialize (Hb Hsort k2).
           assert ((k2 < k1)%N) by (apply Hb, in_or_app; now left). lia.
        -- now apply IH.
      * rewrite Elog. exact Hsort.
      * intros k k' t' v' _ Hh Hn. exfalso. apply Hn. eapply Hall, Hh.
      * repeat constructor.
      * intros k t v H. apply Hheld in H as (x & Hx & <- & _). specialize (Hlt x Hx). lia.
    + rewrite Pd. split; change (m_cur s2) with T; rewrite ?Mk2, ?Rel2.
      * intros t r. destruct (Z.eq_dec t T) as [->|Hn]; [rewrite (afind_aset_same _ Zeqb_iff); congruence|].
        rewrite (afind_aset_other _ Zeqb_iff) by congruence. rewrite Hm. discriminate.
      * intros k t v H. left. apply Hr. apply Hheld in H as (x & Hx & <- & _). now apply in_map.
      * right. rewrite (afind_aset_same _ Zeqb_iff). discriminate.
      * intros t q Ht [<-|[]]. cbn [snd]. apply Hr in Ht. apply in_map_iff in Ht as (x & <- & Hx). specialize (Hlt x Hx). lia.
  - intros k t v. rewrite (held_logged _ _ _ _ _ _ M1). split.
    + intros (x & Hx & Ht & Hi). apply Hin' in Hx as (y & Hy & ->). exists y. auto.
    + intros (y & Hy & Ht & Hi). exists (retime c y). split; [now apply in_map|]. auto.
  - intros u. rewrite Rel2, Hr. split.
    + intros H. apply in_map_iff in H as (x & <- & Hx). apply Hin' in Hx as (y & Hy & ->). exists y. auto.
    + intros (y & Hy & ->). apply in_map_iff. exists (retime c y). split; [reflexivity|now apply in_map].
Qed.
