(** Proofs about crashes: what the logs hold. *)
From Verif Require Import M_Bytes P_Bytes M_File M_Hash M_Bloom M_Entry P_Codec M_MsgId M_Mac P_Mac M_Topic M_Trie M_Query M_IndexBlock M_Lease
  M_BlockRange M_BlockStore M_WinBlock M_Wal M_MemDB M_Window M_Get M_DBInfo M_DB S_Trie S_Window S_BlockStore S_MemDB S_Get S_DB S_Session S_Restart S_Crash
  P_Window2 P_Window4 P_WinOpen P_Wal P_MemBlock P_MemDB P_MemGet P_MemWal P_MemKeep P_MemReopen P_DB
  P_Session P_Session2 P_Session3 P_Session4 P_Session5 P_Restart P_Restart2 P_Restart3 P_Restart4 P_Restart5 P_Restart6 P_Crash.
From Coq Require Import Lia ZifyBool ZifyNat ZifyN Permutation Sorted.
Open Scope Z_scope.

Lemma commit_logs s sl L id t q Q : winv s (A_of sl) -> m_queue s = (id, t) :: q -> walinv (mem_commit s) sl Q L ->
  forall k v, sl k = Held t v -> In k (map rkey (logged L)).
Proof.
  intros W Eq [M _] k v Hk. unfold mem_commit in M. rewrite Eq in M. set (s1 := set_log s _ _ _) in M.
  assert (W1 : winv s1 (A_of sl)) by (eapply winv_same; [exact W|reflexivity..]).
  destruct (marks_same (tinyWrite s1 id t) t _ (or_intror (or_introl eq_refl))) as (K1 & K2 & _ & K4 & _).
  assert (VR : forall u, vw (mark_release (tinyWrite s1 id t) t) u = vw (tinyWrite s1 id t) u) by (intros; now apply vw_same).
  destruct (vw s1 t) as [[[refs last] d]|] eqn:Et.
  - assert (Hv : exists refs' last', vw (mark_release (tinyWrite s1 id t) t) t = Some (refs', last', d) /\ Z.of_nat (length d) <= last' \/
                 exists refs', vw (mark_release (tinyWrite s1 id t) t) t = Some (refs', last', d) /\ skipn (Z.to_nat last') d = []).
    { rewrite VR. pose proof (proj1 (vw_tiny s1 sl id t t refs last d W1 Et)) as VT. rewrite Z.eqb_refl in VT.
      destruct (skipn (Z.to_nat last) d) eqn:Es; [exists refs, last; right; exists refs; split; [exact VT|exact Es]|].
      exists (refs ++ [id]), (Z.of_nat (length d)). left. split; [exact VT|lia]. }
    assert (Hv2 : exists refs' last', vw (mark_release (tinyWrite s1 id t) t) t = Some (refs', last', d) /\ skipn (Z.to_nat last') d = []).
    { destruct Hv as (r' & l' & [[E1 E2]|(r2 & E1 & E2)]); [|eauto]. exists r', l'. split; [exact E1|]. apply skipn_all2. lia. }
    destruct Hv2 as (refs' & last' & Ev & Esk). destruct (mw_view _ _ _ _ M _ _ _ _ Ev) as (rs & B).
    pose proof (bv_all _ _ _ _ _ _ _ _ B k v Hk) as Hin.
    assert (Hin2 : In ((false, k), v) (recs_at L t)).
    { destruct (bv_logged _ _ _ _ _ _ _ _ B) as [(rest & Er & El & _)|[_ Er]]; [|now apply Er].
      rewrite (bv_data _ _ _ _ _ _ _ _ B), Er, encs_app, El, Nat2Z.id in Esk. rewrite skipn_app, skipn_all, Nat.sub_diag in Esk. cbn [app skipn] in Esk.
      apply encs_nil in Esk. subst rest. rewrite app_nil_r in Er. now rewrite <- Er. }
    apply recs_at_in in Hin2 as (x & Hx & _ & Hr). change k with (rkey ((false, k), v)). apply in_map. apply in_logged. eauto.
  - exfalso. apply (mw_none _ _ _ _ M t k v); [|exact Hk]. rewrite VR. unfold tinyWrite.
    assert (El : live s1 t = None).
    { apply (vw_live _ _ _ W1). exact Et. }
    now rewrite El.
Qed.

(** Sync: of what was in a log, everything is still in a log, or stored. *)
Lemma frees_logs c l now m g W ts m' g' W' : frees now l m g W ts m' g' W' ->
  forall L, ginv c m g -> mkeep m (g_slot g) L -> (forall t, In t ts -> t <> m_cur m) ->
  exists L', mkeep m' (g_slot g') L' /\ m_queue m' = m_queue m /\ m_cur m' = m_cur m /\
    (forall k, In k (map rkey (logged L)) -> In k (map rkey (logged L')) \/ g_slot g' k = Freed) /\
    (forall k u v, g_slot g k = Held u v -> g_slot g' k = Held u v \/ g_slot g' k = Freed) /\ (forall k, g_slot g k = Freed -> g_slot g' k = Freed).
Proof.
  induction 1 as [m g W|m g W t ts m' g' W' Hn F IH|m g W t ts m1 W1 m' g' W' Ef Hw F IH]; intros L G K Hc.
  - exists L. auto 10.
  - apply IH; auto. intros u Hu. apply Hc. now right.
  - assert (Er : releaseLog m t = Some m1) by (unfold mem_free in Ef; destruct (releaseLog m t); [congruence|discriminate]).
    destruct (keep_free m (g_slot g) L t m1 (gi_w _ _ _ G) K (Hc t (or_introl eq_refl)) Er) as (K' & Kp & Kc & Ki & Kr & Kq).
    destruct (IH _ (free_inv _ _ _ _ _ G Ef) K') as (L' & A1 & A2 & A3 & A4 & A5 & A6).
    { intros u Hu. rewrite Kc. apply Hc. now right. }
    exists L'. split; [exact A1|]. split; [congruence|]. split; [congruence|]. split; [|split].
    + intros k Hk. apply in_map_iff in Hk as (r & <- & Hr). apply in_logged in Hr as (x & Hx & Hr).
      destruct (Z.eqb_spec (l_t x) t) as [E|E].
      * right. apply A6. destruct r as [k v]. destruct (in_recs _ _ _ _ _ _ _ (wl_mem _ _ _ _ (kp_wal _ _ _ K)) Hx Hr) as [_ E2].
        unfold gfree; cbn [g_slot]. unfold rkey; cbn [fst snd]. rewrite E2, E, Z.eqb_refl. reflexivity.
      * apply A4. apply in_map. apply in_logged. exists x. split; [|exact Hr]. apply filter_In. split; [exact Hx|]. apply negb_true_iff. now apply Z.eqb_neq.
    + intros k u v Hk. destruct (Z.eqb_spec u t) as [E|E].
      * right. apply A6. unfold gfree; cbn [g_slot]. rewrite Hk, E, Z.eqb_refl. reflexivity.
      * apply A5. unfold gfree; cbn [g_slot]. rewrite Hk. apply Z.eqb_neq in E. now rewrite E.
    + intros k Hk. apply A6. unfold gfree; cbn [g_slot]. now rewrite Hk.
Qed.

(** [base]: in the logs or stored; [segs], [cur]: as the entries of the queue, and the
    current log. *)
Definition held_or (L : list lg) (g : gstate) (t : Z) (m : gmsg) : Prop := safe L g m \/ exists v, g_slot g (gm_seq m) = Held t v.
Record phase (s : db) (l : list gmsg) (g : gstate) (L : list lg) (base : list gmsg) (segs : list (list gmsg)) (cur : list gmsg) : Prop := {
  ph_L : mkeep (d_mem s) (g_slot g) L;
  ph_l : l = base ++ concat segs ++ cur;
  ph_base : Forall (safe L g) base;
  ph_segs : Forall2 (fun seg q => Forall (held_or L g (snd q)) seg) segs (m_queue (d_mem s));
  ph_cur : Forall (held_or L g (m_cur (d_mem s))) cur
}.

Lemma segs_mono L g L' g' segs (Q : list (Z * Z)) : (forall m u, In m (concat segs) -> held_or L g u m -> held_or L' g' u m) ->
  Forall2 (fun seg q => Forall (held_or L g (snd q)) seg) segs Q -> Forall2 (fun seg q => Forall (held_or L' g' (snd q)) seg) segs Q.
Proof.
  intros Hh P. induction P as [|seg q segs Q P P' IH]; constructor.
  - rewrite Forall_forall in P |- *. intros m Hm. apply Hh; [|now apply P]. cbn [concat]. apply in_app_iff. now left.
  - apply IH. intros m u Hm. apply Hh. cbn [concat]. apply in_app_iff. now right.
Qed.
Lemma phase_mono s s' l g g' L L' base segs cur : phase s l g L base segs cur -> mkeep (d_mem s') (g_slot g') L' ->
  (forall m, In m l -> safe L g m -> safe L' g' m) -> (forall m u, In m l -> held_or L g u m -> held_or L' g' u m) ->
  m_queue (d_mem s') = m_queue (d_mem s) -> m_cur (d_mem s') = m_cur (d_mem s) -> phase s' l g' L' base segs cur.
Proof.
  intros [P1 P2 P3 P4 P5] K Hs Hh Eq Ec. split; auto.
  - rewrite Forall_forall in P3 |- *. intros m Hm. apply Hs; [|now apply P3]. rewrite P2. apply in_app_iff. now left.
  - rewrite Eq. apply (segs_mono L g L' g'); [|exact P4]. intros m u Hm. apply Hh. rewrite P2, !in_app_iff. auto.
  - rewrite Ec. rewrite Forall_forall in P5 |- *. intros m Hm. apply Hh; [|now apply P5]. rewrite P2, !in_app_iff. auto.
Qed.

Lemma phase_put c s s' l g L base segs cur m : phase s l g L base segs cur -> ginv (c_mem c) (d_mem s) g -> gm_ok c m ->
  (forall x, In x l -> (gm_seq x < gm_seq m)%N) -> (forall k u v, g_slot g k = Held u v -> exists x, In x l /\ gm_seq x = k) ->
  g_slot g (gm_seq m) = Absent -> mem_put (c_mem c) (d_mem s) (gm_seq m) (gm_cache m) = (d_mem s', MOk) ->
  phase s' (l ++ [m]) (gset g (gm_seq m) (Held (g_cur g) (gm_cache m))) L base segs (cur ++ [m]).
Proof.
  intros P G Hok Hlt Hheld Habs Ep.
  assert (K' : mkeep (d_mem s') (g_slot (gset g (gm_seq m) (Held (g_cur g) (gm_cache m)))) L).
  { eapply keep_put; [exact G|exact (ph_L _ _ _ _ _ _ _ P)|exact (gk_item _ _ Hok)|exact Habs| |exact Ep|reflexivity].
    intros k' t' v' Hk. destruct (Hheld _ _ _ Hk) as (x & Hx & <-). now apply Hlt. }
  assert (Hsl : forall x, In x l -> g_slot (gset g (gm_seq m) (Held (g_cur g) (gm_cache m))) (gm_seq x) = g_slot g (gm_seq x)).
  { intros x Hx. unfold gset; cbn [g_slot]. specialize (Hlt x Hx). destruct (N.eqb_spec (gm_seq x) (gm_seq m)); [lia|reflexivity]. }
  assert (Hsafe : forall x, In x l -> safe L g x -> safe L (gset g (gm_seq m) (Held (g_cur g) (gm_cache m))) x).
  { intros x Hx [E|E]; [left|now right]. unfold in_store in *. now rewrite Hsl. }
  unfold mem_put in Ep. destruct (put_fields _ _ _ _ _ _ _ Ep) as (_ & F1 & F2 & F3 & _).
  destruct (phase_mono s s' l g (gset g (gm_seq m) (Held (g_cur g) (gm_cache m))) L L base segs cur P K' Hsafe) as [P1 P2 P3 P4 P5]; try congruence.
  { intros x u Hx [E|(v & E)]; [left; auto|right; exists v; now rewrite Hsl]. }
  split; auto.
  - rewrite P2, <- !app_assoc. reflexivity.
  - apply Forall_app. split; [exact P5|]. constructor; [|constructor]. right. exists (gm_cache m). unfold gset; cbn [g_slot]. rewrite N.eqb_refl.
    assert (E : m_cur (d_mem s') = m_cur (d_mem s)) by congruence. rewrite E, (gi_cur _ _ _ G). reflexivity.
Qed.

Lemma phase_tick c s l g g' L base segs cur now : phase s l g L base segs cur -> ginv (c_mem c) (d_mem s) g -> m_curid (d_mem s) < now -> m_cur (d_mem s) <= trunc now (c_dur (c_mem c)) ->
  g_slot g' = g_slot g -> phase (set_mem s (mem_tick (c_mem c) (d_mem s) now None)) l g' L base (segs ++ [cur]) [].
Proof.
  intros [P1 P2 P3 P4 P5] G H1 H2 E.
  assert (Eq : m_queue (mem_tick (c_mem c) (d_mem s) now None) = m_queue (d_mem s) ++ [(m_curid (d_mem s), m_cur (d_mem s))]).
  { unfold mem_tick, newTinyLog. cbn [m_queue set_log mark_add set_marks].
    destruct (add_fields (set_log (d_mem s) (m_cur (d_mem s)) (m_curid (d_mem s)) (m_queue (d_mem s) ++ [(m_curid (d_mem s), m_cur (d_mem s))])) (trunc now (c_dur (c_mem c))) None) as (-> & _). reflexivity. }
  assert (Hs : forall m, safe L g m <-> safe L g' m) by (intros m; unfold safe, in_store; now rewrite E).
  assert (Hh : forall u m, held_or L g u m -> held_or L g' u m) by (intros u m [A|A]; [left; now apply Hs|right; now rewrite E]).
  split; cbn [set_mem d_mem].
  - rewrite E. eapply keep_tick; eassumption.
  - rewrite P2, concat_app. cbn [concat]. now rewrite !app_nil_r.
  - eapply Forall_impl; [|exact P3]. intros m. apply Hs.
  - rewrite Eq. apply Forall2_app.
    + clear - P4 Hh. induction P4; constructor; auto. eapply Forall_impl; [|eassumption]. intros m. apply Hh.
    + constructor; [|constructor]. cbn [snd]. eapply Forall_impl; [|exact P5]. intros m. apply Hh.
  - constructor.
Qed.

Lemma phase_commit s l g L base segs cur : phase s l g L base segs cur -> winv (d_mem s) (A_of (g_slot g)) -> fits (d_mem s) ->
  (forall id, In id (map fst (pending (d_mem s))) -> - 2 ^ 63 <= id < 2 ^ 63) ->
  exists L' base' segs', phase (set_mem s (mem_commit (d_mem s))) l g L' base' segs' cur /\
    match segs with [] => base' = base /\ segs' = [] | seg :: r => base' = base ++ seg /\ segs' = r end.
Proof.
  intros P W Hf Hid. destruct (m_queue (d_mem s)) as [|[id t] q] eqn:Eq.
  - assert (E : mem_commit (d_mem s) = d_mem s) by (unfold mem_commit; now rewrite Eq). pose proof P as [P1 P2 P3 P4 P5]. rewrite Eq in P4. inversion P4; subst.
    exists L, base, []. split; [|auto]. rewrite E. eapply phase_mono; [exact P|exact P1|auto|auto|reflexivity|reflexivity].
  - pose proof P as [[Wl Od Mk] P2 P3 P4 P5]. rewrite Eq in P4. inversion P4 as [|seg ? segs' ? Hseg Hr]; subst. cbn [snd] in Hseg.
    assert (Ep : pending (d_mem s) = (id, t) :: q ++ [(m_curid (d_mem s), m_cur (d_mem s))]) by (unfold pending; now rewrite Eq).
    rewrite Ep in Wl, Od, Mk, Hid.
    destruct (keep_commit_gen _ _ _ _ _ _ _ W Wl Od Mk Hf Eq (Hid id (or_introl eq_refl))) as (L2 & Wl' & Od' & Mk' & Q1 & Q2 & Q3 & Hf' & Hi').
    assert (Ep' : pending (mem_commit (d_mem s)) = q ++ [(m_curid (d_mem s), m_cur (d_mem s))]) by (unfold pending; now rewrite Q1, Q2, Q3).
    assert (Hs : forall m, safe L g m -> safe (L ++ L2) g m).
    { intros m [A|A]; [now left|right]. rewrite logged_app, map_app. apply in_app_iff. now left. }
    assert (Hh : forall u m, held_or L g u m -> held_or (L ++ L2) g u m) by (intros u m [A|A]; [left; auto|now right]).
    exists (L ++ L2), (base ++ seg), segs'. split; [|auto]. split; cbn [set_mem d_mem].
    + split; rewrite Ep', ?Q3; assumption.
    + cbn [concat]. now rewrite <- !app_assoc.
    + apply Forall_app. split; [eapply Forall_impl; [|exact P3]; auto|]. eapply Forall_impl; [|exact Hseg]. intros m [A|(v & A)]; [auto|].
      right. exact (commit_logs _ _ _ _ _ _ _ W Eq Wl' _ _ A).
    + rewrite Q1. clear - Hr Hh. induction Hr; constructor; auto. eapply Forall_impl; [|eassumption]. intros m. apply Hh.
    + rewrite Q3. eapply Forall_impl; [|exact P5]. intros m. apply Hh.
Qed.

Lemma phase_sync c s s' l g g' L base segs cur now W W' : phase s l g L base segs cur -> ginv (c_mem c) (d_mem s) g ->
  frees now l (d_mem s) g W (timeRefs (d_mem s)) (d_mem s') g' W' -> exists L', phase s' l g' L' base segs cur.
Proof.
  intros P G F. destruct (frees_logs _ _ _ _ _ _ _ _ _ _ F L G (ph_L _ _ _ _ _ _ _ P)) as (L' & A1 & A2 & A3 & A4 & A5 & A6).
  { intros t Ht. unfold timeRefs in Ht. apply (proj1 (sort_asc_in _ _)) in Ht. apply filter_In in Ht as [_ Ht]. lia. }
  assert (Hs : forall m, safe L g m -> safe L' g' m).
  { intros m [A|A].
    - left. unfold in_store in *. destruct (g_slot g (gm_seq m)) eqn:E; try discriminate. now rewrite (A6 _ E).
    - destruct (A4 _ A) as [B|B]; [now right|left]. unfold in_store. now rewrite B. }
  exists L'. eapply phase_mono; [exact P|exact A1|auto| |exact A2|exact A3].
  intros m u _ [A|(v & A)]; [left; auto|]. destruct (A5 _ _ _ A) as [B|B]; [right; eauto|left; left]. unfold in_store. now rewrite B.
Qed.

(** The files left by Close, and by Open. *)
Definition dsk (c : dcfg) (s : db) : Prop := (d_seq s <> 0 /\ exists n cnt, n <> 0 /\ n < 2 ^ 64 /\ d_info s = write_info 1 n cnt)%N /\
  d_lfile s = lease_write (defrag (newLease (c_find c) (c_min c))).

Lemma open_disk c gens now ord immut enc f s' n cnt : f_info f = write_info 1 n cnt -> (n < 2 ^ 64)%N -> db_open c gens now ord immut enc f = Opened s' ->
  d_lfile s' = f_lease f /\ exists cnt', d_info s' = write_info 1 n cnt'.
Proof.
  intros Ei Hn. destruct (header_back enc 1 n cnt ltac:(lia) Hn) as (cnt0 & Ehd & _). rewrite <- Ei in Ehd.
  unfold db_open.
  assert (E2 : open_header enc (match f_info f with [] => None | b => Some b end) = OpenOk (mkInfo signature version 1 n cnt0)) by exact Ehd.
  rewrite E2. cbn [i_sequence i_count i_encryption].
  assert (Enn : match f_info f with [] => info_marshal (mkInfo signature version 0 0 0) | b0 :: b => b0 :: b end = f_info f).
  { rewrite Ei. unfold write_info. destruct (info_marshal _) eqn:E; [|reflexivity]. apply (f_equal (@length N)) in E. discriminate E. }
  destruct (mem_open _ _ _ _) as [mm|]; [|discriminate]. destruct (load_trie _ _ _ _) as [tr|]; [|discriminate].
  destruct (lease_read _ _) as [l| |]; try discriminate.
  destruct (recover _ _ _) as [s|] eqn:Er; [|discriminate]. intros [= <-]. cbn [d_lfile d_info].
  pose proof (recover_lfk _ _ _ _ Er) as Hl. pose proof (recover_keeps _ _ _ _ Er) as (_ & Hi & _). unfold lfk in Hl. cbn [d_lfile] in Hl. split; [exact Hl|].
  destruct Hi as [Hi|(m & _ & Hi)]; cbn [d_info d_enc d_seq] in Hi; [|eauto].
  exists cnt. rewrite Hi. etransitivity; [exact Enn|exact Ei].
Qed.
