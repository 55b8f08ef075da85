(** Proofs about the in-memory store: what its log files hold while it runs. *)
From Verif Require Import M_Bytes M_Hash M_Bloom M_Wal M_MemDB S_Wal S_MemDB P_Bytes P_Bloom P_Wal P_MemBlock P_MemDB P_MemGet P_MemLog.
From Coq Require Import Lia ZifyBool ZifyNat ZifyN Sorted Permutation.
Open Scope Z_scope.

(** * The blocks as seen from the log *)
Definition view := Z -> option (list Z * Z * bytes).
Definition vw (s : mdb) : view := fun t =>
  match live s t with
  | None => None
  | Some p => match nth_error (m_blocks s) p with
              | None => None
              | Some b => match nth_error (m_bufs s) (mb_buf b) with
                          | None => None
                          | Some d => Some (mb_refs b, mb_last b, d)
                          end
              end
  end.

Lemma vw_live s A t : winv s A -> (vw s t = None <-> live s t = None).
Proof.
  intros W. unfold vw. destruct (live s t) as [p|] eqn:El; [|tauto].
  destruct (wi_blk _ _ W _ _ El) as (b & d & rs & [G1 G2] & _). rewrite G1, G2. split; discriminate.
Qed.
Lemma vw_some s A t p b d : winv s A -> live s t = Some p -> blk_at s p b d -> vw s t = Some (mb_refs b, mb_last b, d).
Proof. intros W El [G1 G2]. unfold vw. now rewrite El, G1, G2. Qed.

Lemma vw_same s s' t : m_blocks s' = m_blocks s -> m_bufs s' = m_bufs s -> m_live s' = m_live s -> vw s' t = vw s t.
Proof. intros E1 E2 E3. unfold vw, live. now rewrite E1, E2, E3. Qed.

(** One live block changes. *)
Lemma vw_mod s sl t p b d' b' u : winv s (A_of sl) -> live s t = Some p -> nth_error (m_blocks s) p = Some b ->
  mb_buf b' = mb_buf b ->
  vw (set_block (set_buf s (mb_buf b) d') p b') u = if u =? t then Some (mb_refs b', mb_last b', d') else vw s u.
Proof.
  intros W El Eb Ebuf. destruct (wi_blk _ _ W _ _ El) as (b0 & d & rs & [G1 G2] & _). rewrite Eb in G1. injection G1 as <-.
  pose proof (nth_error_lt _ _ _ Eb) as Lb. pose proof (nth_error_lt _ _ _ G2) as Ld.
  unfold vw. change (live (set_block (set_buf s (mb_buf b) d') p b') u) with (live s u). cbn [m_blocks m_bufs set_block set_buf].
  destruct (Z.eqb_spec u t) as [->|Hn].
  - rewrite El. rewrite nth_error_update by exact Lb. rewrite Nat.eqb_refl, Ebuf. rewrite nth_error_update by exact Ld.
    now rewrite Nat.eqb_refl.
  - destruct (live s u) as [q|] eqn:Eu; [|reflexivity]. rewrite nth_error_update by exact Lb.
    destruct (wi_blk _ _ W _ _ Eu) as (b2 & d2 & rs2 & [K1 K2] & _).
    destruct (wi_sep _ _ W u t q p b2 b Hn Eu El K1 Eb) as [S1 S2].
    destruct (Nat.eqb_spec q p); [contradiction|]. rewrite K1. rewrite nth_error_update by exact Ld.
    destruct (Nat.eqb_spec (mb_buf b2) (mb_buf b)); [contradiction|reflexivity].
Qed.

Lemma vw_put s sl t p k v s' refs last d u : winv s (A_of sl) -> live s t = Some p -> vw s t = Some (refs, last, d) ->
  block_put s p k v = Some s' ->
  vw s' u = if u =? t then Some (refs, last, d ++ mrecord k v) else vw s u.
Proof.
  intros W El Ev E. unfold block_put in E. destruct (nth_error (m_blocks s) p) as [b|] eqn:Eb; [|discriminate].
  destruct (nth_error (m_bufs s) (mb_buf b)) as [d0|] eqn:Ed; [|discriminate]. injection E as <-.
  unfold vw in Ev. rewrite El, Eb, Ed in Ev. injection Ev as <- <- <-.
  now rewrite (vw_mod s sl t p b) by (first [assumption|reflexivity]).
Qed.

Lemma vw_add s A t u : winv s A -> vw (addTimeBlock s t None) u =
  if u =? t then match vw s t with None => Some ([], 0, []) | x => x end else vw s u.
Proof.
  intros W. unfold addTimeBlock. destruct (live s t) as [p|] eqn:El.
  - destruct (Z.eqb_spec u t) as [->|]; [|reflexivity]. destruct (vw s t) eqn:Ev; [reflexivity|].
    apply (vw_live _ _ _ W) in Ev. congruence.
  - assert (En : vw s t = None) by now apply (vw_live _ _ _ W). unfold vw at 1. unfold live; cbn [m_live set_live set_heap m_blocks m_bufs].
    destruct (Z.eqb_spec u t) as [->|Hn].
    + rewrite (afind_aset_same _ Zeqb_iff). rewrite nth_error_app2, Nat.sub_diag by lia. cbn [nth_error mb_buf mb_refs mb_last].
      rewrite nth_error_app2, Nat.sub_diag by lia. cbn [nth_error]. now rewrite En.
    + rewrite (afind_aset_other _ Zeqb_iff) by congruence. fold (live s u). unfold vw.
      destruct (live s u) as [q|] eqn:Eu; [|reflexivity]. destruct (wi_blk _ _ W _ _ Eu) as (b2 & d2 & rs2 & [K1 K2] & _).
      rewrite nth_error_app1 by (eapply nth_error_lt, K1). rewrite K1. rewrite nth_error_app1 by (eapply nth_error_lt, K2). reflexivity.
Qed.

Lemma vw_tiny s sl id t u refs last d : winv s (A_of sl) -> vw s t = Some (refs, last, d) ->
  vw (tinyWrite s id t) u =
    (if u =? t then match skipn (Z.to_nat last) d with [] => Some (refs, last, d) | _ => Some (refs ++ [id], Z.of_nat (length d), d) end
     else vw s u) /\
  m_wal (tinyWrite s id t) = match skipn (Z.to_nat last) d with [] => m_wal s | log => writeLog (m_wal s) (lw_append newWriter log) id end.
Proof.
  intros W Ev. unfold vw in Ev. unfold tinyWrite. destruct (live s t) as [p|] eqn:El; [|discriminate].
  destruct (nth_error (m_blocks s) p) as [b|] eqn:Eb; [|discriminate].
  destruct (nth_error (m_bufs s) (mb_buf b)) as [d0|] eqn:Ed; [|discriminate]. injection Ev as <- <- <-.
  destruct (skipn (Z.to_nat (mb_last b)) d0) as [|x log] eqn:Es.
  - split; [|reflexivity]. destruct (Z.eqb_spec u t) as [->|]; [|reflexivity]. unfold vw. now rewrite El, Eb, Ed.
  - split; [|reflexivity]. set (s1 := set_wal s _).
    assert (W1 : winv s1 (A_of sl)) by (eapply winv_same; [exact W|reflexivity..]).
    rewrite <- (setbuf_same s1 (mb_buf b) d0 Ed).
    rewrite (vw_mod s1 sl t p b) by (first [assumption|reflexivity]). reflexivity.
Qed.
Lemma tiny_none s sl id t : winv s (A_of sl) -> vw s t = None -> tinyWrite s id t = s.
Proof. intros W Ev. apply (vw_live _ _ _ W) in Ev. unfold tinyWrite. now rewrite Ev. Qed.

Lemma vw_release s sl t s' u refs last d : winv s (A_of sl) -> vw s t = Some (refs, last, d) -> releaseLog s t = Some s' ->
  vw s' u = (if u =? t then None else vw s u) /\ m_wal s' = fold_left del_log refs (m_wal s) /\
  m_released s' = filter (fun x => negb (x =? t)) (m_released s) /\ m_queue s' = m_queue s /\ m_curid s' = m_curid s.
Proof.
  intros W Ev E. unfold vw in Ev. pose proof (release_live s t s' u E) as Hl. unfold releaseLog in E. destruct (live s t) as [p|] eqn:El; [|discriminate].
  destruct (nth_error (m_blocks s) p) as [b|] eqn:Eb; [|discriminate].
  destruct (nth_error (m_bufs s) (mb_buf b)) as [d0|] eqn:Ed; [|discriminate]. injection Ev as <- <- <-. injection E as <-.
  split; [|repeat split; reflexivity].
  unfold vw at 1. rewrite Hl. destruct (Z.eqb_spec u t) as [->|Hn]; [reflexivity|]. unfold vw.
  destruct (live s u) as [q|] eqn:Eu; [|reflexivity]. cbn [m_blocks m_bufs set_live set_buf mark_unref set_marks set_wal].
  destruct (wi_blk _ _ W _ _ Eu) as (b2 & d2 & rs2 & [K1 K2] & _). rewrite K1.
  destruct (wi_sep _ _ W u t q p b2 b Hn Eu El K1 Eb) as [S1 S2].
  rewrite nth_error_update by (eapply nth_error_lt, Ed). destruct (Nat.eqb_spec (mb_buf b2) (mb_buf b)); [contradiction|reflexivity].
Qed.

(** * What the logs hold *)
Record lg := mkL { l_id : Z; l_t : Z; l_recs : list (ikey * bytes) }.
Definition rkey (r : ikey * bytes) : N := snd (fst r).
Definition logs_at (L : list lg) (t : Z) : list lg := filter (fun x => l_t x =? t) L.
Definition recs_at (L : list lg) (t : Z) : list (ikey * bytes) := flat_map l_recs (logs_at L t).

Lemma logs_at_app a b t : logs_at (a ++ b) t = logs_at a t ++ logs_at b t.
Proof. apply filter_app. Qed.
Lemma recs_at_app a b t : recs_at (a ++ b) t = recs_at a t ++ recs_at b t.
Proof. unfold recs_at. rewrite logs_at_app. apply flat_map_app. Qed.
Lemma logs_at_one x t : logs_at [x] t = if l_t x =? t then [x] else [].
Proof. reflexivity. Qed.
Lemma recs_at_one x t : recs_at [x] t = if l_t x =? t then l_recs x else [].
Proof. unfold recs_at. rewrite logs_at_one. destruct (l_t x =? t); cbn [flat_map]; [apply app_nil_r|reflexivity]. Qed.
Lemma recs_at_in L t r : In r (recs_at L t) <-> exists x, In x L /\ l_t x = t /\ In r (l_recs x).
Proof.
  unfold recs_at, logs_at. rewrite in_flat_map. split.
  - intros (x & H1 & H2). apply filter_In in H1 as [H1 H3]. apply Z.eqb_eq in H3. eauto.
  - intros (x & H1 & H2 & H3). exists x. split; [|exact H3]. apply filter_In. split; [exact H1|]. now apply Z.eqb_eq.
Qed.
Lemma logs_at_drop L t u : u <> t -> logs_at (filter (fun x => negb (l_t x =? t)) L) u = logs_at L u.
Proof.
  intros Hn. unfold logs_at. induction L as [|x L IH]; cbn [filter]; [reflexivity|].
  destruct (Z.eqb_spec (l_t x) t) as [E|E]; cbn [negb filter].
  - destruct (Z.eqb_spec (l_t x) u); [congruence|exact IH].
  - now rewrite IH.
Qed.

(** The blocks in memory: each is what was logged of it and what was not, if
    it waits for its turn in [Q]; a block that came from the logs has the same
    records in some order. *)
Record bview (sl : N -> slot) (Q : list (Z * Z)) (L : list lg) (t : Z) (refs : list Z) (last : Z) (d : bytes)
  (rs : list (ikey * bytes)) : Prop := {
  bv_data : d = encs rs;
  bv_ok : Forall rec_ok rs;
  bv_slot : forall k v, In (k, v) rs -> fst k = false /\ sl (snd k) = Held t v;
  bv_all : forall k v, sl k = Held t v -> In ((false, k), v) rs;
  bv_keys : NoDup (map fst rs);
  bv_refs : refs = map l_id (logs_at L t);
  bv_logged : (exists rest, rs = recs_at L t ++ rest /\ last = Z.of_nat (length (encs (recs_at L t))) /\
                 StronglySorted N.lt (map rkey rest) /\ (rest <> [] -> In t (map snd Q))) \/
              ((forall q, In q (map snd Q) -> t < q) /\ forall r, In r rs <-> In r (recs_at L t))
}.
Record mwal (sl : N -> slot) (V : view) (Q : list (Z * Z)) (L : list lg) : Prop := {
  mw_view : forall t refs last d, V t = Some (refs, last, d) -> exists rs, bview sl Q L t refs last d rs;
  mw_none : forall t k v, V t = None -> sl k <> Held t v;
  mw_logs : forall x, In x L -> V (l_t x) <> None
}.
(** The files. *)
Record dwal (W : dir) (Q : list (Z * Z)) (L : list lg) : Prop := {
  dw_files : filter is_log W = map (fun x => (FLog (l_id x), logfile (l_id x) [encs (l_recs x)])) L;
  dw_ok : forall x, In x L -> log_ok (l_id x) [encs (l_recs x)];
  dw_sort : StronglySorted Z.lt (map l_id L ++ map fst Q);
  dw_keys : NoDup (map fst (flat_map l_recs L))
}.

Lemma in_recs sl V Q L x k v : mwal sl V Q L -> In x L -> In (k, v) (l_recs x) -> fst k = false /\ sl (snd k) = Held (l_t x) v.
Proof.
  intros [M1 M2 M3] Hx Hr. pose proof (M3 x Hx) as Hv. destruct (V (l_t x)) as [[[refs last] d]|] eqn:Ev; [|congruence].
  destruct (M1 _ _ _ _ Ev) as (rs & [B1 B2 B3 B4 B5 B6 B7]). apply B3.
  assert (Hin : In (k, v) (recs_at L (l_t x))) by (apply recs_at_in; eauto).
  destruct B7 as [(rest & -> & _)|[_ E]]; [apply in_or_app; now left|now apply E].
Qed.

Lemma enc_pos r : (0 < length (enc r))%nat.
Proof. rewrite enc_length. lia. Qed.
Lemma encs_nil rs : encs rs = [] -> rs = [].
Proof.
  destruct rs as [|r rs]; [reflexivity|]. rewrite encs_cons. intros E. apply (f_equal (@length N)) in E.
  rewrite app_length, enc_length in E. cbn [length] in E. lia.
Qed.
Lemma encs_inj a b : Forall rec_ok a -> Forall rec_ok b -> encs a = encs b -> a = b.
Proof.
  intros Ha Hb E. pose proof (parse_encs a (S (length (encs a))) Ha ltac:(lia)) as Pa.
  rewrite E in Pa. rewrite (parse_encs b (S (length (encs b))) Hb ltac:(lia)) in Pa. congruence.
Qed.

Lemma nodup_snoc {A} (l : list A) x : NoDup l -> ~ In x l -> NoDup (l ++ [x]).
Proof.
  intros H Hn. apply (Permutation_NoDup (l := x :: l)); [apply Permutation_cons_append|]. now constructor.
Qed.
Lemma nodup_app {A} (a b : list A) : NoDup a -> NoDup b -> (forall x, In x a -> ~ In x b) -> NoDup (a ++ b).
Proof.
  induction a as [|x a IH]; intros Ha Hb Hd; cbn [app]; [exact Hb|]. inversion Ha; subst. constructor.
  - intros Hin. apply in_app_or in Hin as [Hin|Hin]; [contradiction|]. eapply Hd; [now left|exact Hin].
  - apply IH; [assumption|exact Hb|]. intros y Hy. apply Hd. now right.
Qed.
Lemma nodup_app_r {A} (a b : list A) : NoDup (a ++ b) -> NoDup b /\ forall x, In x a -> ~ In x b.
Proof.
  induction a as [|x a IH]; cbn [app]; intros H; [split; [exact H|intros x []]|]. inversion H; subst.
  destruct (IH H3) as [G1 G2]. split; [exact G1|]. intros y [->|Hy]; [|now apply G2]. intros Hin. apply H2. apply in_or_app. now right.
Qed.
Lemma sorted_skip {A} (R : A -> A -> Prop) a x b : StronglySorted R (a ++ x :: b) -> StronglySorted R (a ++ b).
Proof.
  induction a as [|y a IH]; cbn [app]; intros H; apply StronglySorted_inv in H as [H1 H2]; [exact H1|].
  constructor; [now apply IH|]. apply Forall_forall. intros z Hz. apply (proj1 (Forall_forall _ _) H2).
  apply in_app_or in Hz as [Hz|Hz]; apply in_or_app; [now left|right; now right].
Qed.
Lemma sorted_before {A} (R : A -> A -> Prop) a x b : StronglySorted R (a ++ x :: b) -> forall y, In y a -> R y x.
Proof.
  induction a as [|z a IH]; cbn [app]; intros H y Hy; [contradiction|]. apply StronglySorted_inv in H as [H1 H2].
  destruct Hy as [->|Hy]; [|now apply IH]. apply (proj1 (Forall_forall _ _) H2). apply in_or_app. right. now left.
Qed.
Lemma sorted_end l x : StronglySorted Z.lt l -> (forall y, In y l -> y < x) -> StronglySorted Z.lt (l ++ [x]).
Proof.
  induction l as [|a l IH]; intros H Hx; cbn [app]; [repeat constructor|]. apply StronglySorted_inv in H as [H1 H2].
  constructor; [apply IH; [exact H1|intros y Hy; apply Hx; now right]|]. apply Forall_app. split; [exact H2|].
  constructor; [apply Hx; now left|constructor].
Qed.
Lemma sorted_nodup l : StronglySorted Z.lt l -> NoDup l.
Proof.
  induction 1 as [|a l H IH Ha]; constructor; [|exact IH]. intros Hin. pose proof (proj1 (Forall_forall _ _) Ha a Hin). lia.
Qed.
Lemma sorted_all l x : StronglySorted Z.lt (l ++ [x]) -> forall y, In y (l ++ [x]) -> y <= x.
Proof.
  intros H y Hy. apply in_app_or in Hy as [Hy|[->|[]]]; [|lia]. pose proof (sorted_before _ _ _ _ H y Hy). lia.
Qed.

(** * Put *)
Lemma sorted_endN l x : StronglySorted N.lt l -> (forall y, In y l -> (y < x)%N) -> StronglySorted N.lt (l ++ [x]).
Proof.
  induction l as [|a l IH]; intros H Hx; cbn [app]; [repeat constructor|]. apply StronglySorted_inv in H as [H1 H2].
  constructor; [apply IH; [exact H1|intros y Hy; apply Hx; now right]|]. apply Forall_app. split; [exact H2|].
  constructor; [apply Hx; now left|constructor].
Qed.
Lemma mwal_put sl V V' Q L t k v refs last d : mwal sl V Q L -> sl k = Absent ->
  (forall k' t' v', sl k' = Held t' v' -> (k' < k)%N) -> item_ok k v -> In t (map snd Q) ->
  V t = Some (refs, last, d) ->
  (forall u, V' u = if u =? t then Some (refs, last, d ++ mrecord (false, k) v) else V u) ->
  mwal (fun k' => if (k' =? k)%N then Held t v else sl k') V' Q L.
Proof.
  intros [M1 M2 M3] Hk Hlast Hi Hq Ev EV. split.
  - intros u refs' last' d' Eu. rewrite EV in Eu. destruct (Z.eqb_spec u t) as [->|Hn].
    + injection Eu as <- <- <-. destruct (M1 _ _ _ _ Ev) as (rs & [B1 B2 B3 B4 B5 B6 B7]).
      exists (rs ++ [((false, k), v)]). split.
      * rewrite encs_app, encs_one, B1. reflexivity.
      * apply Forall_app. split; [exact B2|]. constructor; [exact Hi|constructor].
      * intros k' v' Hin. apply in_app_or in Hin as [Hin|[[= <- <-]|[]]].
        -- destruct (B3 _ _ Hin) as [H1 H2]. split; [exact H1|]. destruct (N.eqb_spec (snd k') k) as [E|]; [congruence|exact H2].
        -- cbn [fst snd]. now rewrite N.eqb_refl.
      * intros k' v' Hs. apply in_or_app. destruct (N.eqb_spec k' k) as [->|]; [right; left; congruence|left; now apply B4].
      * rewrite map_app. cbn [map fst]. apply nodup_snoc.
        -- exact B5.
        -- intros Hin. apply in_map_iff in Hin as ([k' v'] & Ek & Hin). cbn [fst] in Ek. subst k'.
           destruct (B3 _ _ Hin) as [_ H2]. cbn [snd] in H2. congruence.
      * exact B6.
      * destruct B7 as [(rest & -> & H1 & HS & H2)|[H1 _]].
        -- left. exists (rest ++ [((false, k), v)]). split; [now rewrite app_assoc|]. split; [exact H1|]. split; [|intros _; exact Hq].
           rewrite map_app. apply sorted_endN; [exact HS|]. intros y Hy. apply in_map_iff in Hy as ([k' v'] & <- & Hy).
           destruct (B3 k' v') as [_ HH]; [apply in_or_app; now right|]. unfold rkey; cbn [fst snd]. eapply Hlast, HH.
        -- apply H1 in Hq. lia.
    + destruct (M1 _ _ _ _ Eu) as (rs & [B1 B2 B3 B4 B5 B6 B7]). exists rs. split; try assumption.
      * intros k' v' Hin. destruct (B3 _ _ Hin) as [H1 H2]. split; [exact H1|]. destruct (N.eqb_spec (snd k') k) as [E|]; [congruence|exact H2].
      * intros k' v' Hs. destruct (N.eqb_spec k' k) as [->|]; [congruence|now apply B4].
  - intros u k' v' Eu. rewrite EV in Eu. destruct (Z.eqb_spec u t) as [->|Hn]; [discriminate|].
    destruct (N.eqb_spec k' k) as [->|]; [congruence|now apply M2].
  - intros x Hx. rewrite EV. destruct (l_t x =? t); [discriminate|now apply M3].
Qed.

(** * Tick *)
Lemma mwal_tick sl V V' Q L id t q : mwal sl V Q L -> In q (map snd Q) -> q <= t ->
  (forall u, V' u = if u =? t then match V t with None => Some ([], 0, []) | x => x end else V u) ->
  mwal sl V' (Q ++ [(id, t)]) L.
Proof.
  intros [M1 M2 M3] Hq Hle EV.
  assert (Old : forall u refs last d, V u = Some (refs, last, d) -> exists rs, bview sl (Q ++ [(id, t)]) L u refs last d rs).
  { intros u refs last d Eu. destruct (M1 _ _ _ _ Eu) as (rs & [B1 B2 B3 B4 B5 B6 B7]). exists rs. split; try assumption.
    rewrite map_app. cbn [map snd]. destruct B7 as [(rest & H0 & H1 & HS & H2)|[H1 H2]].
    - left. exists rest. split; [exact H0|]. split; [exact H1|]. split; [exact HS|]. intros Hr. apply in_or_app. left. now apply H2.
    - right. split; [|exact H2]. intros x Hx. apply in_app_or in Hx as [Hx|[<-|[]]]; [now apply H1|]. apply H1 in Hq. lia. }
  split.
  - intros u refs last d Eu. rewrite EV in Eu. destruct (Z.eqb_spec u t) as [->|Hn]; [|now apply Old].
    destruct (V t) as [x|] eqn:Et; [apply Old; now rewrite Et|]. injection Eu as <- <- <-.
    assert (El : logs_at L t = []).
    { destruct (logs_at L t) as [|x l] eqn:El; [reflexivity|]. exfalso.
      assert (Hin : In x (logs_at L t)) by (rewrite El; now left). apply filter_In in Hin as [Hin Hx]. apply Z.eqb_eq in Hx.
      apply (M3 x Hin). now rewrite Hx. }
    exists []. split.
    + reflexivity.
    + constructor.
    + intros k v [].
    + intros k v Hs. now apply (M2 t k v Et) in Hs.
    + constructor.
    + now rewrite El.
    + left. exists []. unfold recs_at. rewrite El. split; [reflexivity|]. split; [reflexivity|]. split; [constructor|congruence].
  - intros u k v Eu. rewrite EV in Eu. destruct (Z.eqb_spec u t) as [->|Hn]; [|now apply M2].
    destruct (V t); discriminate.
  - intros x Hx. rewrite EV. destruct (Z.eqb_spec (l_t x) t) as [E|]; [|now apply M3]. destruct (V t); discriminate.
Qed.
Lemma dwal_tick W Q L id t : dwal W Q L -> (forall y, In y (map l_id L ++ map fst Q) -> y < id) -> dwal W (Q ++ [(id, t)]) L.
Proof.
  intros [D1 D2 D3 D4] H. split; try assumption. rewrite map_app, app_assoc. cbn [map fst]. now apply sorted_end.
Qed.

(** * Commit *)
Lemma mwal_drop sl V id t Q L : mwal sl V ((id, t) :: Q) L -> V t = None -> mwal sl V Q L.
Proof.
  intros [M1 M2 M3] Et. split; try assumption. intros u refs last d Eu.
  destruct (M1 _ _ _ _ Eu) as (rs & [B1 B2 B3 B4 B5 B6 B7]). exists rs. split; try assumption.
  assert (Hn : u <> t) by congruence. destruct B7 as [(rest & H0 & H1 & HS & H2)|[H1 H2]].
  - left. exists rest. split; [exact H0|]. split; [exact H1|]. split; [exact HS|]. intros Hr. destruct (H2 Hr) as [E|Hin]; [cbn in E; congruence|exact Hin].
  - right. split; [|exact H2]. intros x Hx. apply H1. now right.
Qed.
Lemma mwal_skip sl V id t Q L refs last d : mwal sl V ((id, t) :: Q) L -> V t = Some (refs, last, d) ->
  skipn (Z.to_nat last) d = [] -> mwal sl V Q L.
Proof.
  intros [M1 M2 M3] Et Es. split; try assumption. intros u refs' last' d' Eu.
  destruct (M1 _ _ _ _ Eu) as (rs & [B1 B2 B3 B4 B5 B6 B7]). exists rs. split; try assumption.
  destruct B7 as [(rest & H0 & H1 & HS & H2)|[H1 H2]].
  - left. exists rest. split; [exact H0|]. split; [exact H1|]. split; [exact HS|]. intros Hr. destruct (H2 Hr) as [E|Hin]; [|exact Hin].
    cbn in E. subst u. rewrite Et in Eu. injection Eu as <- <- <-. exfalso. apply Hr.
    rewrite B1, H0, encs_app, H1, Nat2Z.id, skipn_app_len in Es by reflexivity. now apply encs_nil.
  - right. split; [|exact H2]. intros x Hx. apply H1. now right.
Qed.

(** The records of the block that are not logged yet. *)
Lemma unlogged sl V id t Q L refs last d : mwal sl V ((id, t) :: Q) L -> V t = Some (refs, last, d) ->
  exists rs rest, bview sl ((id, t) :: Q) L t refs last d rs /\ rs = recs_at L t ++ rest /\ skipn (Z.to_nat last) d = encs rest /\
    last = Z.of_nat (length (encs (recs_at L t))) /\ StronglySorted N.lt (map rkey rest).
Proof.
  intros [M1 M2 M3] Et. destruct (M1 _ _ _ _ Et) as (rs & B). pose proof B as [B1 B2 B3 B4 B5 B6 B7].
  destruct B7 as [(rest & H0 & H1 & HS & H2)|[H1 _]].
  - exists rs, rest. split; [exact B|]. split; [exact H0|]. split; [|split; [exact H1|exact HS]].
    rewrite B1, H0, encs_app, H1, Nat2Z.id. now apply skipn_app_len.
  - specialize (H1 t (or_introl eq_refl)). lia.
Qed.

Lemma mwal_write sl V V' id t Q L refs last d rs rest : mwal sl V ((id, t) :: Q) L -> V t = Some (refs, last, d) ->
  bview sl ((id, t) :: Q) L t refs last d rs -> rs = recs_at L t ++ rest ->
  (forall u, V' u = if u =? t then Some (refs ++ [id], Z.of_nat (length d), d) else V u) ->
  mwal sl V' Q (L ++ [mkL id t rest]).
Proof.
  intros [M1 M2 M3] Et [B1 B2 B3 B4 B5 B6 B7] Ers EV. split.
  - intros u refs' last' d' Eu. rewrite EV in Eu. destruct (Z.eqb_spec u t) as [->|Hn].
    + injection Eu as <- <- <-. exists rs.
      assert (Ea : recs_at (L ++ [mkL id t rest]) t = rs).
      { rewrite recs_at_app, recs_at_one. cbn [l_t l_recs]. rewrite Z.eqb_refl. now symmetry. }
      split; try assumption.
      * rewrite logs_at_app, map_app, logs_at_one, B6. cbn [l_t]. rewrite Z.eqb_refl. reflexivity.
      * left. exists []. rewrite Ea, app_nil_r. split; [reflexivity|]. split; [now rewrite B1|]. split; [constructor|congruence].
    + destruct (M1 _ _ _ _ Eu) as (rs' & [K1 K2 K3 K4 K5 K6 K7]). exists rs'.
      assert (Ea : recs_at (L ++ [mkL id t rest]) u = recs_at L u).
      { rewrite recs_at_app, recs_at_one. cbn [l_t]. destruct (Z.eqb_spec t u); [congruence|apply app_nil_r]. }
      split; try assumption.
      * rewrite logs_at_app, logs_at_one. cbn [l_t]. destruct (Z.eqb_spec t u); [congruence|]. now rewrite app_nil_r.
      * rewrite Ea. destruct K7 as [(rest' & H0 & H1 & HS & H2)|[H1 H2]].
        -- left. exists rest'. split; [exact H0|]. split; [exact H1|]. split; [exact HS|]. intros Hr. destruct (H2 Hr) as [E|Hin]; [cbn in E; congruence|exact Hin].
        -- right. split; [|exact H2]. intros x Hx. apply H1. now right.
  - intros u k v Eu. rewrite EV in Eu. destruct (Z.eqb_spec u t) as [->|Hn]; [discriminate|now apply M2].
  - intros x Hx. rewrite EV. apply in_app_or in Hx as [Hx|[<-|[]]].
    + destruct (l_t x =? t); [discriminate|now apply M3].
    + cbn [l_t]. rewrite Z.eqb_refl. discriminate.
Qed.

Lemma dir_ids (L : list lg) W : filter is_log W = map (fun x => (FLog (l_id x), logfile (l_id x) [encs (l_recs x)])) L ->
  all_ids W = map l_id L.
Proof.
  intros E. rewrite <- all_ids_filter, E. clear. induction L as [|x L IH]; [reflexivity|].
  cbn [map all_ids flat_map fst app]. f_equal. exact IH.
Qed.

Lemma dwal_write sl V W id t Q L rs rest : dwal W ((id, t) :: Q) L -> mwal sl V ((id, t) :: Q) L ->
  log_ok id [encs rest] -> (forall k v, In (k, v) rs -> fst k = false /\ sl (snd k) = Held t v) ->
  NoDup (map fst rs) -> rs = recs_at L t ++ rest ->
  dwal (writeLog W (lw_append newWriter (encs rest)) id) Q (L ++ [mkL id t rest]).
Proof.
  intros [D1 D2 D3 D4] M Hok Hs Hnd Ers. cbn [map fst] in D3.
  assert (Hni : ~ In id (all_ids W)).
  { rewrite (dir_ids L W D1). intros Hin. pose proof (sorted_before _ _ _ _ D3 id Hin). lia. }
  split.
  - change (writeLog W (lw_append newWriter (encs rest)) id) with (write_records W id [encs rest]).
    rewrite write_records_dir by exact Hok.
    rewrite (ddel_none (ddel W (FTmp id))) by (rewrite dget_ddel by discriminate; now apply dget_log_none).
    rewrite filter_app, filter_ddel_tmp, D1, map_app. reflexivity.
  - intros x Hx. apply in_app_or in Hx as [Hx|[<-|[]]]; [now apply D2|exact Hok].
  - rewrite map_app, <- app_assoc. exact D3.
  - rewrite flat_map_app, map_app. cbn [flat_map l_recs]. rewrite app_nil_r. apply nodup_app.
    + exact D4.
    + rewrite Ers, map_app in Hnd. now apply nodup_app_r in Hnd.
    + intros k Hin1 Hin2. apply in_map_iff in Hin1 as ([k1 v1] & E1 & Hin1). apply in_map_iff in Hin2 as ([k2 v2] & E2 & Hin2).
      cbn [fst] in *. subst k1 k2. apply in_flat_map in Hin1 as (x & Hx & Hin1).
      destruct (in_recs _ _ _ _ _ _ _ M Hx Hin1) as [_ S1].
      assert (S2 : sl (snd k) = Held t v2) by (apply (Hs k v2); rewrite Ers; apply in_or_app; now right).
      rewrite S1 in S2. injection S2 as Et _.
      rewrite Ers, map_app in Hnd. apply nodup_app_r in Hnd as [_ Hd]. apply (Hd k).
      * apply in_map_iff. exists (k, v1). split; [reflexivity|]. apply recs_at_in. eauto.
      * apply in_map_iff. exists (k, v2). auto.
Qed.
Lemma dwal_skip W id t Q L : dwal W ((id, t) :: Q) L -> dwal W Q L.
Proof. intros [D1 D2 D3 D4]. split; try assumption. cbn [map fst] in D3. eapply sorted_skip, D3. Qed.

(** * Free *)
Lemma mwal_free sl V V' Q L t : mwal sl V Q L -> (forall u, V' u = if u =? t then None else V u) ->
  mwal (fun k => match sl k with Held t' v => if t' =? t then Freed else Held t' v | x => x end) V' Q
       (filter (fun x => negb (l_t x =? t)) L).
Proof.
  intros [M1 M2 M3] EV. split.
  - intros u refs last d Eu. rewrite EV in Eu. destruct (Z.eqb_spec u t) as [->|Hn]; [discriminate|].
    destruct (M1 _ _ _ _ Eu) as (rs & [B1 B2 B3 B4 B5 B6 B7]). exists rs.
    assert (Ea : recs_at (filter (fun x => negb (l_t x =? t)) L) u = recs_at L u) by (unfold recs_at; now rewrite logs_at_drop).
    split; try assumption.
    + intros k v Hin. destruct (B3 _ _ Hin) as [H1 H2]. split; [exact H1|]. rewrite H2. destruct (Z.eqb_spec u t); [contradiction|reflexivity].
    + intros k v Hs. apply B4. destruct (sl k) as [|t' w|]; [discriminate| |discriminate]. destruct (t' =? t); [discriminate|exact Hs].
    + now rewrite logs_at_drop.
    + now rewrite Ea.
  - intros u k v Eu. rewrite EV in Eu. specialize (M2 u k v). destruct (sl k) as [|t' w|] eqn:Es; [discriminate| |discriminate].
    destruct (Z.eqb_spec t' t) as [->|Ht]; [discriminate|]. destruct (Z.eqb_spec u t) as [->|Hn]; [congruence|now apply M2].
  - intros x Hx. apply filter_In in Hx as [Hx Ht]. rewrite EV. destruct (l_t x =? t); [discriminate|now apply M3].
Qed.

Definition lfile (x : lg) : fname * bytes := (FLog (l_id x), logfile (l_id x) [encs (l_recs x)]).
Lemma filter_comm {A} (f g : A -> bool) l : filter f (filter g l) = filter g (filter f l).
Proof.
  induction l as [|x l IH]; cbn [filter]; [reflexivity|]. destruct (g x) eqn:Eg, (f x) eqn:Ef; cbn [filter]; rewrite ?Eg, ?Ef, IH; reflexivity.
Qed.
Lemma filter_del W i L : filter is_log W = map lfile L ->
  filter is_log (del_log W i) = map lfile (filter (fun x => negb (l_id x =? i)) L).
Proof.
  intros E. unfold del_log, ddel. rewrite filter_comm, E. clear. induction L as [|x L IH]; [reflexivity|].
  cbn [map filter lfile fst fname_eqb]. rewrite Z.eqb_sym. destruct (l_id x =? i); cbn [negb map]; [exact IH|now rewrite <- IH].
Qed.
Lemma filter_dels ids : forall W L, filter is_log W = map lfile L ->
  filter is_log (fold_left del_log ids W) = map lfile (filter (fun x => negb (existsb (Z.eqb (l_id x)) ids)) L).
Proof.
  induction ids as [|i ids IH]; intros W L E; cbn [fold_left].
  - rewrite E. f_equal. clear. induction L as [|x L IH]; [reflexivity|]. exact (f_equal (cons x) IH).
  - rewrite (IH _ _ (filter_del _ i _ E)). f_equal. clear. induction L as [|x L IH]; cbn [filter existsb]; [reflexivity|].
    destruct (l_id x =? i); cbn [negb orb filter]; [exact IH|]. destruct (existsb (Z.eqb (l_id x)) ids); cbn [negb]; [exact IH|exact (f_equal (cons x) IH)].
Qed.
Lemma filter_times L t : NoDup (map l_id L) ->
  filter (fun x => negb (existsb (Z.eqb (l_id x)) (map l_id (logs_at L t)))) L = filter (fun x => negb (l_t x =? t)) L.
Proof.
  intros Hn. apply filter_ext_in. intros x Hx. f_equal. destruct (Z.eqb_spec (l_t x) t) as [E|E].
  - apply existsb_exists. exists (l_id x). split; [|apply Z.eqb_refl]. apply in_map. apply filter_In. split; [exact Hx|]. now apply Z.eqb_eq.
  - apply not_true_is_false. intros Ex. apply existsb_exists in Ex as (i & Hi & Ei). apply Z.eqb_eq in Ei. subst i.
    apply in_map_iff in Hi as (y & Ey & Hy). apply filter_In in Hy as [Hy Ht]. apply Z.eqb_eq in Ht. apply E. rewrite <- Ht. f_equal.
    clear - Hn Hx Hy Ey. induction L as [|z L IH]; [contradiction|]. cbn [map] in Hn. inversion Hn; subst.
    destruct Hx as [->|Hx], Hy as [->|Hy]; [reflexivity| | |now apply IH].
    + exfalso. apply H1. rewrite <- Ey. now apply in_map.
    + exfalso. apply H1. rewrite Ey. now apply in_map.
Qed.
Lemma nodup_l {A} (a b : list A) : NoDup (a ++ b) -> NoDup a.
Proof.
  induction a as [|x a IH]; cbn [app]; intros H; [constructor|]. inversion H; subst. constructor; [|now apply IH].
  intros Hin. apply H2. apply in_or_app. now left.
Qed.
Lemma sorted_filter (f : lg -> bool) L b : StronglySorted Z.lt (map l_id L ++ b) -> StronglySorted Z.lt (map l_id (filter f L) ++ b).
Proof.
  induction L as [|x L IH]; cbn [map filter app]; intros H; [exact H|]. apply StronglySorted_inv in H as [H1 H2].
  destruct (f x); [|now apply IH]. cbn [map app]. constructor; [now apply IH|]. apply Forall_forall. intros y Hy.
  apply (proj1 (Forall_forall _ _) H2). apply in_app_or in Hy as [Hy|Hy]; apply in_or_app; [left|now right].
  apply in_map_iff in Hy as (z & <- & Hz). apply filter_In in Hz as [Hz _]. now apply in_map.
Qed.
Lemma nodup_filter (f : lg -> bool) L : NoDup (map fst (flat_map l_recs L)) -> NoDup (map fst (flat_map l_recs (filter f L))).
Proof.
  induction L as [|x L IH]; cbn [filter flat_map]; intros H; [exact H|]. rewrite map_app in H.
  pose proof (nodup_app_r _ _ H) as [H1 H2]. destruct (f x); [|now apply IH]. cbn [flat_map]. rewrite map_app. apply nodup_app.
  - eapply nodup_l, H.
  - now apply IH.
  - intros k Hk Hin. apply (H2 k Hk). apply in_map_iff in Hin as (r & E & Hin). apply in_map_iff. exists r. split; [exact E|].
    apply in_flat_map in Hin as (y & Hy & Hin). apply in_flat_map. exists y. split; [|exact Hin]. now apply filter_In in Hy.
Qed.
Lemma dwal_free W Q L t : dwal W Q L -> dwal (fold_left del_log (map l_id (logs_at L t)) W) Q (filter (fun x => negb (l_t x =? t)) L).
Proof.
  intros [D1 D2 D3 D4]. split.
  - rewrite (filter_dels _ W L D1), filter_times; [reflexivity|]. apply sorted_nodup in D3. eapply nodup_l, D3.
  - intros x Hx. apply filter_In in Hx as [Hx _]. now apply D2.
  - now apply sorted_filter.
  - now apply nodup_filter.
Qed.

(** * The store *)
Definition pending (s : mdb) : list (Z * Z) := m_queue s ++ [(m_curid s, m_cur s)].
Record walinv (s : mdb) (sl : N -> slot) (Q : list (Z * Z)) (L : list lg) : Prop := {
  wl_mem : mwal sl (vw s) Q L;
  wl_dir : dwal (m_wal s) Q L
}.

Lemma mwal_ext sl sl' V V' Q L : mwal sl V Q L -> (forall k t v, sl' k = Held t v <-> sl k = Held t v) -> (forall u, V' u = V u) ->
  mwal sl' V' Q L.
Proof.
  intros [M1 M2 M3] Es EV. split.
  - intros t refs last d Et. rewrite EV in Et. destruct (M1 _ _ _ _ Et) as (rs & [B1 B2 B3 B4 B5 B6 B7]). exists rs. split; try assumption.
    + intros k v Hin. destruct (B3 _ _ Hin) as [H1 H2]. split; [exact H1|]. now apply Es.
    + intros k v Hs. apply B4. now apply Es.
  - intros t k v Et. rewrite EV in Et. rewrite Es. now apply M2.
  - intros x Hx. rewrite EV. now apply M3.
Qed.

Lemma put_fields c s t k v s' r : put_in c s t k v = (s', r) -> m_wal s' = m_wal s /\ m_queue s' = m_queue s /\ m_curid s' = m_curid s /\
  m_cur s' = m_cur s /\ m_released s' = m_released s.
Proof.
  unfold put_in. destruct (m_closed s); [intros [= <- _]; auto|]. destruct (live s t) as [p|]; [|intros [= <- _]; auto].
  destruct (block_put s p (false, k) v) as [s2|] eqn:Ep; [|intros [= <- _]; auto]. intros [= <- _]. unfold block_put in Ep.
  destruct (nth_error (m_blocks s) p) as [b|]; [|discriminate]. destruct (nth_error (m_bufs s) (mb_buf b)); [|discriminate].
  injection Ep as <-. unfold addTimeFilter. cbn [m_filters set_block set_buf].
  destruct (nth_error (m_filters s) (c_bkey c k)); cbn; auto.
Qed.

Lemma wal_put c s g L k v s' r : ginv c s g -> walinv s (g_slot g) (pending s) L -> item_ok k v -> g_slot g k = Absent ->
  (forall k' t' v', g_slot g k' = Held t' v' -> (k' < k)%N) ->
  mem_put c s k v = (s', r) -> r = MOk ->
  walinv s' (g_slot (gset g k (Held (g_cur g) v))) (pending s') L.
Proof.
  intros [W Fr H F C O Qf] [M D] Hi Hk Hlast E ->. pose proof E as E0. unfold mem_put in E.
  destruct (put_fields _ _ _ _ _ _ _ E) as (F1 & F2 & F3 & F4 & _).
  unfold put_in in E. rewrite (wi_open _ _ W) in E. destruct (live s (m_cur s)) as [p|] eqn:El; [|discriminate].
  destruct (block_put s p (false, k) v) as [s2|] eqn:Ep; [|discriminate]. injection E as <-.
  destruct (wi_blk _ _ W _ _ El) as (b & d & rs & Hb & _). pose proof (vw_some _ _ _ _ _ _ W El Hb) as Ev.
  destruct (addTimeFilter_same c s2 (m_cur s) k) as (S1 & S2 & _ & S4 & _).
  unfold pending. rewrite F2, F3, F4. fold (pending s). split.
  - cbn [g_slot gset]. rewrite <- C. eapply mwal_put; [exact M|exact Hk|exact Hlast|exact Hi| |exact Ev|].
    + unfold pending. rewrite map_app. apply in_or_app. right. now left.
    + intros u. rewrite (vw_same s2) by assumption. eapply vw_put; eassumption.
  - rewrite F1. exact D.
Qed.

Lemma wal_get c s g L k s' r : walinv s (g_slot g) (pending s) L -> mem_get c s k = (s', r) -> walinv s' (g_slot g) (pending s') L.
Proof.
  intros [M D] E. unfold mem_get in E. apply mem_get_same in E as (qr & qf & qb & ->). split; [|exact D].
  eapply mwal_ext; [exact M|reflexivity|]. intros u. now apply vw_same.
Qed.

Lemma add_fields s t o : m_queue (addTimeBlock s t o) = m_queue s /\ m_curid (addTimeBlock s t o) = m_curid s /\
  m_cur (addTimeBlock s t o) = m_cur s /\ m_wal (addTimeBlock s t o) = m_wal s /\ m_released (addTimeBlock s t o) = m_released s /\
  m_marks (addTimeBlock s t o) = m_marks s.
Proof.
  unfold addTimeBlock. destruct (live s t); [repeat split; reflexivity|]. destruct o; [destruct (existsb _ _)|]; repeat split; reflexivity.
Qed.

Lemma wal_tick c s g L now : ginv c s g -> walinv s (g_slot g) (pending s) L -> m_curid s < now -> m_cur s <= trunc now (c_dur c) ->
  walinv (mem_tick c s now None) (g_slot g) (pending (mem_tick c s now None)) L.
Proof.
  intros [W Fr H F C O Qf] [M D] Hid Hle.
  assert (Ep : pending (mem_tick c s now None) = pending s ++ [(now, trunc now (c_dur c))]).
  { unfold mem_tick, newTinyLog, pending. cbn [m_queue m_curid m_cur set_log mark_add set_marks].
    set (s1 := set_log s _ _ _). destruct (add_fields s1 (trunc now (c_dur c)) None) as (-> & _). reflexivity. }
  assert (Ew : m_wal (mem_tick c s now None) = m_wal s).
  { unfold mem_tick, newTinyLog. cbn [m_wal set_log mark_add set_marks].
    set (s1 := set_log s _ _ _). now destruct (add_fields s1 (trunc now (c_dur c)) None) as (_ & _ & _ & -> & _). }
  rewrite Ep. split.
  - eapply mwal_tick with (q := m_cur s); [exact M| |exact Hle|].
    + unfold pending. rewrite map_app. apply in_or_app. right. now left.
    + intros u. unfold mem_tick, newTinyLog. set (s1 := set_log s _ _ _).
      rewrite (vw_same (addTimeBlock s1 (trunc now (c_dur c)) None)) by reflexivity.
      assert (W1 : winv s1 (A_of (g_slot g))) by (eapply winv_same; [exact W|reflexivity..]).
      rewrite (vw_add _ _ _ _ W1). reflexivity.
  - rewrite Ew. apply dwal_tick; [exact D|]. intros y Hy. destruct D as [_ _ D3 _]. unfold pending in D3, Hy.
    rewrite map_app, app_assoc in D3, Hy. cbn [map fst] in D3, Hy. pose proof (sorted_all _ _ D3 y Hy). lia.
Qed.

(** The sizes of the blocks in memory are such that their logs can be written. *)
Definition fits (s : mdb) : Prop := forall t refs last d, vw s t = Some (refs, last, d) -> (N.of_nat (length d) + 4 < 2 ^ 32)%N.

Lemma fits_log id rest d (pre : bytes) : (- 2 ^ 63 <= id < 2 ^ 63) -> (N.of_nat (length d) + 4 < 2 ^ 32)%N -> d = pre ++ encs rest -> rest <> [] ->
  log_ok id [encs rest].
Proof.
  intros Hid Hd -> Hr. rewrite app_length in Hd. split; [exact Hid|]. split; [discriminate|]. split.
  - constructor; [|constructor]. intros E. now apply encs_nil in E.
  - unfold records_size. cbn [fold_right]. lia.
Qed.

Lemma release_mark_fields s t : m_wal (mark_release s t) = m_wal s /\ m_queue (mark_release s t) = m_queue s /\
  m_curid (mark_release s t) = m_curid s /\ m_cur (mark_release s t) = m_cur s /\ m_closed (mark_release s t) = m_closed s.
Proof. unfold mark_release. destruct (afind Z.eqb (m_marks s) t); [|auto]. destruct (0 <? _); auto. Qed.
Lemma tiny_fields s id t : m_queue (tinyWrite s id t) = m_queue s /\ m_curid (tinyWrite s id t) = m_curid s /\ m_cur (tinyWrite s id t) = m_cur s /\
  m_released (tinyWrite s id t) = m_released s /\ m_marks (tinyWrite s id t) = m_marks s.
Proof.
  unfold tinyWrite. destruct (live s t) as [p|]; [|auto]. destruct (nth_error (m_blocks s) p) as [b|]; [|auto].
  destruct (nth_error (m_bufs s) (mb_buf b)) as [d|]; [|auto]. destruct (skipn _ d); auto.
Qed.

Lemma wal_commit s sl L id t q Q : winv s (A_of sl) -> walinv s sl ((id, t) :: Q) L -> fits s -> m_queue s = (id, t) :: q ->
  - 2 ^ 63 <= id < 2 ^ 63 -> exists L2, walinv (mem_commit s) sl Q (L ++ L2) /\
    (L2 = [] \/ exists rest, L2 = [mkL id t rest] /\ StronglySorted N.lt (map rkey rest) /\
       forall k v, sl k = Held t v -> In ((false, k), v) (recs_at L t ++ rest)) /\ m_queue (mem_commit s) = q /\
    m_curid (mem_commit s) = m_curid s /\ fits (mem_commit s).
Proof.
  intros W [M D] Hf Eq Hid. unfold mem_commit. rewrite Eq. set (s1 := set_log s _ _ _).
  assert (W1 : winv s1 (A_of sl)) by (eapply winv_same; [exact W|reflexivity..]).
  assert (V1 : forall u, vw s1 u = vw s u) by (intros; now apply vw_same).
  destruct (release_mark_fields (tinyWrite s1 id t) t) as (R1 & R2 & R3 & _).
  destruct (tiny_fields s1 id t) as (T1 & T2 & _).
  destruct (marks_same (tinyWrite s1 id t) t _ (or_intror (or_introl eq_refl))) as (K1 & K2 & _ & K4 & _).
  assert (VR : forall u, vw (mark_release (tinyWrite s1 id t) t) u = vw (tinyWrite s1 id t) u) by (intros; now apply vw_same).
  assert (Fin : forall L2, mwal sl (vw (tinyWrite s1 id t)) Q (L ++ L2) -> dwal (m_wal (tinyWrite s1 id t)) Q (L ++ L2) -> fits (tinyWrite s1 id t) ->
     (L2 = [] \/ exists rest, L2 = [mkL id t rest] /\ StronglySorted N.lt (map rkey rest) /\
       forall k v, sl k = Held t v -> In ((false, k), v) (recs_at L t ++ rest)) ->
     exists L2, walinv (mark_release (tinyWrite s1 id t) t) sl Q (L ++ L2) /\
       (L2 = [] \/ exists rest, L2 = [mkL id t rest] /\ StronglySorted N.lt (map rkey rest) /\
       forall k v, sl k = Held t v -> In ((false, k), v) (recs_at L t ++ rest)) /\ m_queue (mark_release (tinyWrite s1 id t) t) = q /\
       m_curid (mark_release (tinyWrite s1 id t) t) = m_curid s /\ fits (mark_release (tinyWrite s1 id t) t)).
  { intros L2 M' D' F' HL2. exists L2. split; [split; [|now rewrite R1]|split; [exact HL2|]].
    - eapply mwal_ext; [exact M'|reflexivity|exact VR].
    - rewrite R2, R3, T1, T2. split; [reflexivity|]. split; [reflexivity|]. intros u refs last d Eu. rewrite VR in Eu. eapply F', Eu. }
  destruct (vw s t) as [[[refs last] d]|] eqn:Et.
  - assert (Et1 : vw s1 t = Some (refs, last, d)) by now rewrite V1.
    destruct (unlogged _ _ _ _ _ _ _ _ _ M Et) as (rs & rest & B & Ers & Esk & El & Hsr).
    pose proof (fun u => proj1 (vw_tiny s1 sl id t u refs last d W1 Et1)) as VT.
    pose proof (proj2 (vw_tiny s1 sl id t t refs last d W1 Et1)) as WT.
    assert (FT : fits (tinyWrite s1 id t)).
    { intros u r2 l2 d2 Eu. rewrite VT in Eu. destruct (Z.eqb_spec u t) as [->|]; [|rewrite V1 in Eu; eapply Hf, Eu].
      destruct (skipn (Z.to_nat last) d); injection Eu as <- <- <-; eapply Hf, Et. }
    destruct (skipn (Z.to_nat last) d) as [|x log] eqn:Es.
    + apply (Fin []); rewrite ?app_nil_r; [|rewrite WT; eapply dwal_skip, D|exact FT|now left].
      eapply mwal_ext; [eapply mwal_skip; eassumption|reflexivity|]. intros u. rewrite VT, V1.
      destruct (Z.eqb_spec u t) as [->|]; [now rewrite Et|reflexivity].
    + apply (Fin [mkL id t rest]); [| |exact FT|right; exists rest; split; [reflexivity|]; split; [exact Hsr|]; rewrite <- Ers; exact (bv_all _ _ _ _ _ _ _ _ B)].
      * eapply mwal_write; [exact M|exact Et|exact B|exact Ers|]. intros u. now rewrite VT, V1.
      * rewrite WT, Esk. pose proof B as [B1 B2 B3 B4 B5 B6 B7].
        eapply dwal_write with (rs := rs); [exact D|exact M| |exact B3|exact B5|exact Ers].
        eapply fits_log with (d := d); [exact Hid|eapply Hf, Et|rewrite B1, Ers; apply encs_app|]. intros ->. discriminate.
  - assert (Et1 : vw s1 t = None) by now rewrite V1.
    pose proof (tiny_none s1 sl id t W1 Et1) as E1.
    apply (Fin []); rewrite ?app_nil_r, ?E1; [|eapply dwal_skip, D| |now left].
    + eapply mwal_ext; [eapply mwal_drop; eassumption|reflexivity|exact V1].
    + intros u r2 l2 d2 Eu. rewrite V1 in Eu. eapply Hf, Eu.
Qed.

Lemma wal_free s sl L Q t s' : winv s (A_of sl) -> walinv s sl Q L -> releaseLog s t = Some s' ->
  walinv s' (fun k => match sl k with Held t' v => if t' =? t then Freed else Held t' v | x => x end) Q (filter (fun x => negb (l_t x =? t)) L).
Proof.
  intros W [M D] E. destruct (vw s t) as [[[refs last] d]|] eqn:Et.
  - pose proof (fun u => proj1 (vw_release s sl t s' u _ _ _ W Et E)) as VT.
    destruct (vw_release s sl t s' t _ _ _ W Et E) as (_ & Ew & _).
    split; [now apply mwal_free with (V := vw s)|]. rewrite Ew.
    destruct (mw_view _ _ _ _ M _ _ _ _ Et) as (rs & B). rewrite (bv_refs _ _ _ _ _ _ _ _ B). now apply dwal_free.
  - apply (vw_live _ _ _ W) in Et. unfold releaseLog in E. rewrite Et in E. discriminate.
Qed.
