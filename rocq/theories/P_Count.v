(** Proofs about what Sync writes and what Count answers in a session. *)
From Verif Require Import M_Bytes P_Bytes M_File M_Hash M_Bloom M_Entry M_MsgId M_Mac M_Topic M_Trie M_Query M_IndexBlock M_Lease
  M_BlockStore M_WinBlock M_Wal M_MemDB M_Window M_Get M_DB M_DBInfo S_Trie S_Window S_BlockStore S_MemDB S_Get S_DB S_Session S_Count
  P_Codec P_Lease P_BlockStore2 P_BlockStore3 P_BlockStore4 P_Window4 P_MemBlock P_MemDB P_MemGet P_MemWal P_DB P_Session P_Session2 P_Session3 P_Session4 P_Session5.
From Coq Require Import Lia ZifyBool ZifyNat ZifyN Permutation Sorted.
Open Scope Z_scope.

(** * Fields of the store in memory *)
Lemma put_marks c s t k v s' r : put_in c s t k v = (s', r) -> m_marks s' = m_marks s.
Proof.
  unfold put_in. destruct (m_closed s); [intros [= <- _]; auto|]. destruct (M_MemDB.live s t) as [p|]; [|intros [= <- _]; auto].
  destruct (block_put s p (false, k) v) as [s2|] eqn:Ep; [|intros [= <- _]; auto]. intros [= <- _]. unfold block_put in Ep.
  destruct (nth_error (m_blocks s) p) as [b|]; [|discriminate]. destruct (nth_error (m_bufs s) (mb_buf b)); [|discriminate].
  injection Ep as <-. unfold addTimeFilter. cbn [m_filters set_block set_buf].
  destruct (nth_error (m_filters s) (c_bkey c k)); cbn; auto.
Qed.
Lemma write_marks s id t : m_marks (tinyWrite s id t) = m_marks s /\ m_released (tinyWrite s id t) = m_released s /\
  m_queue (tinyWrite s id t) = m_queue s /\ m_cur (tinyWrite s id t) = m_cur s.
Proof.
  unfold tinyWrite. destruct (M_MemDB.live s t); [|auto]. destruct (nth_error (m_blocks s) n) as [b|]; [|auto].
  destruct (nth_error (m_bufs s) (mb_buf b)) as [d|]; [|auto]. destruct (skipn _ d); auto.
Qed.
Lemma free_marks s t s' r : mem_free s t = (s', r) -> m_marks s' = m_marks s /\ m_queue s' = m_queue s /\
  m_cur s' = m_cur s /\ (forall u, In u (m_released s') -> In u (m_released s)) /\ (forall u, In u (m_released s) -> In u (m_released s') \/ u = t).
Proof.
  unfold mem_free, releaseLog. destruct (M_MemDB.live s t) as [p|]; [|intros [= <- _]; auto 10].
  destruct (nth_error (m_blocks s) p) as [b|]; [|intros [= <- _]; auto 10]. intros [= <- _].
  cbn [set_live set_buf mark_unref set_marks set_wal m_marks m_queue m_cur m_released]. repeat split.
  - intros u Hu. apply filter_In in Hu. tauto.
  - intros u Hu. destruct (Z.eq_dec u t) as [->|Hn]; [now right|left]. apply filter_In. split; [exact Hu|]. lia.
Qed.

(** * What Sync frees *)
Lemma frees_slots now l m g W ts m' g' W' : frees now l m g W ts m' g' W' ->
  m_marks m' = m_marks m /\ m_queue m' = m_queue m /\ m_cur m' = m_cur m /\ g_cur g' = g_cur g /\
  (forall u, In u (m_released m') -> In u (m_released m)) /\
  (forall u, In u (m_released m) -> In u (m_released m') \/ In u ts) /\
  (forall k, g_slot g k = Absent -> g_slot g' k = Absent) /\
  (forall k, g_slot g k = Freed -> g_slot g' k = Freed) /\
  (forall k t v, g_slot g k = Held t v -> if in_dec Z.eq_dec t ts then g_slot g' k = Freed else g_slot g' k = Held t v).
Proof.
  induction 1 as [m g W|m g W t ts m' g' W' Hno F IH|m g W t ts m1 W1 m' g' W' Ef Hw F IH].
  - repeat split; auto.
  - destruct IH as (I1 & I2 & I3 & I4 & I5 & I6 & I7 & I8 & I9). repeat split; auto.
    + intros u Hu. destruct (I6 u Hu); [now left|right; now right].
    + intros k t' v Hk. specialize (I9 k t' v Hk). destruct (in_dec Z.eq_dec t' ts) as [Hi|Hn]; destruct (in_dec Z.eq_dec t' (t :: ts)) as [Hi'|Hn']; auto.
      * exfalso. apply Hn'. now right.
      * destruct Hi' as [->|Hi']; [now apply Hno in Hk|contradiction].
  - destruct IH as (I1 & I2 & I3 & I4 & I5 & I6 & I7 & I8 & I9). destruct (free_marks _ _ _ _ Ef) as (J1 & J2 & J3 & J4 & J5).
    cbn [gfree g_cur g_slot] in *. repeat split; try congruence; auto.
    + intros u Hu. destruct (J5 u Hu) as [Hu'| ->]; [|right; now left]. destruct (I6 u Hu'); [now left|right; now right].
    + intros k Hk. apply I7. now rewrite Hk.
    + intros k Hk. apply I8. now rewrite Hk.
    + intros k t' v Hk. specialize (I8 k). specialize (I9 k t' v). rewrite Hk in I8, I9. destruct (Z.eqb_spec t' t) as [->|Hn].
      * destruct (in_dec Z.eq_dec t (t :: ts)) as [_|Hn]; [now apply I8|]. exfalso. apply Hn. now left.
      * specialize (I9 eq_refl). destruct (in_dec Z.eq_dec t' ts) as [Hi|Hx]; destruct (in_dec Z.eq_dec t' (t :: ts)) as [Hi'|Hn']; auto.
        -- exfalso. apply Hn'. now right.
        -- destruct Hi' as [->|Hi']; contradiction.
Qed.

(** * The book and the state *)
Definition none_at (g : gstate) (t : Z) : Prop := t < g_cur g /\ forall k v, g_slot g k <> Held t v.

Record booked (c : dcfg) (s : db) (l : list gmsg) (g : gstate) (b : book) (sl : N -> Z) : Prop := {
  bi_cur : bk_slot b = g_cur g;
  bi_wait : map snd (m_queue (d_mem s)) = bk_wait b;
  bi_all : bk_all b = map (fun m => (sl (gm_seq m), in_store g m, gm_sent m)) l;
  bi_held : forall m, In m l -> in_store g m = false -> exists v, g_slot g (gm_seq m) = Held (sl (gm_seq m)) v;
  bi_order : forall m1 m2, In m1 l -> In m2 l -> (gm_seq m1 <= gm_seq m2)%N -> sl (gm_seq m1) <= sl (gm_seq m2);
  bi_prefix : forall m1 m2, In m1 l -> In m2 l -> in_store g m1 = true -> in_store g m2 = false -> sl (gm_seq m1) < sl (gm_seq m2);
  bi_below : forall m, In m l -> sl (gm_seq m) <= bk_slot b;
  bi_past : forall m, In m l -> in_store g m = true -> sl (gm_seq m) < bk_slot b;
  bi_where : forall m, In m l -> in_store g m = false -> sl (gm_seq m) = bk_slot b \/ In (sl (gm_seq m)) (bk_wait b) \/ In (sl (gm_seq m)) (bk_done b);
  bi_pos : 0 < bk_slot b /\ forall m, In m l -> in_store g m = false -> 0 < sl (gm_seq m);
  bi_one : forall t v, afind Z.eqb (m_marks (d_mem s)) t = Some v -> v = 1;
  bi_marked : forall t, In t (bk_slot b :: bk_wait b) ->
    afind Z.eqb (m_marks (d_mem s)) t = Some 1 \/ In t (m_released (d_mem s)) \/ none_at g t;
  bi_rel : forall t, In t (m_released (d_mem s)) -> In t (bk_done b) \/ none_at g t;
  bi_done : forall t, In t (bk_done b) -> In t (m_released (d_mem s)) \/ none_at g t;
  bi_sorted : StronglySorted Z.le (bk_wait b ++ [bk_slot b]);
  bi_early : forall t u, In t (bk_done b) -> In u (bk_wait b ++ [bk_slot b]) -> t <= u;
  bi_count : Z.of_N (d_count s) = nstored g l;
  bi_last : d_last s = 0%N \/ exists m, In m l /\ in_store g m = true /\ gm_seq m = d_last s
}.

Lemma trunc_mono a b d : 0 < d -> a <= b -> trunc a d <= trunc b d.
Proof.
  intros Hd Hab. unfold trunc. rewrite (Z.mod_eq a d), (Z.mod_eq b d) by lia.
  pose proof (Z.div_le_mono a b d Hd Hab). nia.
Qed.
Lemma trunc_pos a d : 0 < d -> d <= a -> 0 < trunc a d.
Proof. intros Hd Ha. unfold trunc. pose proof (Z.mod_pos_bound a d Hd). lia. Qed.

(** The same but for the caches of queries, the sequence and the tree. *)
Lemma booked_same c s s' l g b sl : m_queue (d_mem s') = m_queue (d_mem s) -> m_marks (d_mem s') = m_marks (d_mem s) ->
  m_released (d_mem s') = m_released (d_mem s) -> d_count s' = d_count s -> d_last s' = d_last s ->
  booked c s l g b sl -> booked c s' l g b sl.
Proof. intros E1 E2 E3 E4 E5 [B1 B2 B3 B4 B5 B6 B7 B8 B9 B10 B11 B12 B13 B14 B15 B16 B17 B18]. constructor; rewrite ?E1, ?E2, ?E3, ?E4, ?E5; auto. Qed.

Lemma put_entry_count c s now e s' e' r : put_entry c s now e = (s', e', r) -> d_count s' = d_count s /\ d_last s' = d_last s.
Proof.
  unfold put_entry. destruct (d_closed s); [intros [= <- _ _]; auto|]. destruct (check_put e); [intros [= <- _ _]; auto|].
  destruct (set_entry c s now e) as [s1 e1 x cache|e1 r1|] eqn:Es; [|intros [= <- _ _]; auto|intros [= <- _ _]; auto].
  assert (H1 : d_count s1 = d_count s /\ d_last s1 = d_last s).
  { unfold set_entry in Es. cbv zeta in Es.
    repeat (match type of Es with context [match ?x with _ => _ end] => destruct x eqn:? end; try discriminate); injection Es; clear Es; intros; subst;
      repeat match goal with
             | H : Some _ = Some _ |- _ => injection H; clear H; intros; subst
             | H : match ?x with _ => _ end = Some _ |- _ => destruct x; try discriminate
             end; split; reflexivity. }
  destruct (mem_put (c_mem c) (d_mem s1) (e_seq x) cache) as [mm []]; try (intros [= <- _ _]; exact H1).
  cbv zeta. destruct (add_topic _ _ _ _); intros [= <- _ _]; exact H1.
Qed.

(** ** Put *)
Lemma booked_put c s s' l g b sl m sends0 : booked c s l g b sl -> list_part c l (d_seq s) -> gm_seq m = (d_seq s + 1)%N -> g_slot g (gm_seq m) = Absent ->
  mem_put (c_mem c) (d_mem s) (gm_seq m) (gm_cache m) = (d_mem s', MOk) -> d_count s' = d_count s -> d_last s' = d_last s -> sends0 = [gm_sent m] ->
  exists sl', booked c s' (l ++ [m]) (gset g (gm_seq m) (Held (g_cur g) (gm_cache m)))
    (mkBook (bk_slot b) (bk_wait b) (bk_done b) (bk_all b ++ map (fun m => (bk_slot b, false, m)) sends0)) sl'.
Proof.
  intros [B1 B2 B3 B4 B5 B6 B7 B8 B9 B10 B11 B12 B13 B14 B15 B16 B17 B18] Hl Eseq Habs Ep E1 E2 ->.
  unfold mem_put in Ep. destruct (put_fields _ _ _ _ _ _ _ Ep) as (_ & F1 & _ & _ & F2). pose proof (put_marks _ _ _ _ _ _ _ Ep) as F3.
  assert (Hlt : forall x, In x l -> (gm_seq x < gm_seq m)%N).
  { intros x Hx. pose proof (lp_below _ _ _ Hl) as Hb. rewrite Forall_forall in Hb. specialize (Hb x Hx). lia. }
  set (g' := gset g (gm_seq m) (Held (g_cur g) (gm_cache m))).
  set (sl' := fun q => if (q =? gm_seq m)%N then bk_slot b else sl q).
  assert (Hsl : forall x, In x l -> sl' (gm_seq x) = sl (gm_seq x)).
  { intros x Hx. unfold sl'. specialize (Hlt x Hx). destruct (N.eqb_spec (gm_seq x) (gm_seq m)); [lia|reflexivity]. }
  assert (Hsm : sl' (gm_seq m) = bk_slot b) by (unfold sl'; now rewrite N.eqb_refl).
  assert (Hst : forall x, In x l -> in_store g' x = in_store g x).
  { intros x Hx. unfold in_store, g'. cbn [gset g_slot]. specialize (Hlt x Hx). destruct (N.eqb_spec (gm_seq x) (gm_seq m)); [lia|reflexivity]. }
  assert (Hsn : in_store g' m = false) by (unfold in_store, g'; cbn [gset g_slot]; now rewrite N.eqb_refl).
  assert (Hno : forall t, none_at g t -> none_at g' t).
  { intros t [Ht Hk]. split; [exact Ht|]. intros k v. unfold g'. cbn [gset g_slot]. destruct (k =? gm_seq m)%N; [|apply Hk]. intros [= E _]. lia. }
  exists sl'. constructor; cbn [bk_slot bk_wait bk_done bk_all]; rewrite ?F1, ?F2, ?F3, ?E1, ?E2; auto.
  - rewrite B3, map_app. cbn [map]. rewrite Hsm, Hsn. f_equal. apply map_ext_in. intros x Hx. now rewrite Hsl, Hst.
  - intros x Hx Hs. apply in_app_iff in Hx as [Hx|[<-|[]]].
    + rewrite Hst in Hs by exact Hx. rewrite Hsl by exact Hx. destruct (B4 x Hx Hs) as (v & Hv). exists v. unfold g'. cbn [gset g_slot].
      specialize (Hlt x Hx). destruct (N.eqb_spec (gm_seq x) (gm_seq m)); [lia|exact Hv].
    + exists (gm_cache m). rewrite Hsm, B1. unfold g'. cbn [gset g_slot]. now rewrite N.eqb_refl.
  - intros x y Hx Hy Hle. apply in_app_iff in Hx as [Hx|[<-|[]]]; apply in_app_iff in Hy as [Hy|[<-|[]]].
    + rewrite !Hsl by assumption. auto.
    + rewrite Hsl, Hsm by assumption. auto.
    + specialize (Hlt y Hy). lia.
    + lia.
  - intros x y Hx Hy H1 H2. apply in_app_iff in Hx as [Hx|[<-|[]]]; [|congruence]. rewrite Hst in H1 by exact Hx. rewrite Hsl by exact Hx.
    apply in_app_iff in Hy as [Hy|[<-|[]]].
    + rewrite Hst in H2 by exact Hy. rewrite Hsl by exact Hy. auto.
    + rewrite Hsm. auto.
  - intros x Hx. apply in_app_iff in Hx as [Hx|[<-|[]]]; [rewrite Hsl by exact Hx; auto|lia].
  - intros x Hx H1. apply in_app_iff in Hx as [Hx|[<-|[]]]; [|congruence]. rewrite Hst in H1 by exact Hx. rewrite Hsl by exact Hx. auto.
  - intros x Hx. apply in_app_iff in Hx as [Hx|[<-|[]]]; [rewrite Hsl, Hst by exact Hx; auto|now left].
  - destruct B10 as [P1 P2]. split; [exact P1|]. intros x Hx. apply in_app_iff in Hx as [Hx|[<-|[]]]; [rewrite Hsl, Hst by exact Hx; auto|lia].
  - intros t Ht. destruct (B12 t Ht) as [|[|]]; auto.
  - intros t Ht. destruct (B13 t Ht) as [|]; auto.
  - intros t Ht. destruct (B14 t Ht) as [|]; auto.
  - unfold nstored. rewrite filter_app. cbn [filter]. rewrite Hsn, app_nil_r, B17. unfold nstored. do 2 f_equal. apply filter_ext_in. intros x Hx. symmetry. now apply Hst.
  - destruct B18 as [B18|(x & Hx & H1 & H2)]; [now left|right]. exists x. split; [apply in_app_iff; now left|]. rewrite Hst by exact Hx. auto.
Qed.

(** ** Tick and commit *)
Lemma booked_tick c s l g g' b sl now : 0 < c_dur (c_mem c) -> booked c s l g b sl -> m_cur (d_mem s) = g_cur g -> g_cur g <= trunc now (c_dur (c_mem c)) ->
  g_slot g' = g_slot g -> g_cur g' = trunc now (c_dur (c_mem c)) ->
  booked c (set_mem s (mem_tick (c_mem c) (d_mem s) now None)) l g'
    (mkBook (trunc now (c_dur (c_mem c))) (bk_wait b ++ [bk_slot b]) (bk_done b) (bk_all b)) sl.
Proof.
  intros Hd [B1 B2 B3 B4 B5 B6 B7 B8 B9 B10 B11 B12 B13 B14 B15 B16 B17 B18] Em Hle Es Ec.
  set (t' := trunc now (c_dur (c_mem c))) in *.
  assert (Hf : m_queue (mem_tick (c_mem c) (d_mem s) now None) = m_queue (d_mem s) ++ [(m_curid (d_mem s), m_cur (d_mem s))] /\
    m_marks (mem_tick (c_mem c) (d_mem s) now None) = aset Z.eqb (m_marks (d_mem s)) t' 1 /\
    m_released (mem_tick (c_mem c) (d_mem s) now None) = m_released (d_mem s)).
  { unfold mem_tick, newTinyLog. cbn [m_marks m_released m_cur m_queue m_curid set_log mark_add set_marks].
    destruct (add_fields (set_log (d_mem s) (m_cur (d_mem s)) (m_curid (d_mem s)) (m_queue (d_mem s) ++ [(m_curid (d_mem s), m_cur (d_mem s))])) (trunc now (c_dur (c_mem c))) None)
      as (-> & _ & _ & _ & -> & ->). auto. }
  destruct Hf as (F1 & F2 & F3).
  assert (Hst : forall x, in_store g' x = in_store g x) by (intros x; unfold in_store; now rewrite Es).
  assert (Hno : forall t, none_at g t -> none_at g' t) by (intros t [Ht Hk]; split; [lia|now rewrite Es]).
  constructor; cbn [bk_slot bk_wait bk_done bk_all set_mem d_mem d_count d_last]; rewrite ?F1, ?F2, ?F3; auto.
  - rewrite map_app, B2. cbn [map snd]. now rewrite Em, B1.
  - rewrite B3. apply map_ext. intros x. now rewrite Hst.
  - intros x Hx. rewrite Hst, Es. auto.
  - intros x y Hx Hy. rewrite !Hst. auto.
  - intros x Hx. specialize (B7 x Hx). lia.
  - intros x Hx. rewrite Hst. intros H1. specialize (B8 x Hx H1). lia.
  - intros x Hx Hs. rewrite Hst in Hs. right. destruct (B9 x Hx Hs) as [->|[H1|H1]]; [left; apply in_app_iff; right; now left|left; apply in_app_iff; now left|now right].
  - destruct B10 as [P1 P2]. split; [lia|]. intros x Hx Hs. rewrite Hst in Hs. auto.
  - intros t v. destruct (Z.eq_dec t' t) as [<-|Hn].
    + rewrite (afind_aset_same _ Zeqb_iff). congruence.
    + rewrite (afind_aset_other _ Zeqb_iff) by exact Hn. apply B11.
  - intros t Ht. destruct (Z.eq_dec t' t) as [<-|Hn]; [left; now rewrite (afind_aset_same _ Zeqb_iff)|].
    rewrite (afind_aset_other _ Zeqb_iff) by exact Hn.
    assert (Ht' : In t (bk_slot b :: bk_wait b)).
    { destruct Ht as [Ht|Ht]; [congruence|]. apply in_app_iff in Ht as [Ht|[Ht|[]]]; [now right|now left]. }
    destruct (B12 t Ht') as [|[|]]; auto.
  - intros t Ht. destruct (B13 t Ht) as [|]; auto.
  - intros t Ht. destruct (B14 t Ht) as [|]; auto.
  - assert (Hall : Forall (fun u => u <= t') (bk_wait b ++ [bk_slot b])).
    { apply Forall_forall. intros u Hu. enough (u <= bk_slot b) by lia. clear - B15 Hu. apply in_app_iff in Hu as [Hu|[<-|[]]]; [|lia].
      induction (bk_wait b) as [|x r IH]; [destruct Hu|]. cbn [app] in B15. inversion B15 as [|? ? S1 S2]; subst. destruct Hu as [<-|Hu]; [|auto].
      rewrite Forall_forall in S2. apply S2. apply in_app_iff. right. now left. }
    clear - B15 Hall. induction (bk_wait b ++ [bk_slot b]) as [|x r IH]; [repeat constructor|]. cbn [app]. inversion B15; inversion Hall; subst.
    constructor; [auto|]. apply Forall_app. auto.
  - intros t u Ht Hu. apply in_app_iff in Hu as [Hu|[<-|[]]]; [auto|]. enough (t <= bk_slot b) by lia. apply B16; [exact Ht|]. apply in_app_iff. right. now left.
  - rewrite B17. unfold nstored. do 2 f_equal. apply filter_ext. intros x. now rewrite Hst.
  - destruct B18 as [B18|(x & Hx & H1 & H2)]; [now left|right]. exists x. rewrite Hst. auto.
Qed.

Lemma booked_commit c s l g b sl o : booked c s l g b sl -> o = SCommit ->
  booked c (set_mem s (mem_commit (d_mem s))) l g (keep_book (c_dur (c_mem c)) b o) sl.
Proof.
  intros B ->. pose proof B as [B1 B2 B3 B4 B5 B6 B7 B8 B9 B10 B11 B12 B13 B14 B15 B16 B17 B18]. cbn [keep_book]. unfold mem_commit.
  destruct (m_queue (d_mem s)) as [|[id t] q] eqn:Eq; cbn [map snd] in B2.
  { rewrite <- B2. now apply (booked_same c s); cbn [set_mem d_mem d_count d_last]. }
  rewrite <- B2. cbn [map]. set (m1 := set_log (d_mem s) (m_cur (d_mem s)) (m_curid (d_mem s)) q).
  destruct (write_marks m1 id t) as (F1 & F2 & F3 & F4). cbn [m1 set_log m_marks m_released m_queue m_cur] in F1, F2, F3.
  assert (Hm : forall m2, m2 = mark_release (tinyWrite m1 id t) t -> m_queue m2 = q /\
    (forall u v, afind Z.eqb (m_marks m2) u = Some v -> v = 1) /\
    (forall u, afind Z.eqb (m_marks (d_mem s)) u = Some 1 -> afind Z.eqb (m_marks m2) u = Some 1 \/ In u (m_released m2)) /\
    (forall u, In u (m_released (d_mem s)) -> In u (m_released m2)) /\ (forall u, In u (m_released m2) -> u = t \/ In u (m_released (d_mem s))) /\
    (In t (m_released m2) \/ afind Z.eqb (m_marks (d_mem s)) t = None)).
  { intros m2 ->. unfold mark_release. rewrite F1. destruct (afind Z.eqb (m_marks (d_mem s)) t) as [v|] eqn:Ea.
    - pose proof (B11 t v Ea) as ->. cbn [Z.sub Z.ltb]. change (0 <? 1 - 1) with false. cbv iota.
      cbn [set_marks m_queue m_marks m_released]. rewrite F2, F3. split; [reflexivity|]. split; [|split; [|split; [|split]]].
      + intros u v Hu. destruct (Z.eq_dec t u) as [<-|Hn].
        * rewrite (afind_adel_same Z.eqb) in Hu. discriminate.
        * rewrite (afind_adel_other Z.eqb Zeqb_iff) in Hu by exact Hn. now apply B11 in Hu.
      + intros u Hu. destruct (Z.eq_dec t u) as [<-|Hn]; [right; now left|]. left. now rewrite (afind_adel_other Z.eqb Zeqb_iff).
      + intros u Hu. destruct (Z.eq_dec t u) as [<-|Hn]; [now left|]. right. apply filter_In. split; [exact Hu|]. lia.
      + intros u [<-|Hu]; [now left|]. apply filter_In in Hu. tauto.
      + left. now left.
    - rewrite F1, F2, F3. repeat split; auto. }
  destruct (Hm _ eq_refl) as (G1 & G2 & G3 & G4 & G5 & G6). clear Hm. set (m2 := mark_release (tinyWrite m1 id t) t) in *. clearbody m2. clear F1 F2 F3 F4. clear m1.
  assert (Hold : forall u, In u (bk_slot b :: bk_wait b) -> In u (m_released m2) \/ none_at g u \/ afind Z.eqb (m_marks m2) u = Some 1).
  { intros u Hu. destruct (B12 u Hu) as [H|[H|H]]; auto. destruct (G3 u H); auto. }
  constructor; cbn [bk_slot bk_wait bk_done bk_all set_mem d_mem d_count d_last]; auto.
  - now rewrite G1.
  - intros x Hx Hs. destruct (B9 x Hx Hs) as [H|[H|H]]; [now left| |right; right; now right].
    rewrite <- B2 in H. destruct H as [<-|H]; [right; right; now left|right; now left].
  - intros u Hu. assert (Hu' : In u (bk_slot b :: bk_wait b)) by (rewrite <- B2; destruct Hu as [Hu|Hu]; [now left|right; now right]).
    destruct (Hold u Hu') as [H|[H|H]]; auto.
  - intros u Hu. destruct (G5 u Hu) as [->|H]; [left; now left|]. destruct (B13 u H); [left; now right|now right].
  - intros u [<-|Hu].
    + destruct G6 as [H|H]; [now left|]. destruct (B12 t) as [H1|[H1|H1]]; [rewrite <- B2; right; now left|congruence|left; auto|now right].
    + destruct (B14 u Hu); auto.
  - rewrite <- B2 in B15. cbn [app] in B15. now inversion B15.
  - rewrite <- B2 in B15, B16. cbn [app] in B15, B16. intros u v [<-|Hu] Hv.
    + inversion B15 as [|? ? S1 S2]; subst. rewrite Forall_forall in S2. now apply S2.
    + apply B16; [exact Hu|now right].
Qed.

(** ** Sync *)
Lemma timeRefs_in m t : In t (timeRefs m) <-> In t (m_released m) /\ 0 < t < m_cur m.
Proof. unfold timeRefs. rewrite sort_asc_in, filter_In. split; intros [H1 H2]; (split; [exact H1|lia]). Qed.

Lemma booked_sync c s s' l g g' b sl : booked c s l g b sl -> list_part c l (d_seq s) -> m_cur (d_mem s) = g_cur g -> tally s s' l g g' ->
  (forall m, In m l -> (1 <= gm_seq m)%N) ->
  ((d_last s = d_seq s /\ g' = g /\ s' = s) \/ exists now W W', frees now l (d_mem s) g W (timeRefs (d_mem s)) (d_mem s') g' W') ->
  booked c s' l g' (mkBook (bk_slot b) (bk_wait b) (bk_done b) (map (mark_written b) (bk_all b))) sl.
Proof.
  intros B Hl Em (T1 & T2 & T3) Hseq Hd. pose proof B as [B1 B2 B3 B4 B5 B6 B7 B8 B9 B10 B11 B12 B13 B14 B15 B16 B17 B18].
  destruct Hd as [(El & -> & ->)|(now & W & W' & F)].
  { assert (Hall : forall m, In m l -> in_store g m = true).
    { intros m Hm. destruct (in_store g m) eqn:Es; [reflexivity|exfalso]. pose proof (lp_below _ _ _ Hl) as Hb. rewrite Forall_forall in Hb.
      pose proof (Hb m Hm). pose proof (Hseq m Hm). destruct B18 as [E0|(x & Hx & H1 & H2)]; [lia|].
      pose proof (B6 x m Hx Hm H1 Es). pose proof (B5 m x Hm Hx ltac:(lia)). lia. }
    constructor; cbn [bk_slot bk_wait bk_done bk_all]; auto. rewrite B3, map_map. apply map_ext_in. intros x Hx. cbn [mark_written]. now rewrite (Hall x Hx). }
  destruct (frees_slots _ _ _ _ _ _ _ _ _ F) as (F1 & F2 & F3 & F4 & F5 & F6 & F7 & F8 & F9).
  set (due := fun m => (existsb (Z.eqb (sl (gm_seq m))) (bk_done b) && (sl (gm_seq m) <? bk_slot b))%bool).
  assert (Hdue : forall m, In m l -> in_store g m = false -> due m = true <-> In (sl (gm_seq m)) (timeRefs (d_mem s))).
  { intros m Hm Hs. rewrite timeRefs_in. unfold due. rewrite andb_true_iff, existsb_exists. destruct (B4 m Hm Hs) as (v & Hv). split.
    - intros [(t & Ht & E) Hlt]. apply Z.eqb_eq in E. subst t. destruct (B14 _ Ht) as [Hr|[_ Hr]]; [|now apply Hr in Hv].
      split; [exact Hr|]. pose proof (proj2 B10 m Hm Hs). lia.
    - intros [Hr Hlt]. split; [exists (sl (gm_seq m)); split; [|apply Z.eqb_refl]|lia]. destruct (B13 _ Hr) as [|[_ Hn]]; [assumption|now apply Hn in Hv]. }
  assert (Hst : forall m, In m l -> in_store g' m = (in_store g m || due m)%bool).
  { intros m Hm. destruct (in_store g m) eqn:Es; [now rewrite (T3 m Es)|]. cbn [orb]. destruct (B4 m Hm Es) as (v & Hv). specialize (F9 _ _ _ Hv).
    pose proof (Hdue m Hm Es) as Hx. destruct (in_dec Z.eq_dec (sl (gm_seq m)) (timeRefs (d_mem s))) as [Hi|Hn]; unfold in_store; rewrite F9.
    - symmetry. now apply Hx.
    - destruct (due m); [exfalso; apply Hn; now apply Hx|reflexivity]. }
  assert (Hback : forall k t v, g_slot g' k = Held t v -> g_slot g k = Held t v /\ ~ In t (timeRefs (d_mem s))).
  { intros k t v Hk. destruct (g_slot g k) as [|t0 v0|] eqn:E0.
    - rewrite (F7 k E0) in Hk. discriminate.
    - specialize (F9 k t0 v0 E0). destruct (in_dec Z.eq_dec t0 (timeRefs (d_mem s))); rewrite F9 in Hk; [discriminate|]. injection Hk as -> ->. auto.
    - rewrite (F8 k E0) in Hk. discriminate. }
  assert (Hno : forall t, none_at g t -> none_at g' t).
  { intros t [Ht Hk]. split; [lia|]. intros k v H. apply Hback in H as [H _]. now apply Hk in H. }
  assert (Href : forall t, In t (m_released (d_mem s)) -> In t (m_released (d_mem s')) \/ none_at g' t).
  { intros t Ht. destruct (F6 t Ht) as [H|H]; [now left|right]. split; [apply timeRefs_in in H; lia|]. intros k v Hk. apply Hback in Hk. tauto. }
  constructor; cbn [bk_slot bk_wait bk_done bk_all]; rewrite ?F1, ?F2; auto.
  - congruence.
  - rewrite B3, map_map. apply map_ext_in. intros x Hx. cbn [mark_written]. rewrite Hst by exact Hx. reflexivity.
  - intros x Hx Hs. rewrite Hst in Hs by exact Hx. apply orb_false_iff in Hs as [Hs1 Hs2]. destruct (B4 x Hx Hs1) as (v & Hv). exists v. specialize (F9 _ _ _ Hv).
    destruct (in_dec Z.eq_dec (sl (gm_seq x)) (timeRefs (d_mem s))) as [Hi|Hn]; [|exact F9]. apply Hdue in Hi; auto. congruence.
  - intros x y Hx Hy H1 H2. rewrite Hst in H1, H2 by assumption. apply orb_false_iff in H2 as [H2 H3].
    apply orb_true_iff in H1 as [H1|H1]; [auto|]. unfold due in H1, H3. apply andb_true_iff in H1 as [H1 H1'].
    apply existsb_exists in H1 as (t & Ht & E). apply Z.eqb_eq in E. subst t. apply andb_false_iff in H3 as [H3|H3]; [|lia].
    destruct (Z.eq_dec (sl (gm_seq x)) (sl (gm_seq y))) as [E|Hn].
    { assert (existsb (Z.eqb (sl (gm_seq y))) (bk_done b) = true); [|congruence]. apply existsb_exists. exists (sl (gm_seq x)). split; [exact Ht|]. apply Z.eqb_eq. congruence. }
    assert (sl (gm_seq x) <= sl (gm_seq y)); [|lia]. apply B16; [exact Ht|]. apply in_app_iff. destruct (B9 y Hy H2) as [H|[H|H]]; [right; left; congruence|now left|].
    assert (existsb (Z.eqb (sl (gm_seq y))) (bk_done b) = true); [|congruence]. apply existsb_exists. exists (sl (gm_seq y)). split; [exact H|]. apply Z.eqb_refl.
  - intros x Hx. rewrite Hst by exact Hx. intros H. apply orb_true_iff in H as [H|H]; [auto|]. unfold due in H. lia.
  - intros x Hx Hs. rewrite Hst in Hs by exact Hx. apply orb_false_iff in Hs as [Hs _]. auto.
  - destruct B10 as [P1 P2]. split; [exact P1|]. intros x Hx Hs. rewrite Hst in Hs by exact Hx. apply orb_false_iff in Hs as [Hs _]. auto.
  - intros t Ht. destruct (B12 t Ht) as [H|[H|H]]; auto.
  - intros t Ht. destruct (B13 t (F5 t Ht)) as [|]; auto.
  - intros t Ht. destruct (B14 t Ht) as [H|H]; auto.
  - destruct T2 as [E|(m & H1 & H2 & H3)]; [|right; exists m; auto]. rewrite E. destruct B18 as [B18|(m & H1 & H2 & H3)]; [now left|right; exists m; auto].
Qed.

(** * Whole runs *)
Lemma run_book c gens : setting_ok c gens -> forall more ops s l g off H first M T e t b sl,
  inv c s l g off H first M T e t -> booked c s l g b sl -> session_ok c t (map gm_sent l) (ops ++ more) ->
  e + Z.of_nat (length ops + length more) <= 130000 -> Z.of_N (d_seq s) + Z.of_nat (length ops + length more) <= 130000 -> 0 <= t ->
  exists s' outs l' g' off' H' first' M' T' e' t' sl', drun c (Up s) (map as_dop ops) = (Up s', outs) /\
    inv c s' l' g' off' H' first' M' T' e' t' /\ booked c s' l' g' (fold_left (keep_book (c_dur (c_mem c))) ops b) sl' /\
    session_ok c t' (map gm_sent l') more /\ e' + Z.of_nat (length more) <= 130000 /\ Z.of_N (d_seq s') + Z.of_nat (length more) <= 130000 /\ 0 <= t'.
Proof.
  intros Hset more. induction ops as [|o r IH]; intros s l g off H first M T e t b sl Hi B Hok He Hq Ht; cbn [map drun fold_left app].
  - exists s, []. exists l, g, off, H, first, M, T, e, t, sl. cbn [app length Nat.add] in *. auto 10.
  - cbn [session_ok] in Hok. destruct Hok as (Hclk & Hreq & Hrest). cbn [length] in He, Hq.
    pose proof (gi_cur _ _ _ (mp_inv _ _ _ _ (iv_mem _ _ _ _ _ _ _ _ _ _ _ Hi))) as Hcur.
    pose proof (iv_list _ _ _ _ _ _ _ _ _ _ _ Hi) as Hl.
    assert (Hstep : exists s1 x l1 g1 off1 H1 first1 M1 T1 e1 sl1, dstep c (Up s) (as_dop o) = (Up s1, x) /\
      inv c s1 l1 g1 off1 H1 first1 M1 T1 e1 (clock t o) /\ booked c s1 l1 g1 (keep_book (c_dur (c_mem c)) b o) sl1 /\
      map gm_sent l1 = map gm_sent l ++ sends o /\ Z.of_N (d_seq s1) <= Z.of_N (d_seq s) + 1 /\ e1 <= e + 1).
    { destruct o as [now k p payload expires encrypt|now g0 k names limit|now| |now ord|now|]; cbn [as_dop dstep clock sends] in *; rewrite ?app_nil_r in *.
      - destruct (put_step c gens s l g off H first M T e t now k p payload expires encrypt Hset Hi (proj1 Hclk) ltac:(lia) Hreq)
          as (s' & ue & m & g' & Ep & Em & Eq & Hi' & Esq & _ & _ & Habs & Eg & Emp & _).
        destruct (put_entry_count _ _ _ _ _ _ _ Ep) as [E1 E2].
        destruct (booked_put c s s' l g b sl m [mkSent (owner k) p expires payload] B Hl Esq Habs Emp E1 E2 ltac:(now rewrite Em)) as (sl' & B').
        unfold put_arg in Ep. rewrite Ep. cbn [alive].
        exists s', (S_DB.ORes DOk), (l ++ [m]), g', off, H, first, M, T, e, sl'. split; [reflexivity|]. split; [exact Hi'|]. split; [rewrite Eg; exact B'|].
        split; [rewrite map_app; cbn [map]; now rewrite Em|]. lia.
      - destruct (get_step c s l g off H first M T e t now g0 k names limit
                   (match first with None => None | Some h => match find (fun m => (gm_hash m =? h)%N) l with Some m => Some (s_owner (gm_sent m), s_pattern (gm_sent m)) | None => None end end) Hi ltac:(lia) Hreq) as (s' & q' & items & Eg & Hi' & Esq & (qr & qf & qb & Es') & _).
        + intros h ->. destruct (find (fun m => (gm_hash m =? h)%N) l) as [m|] eqn:Ef.
          * apply find_some in Ef as [Hm Eh]. apply N.eqb_eq in Eh. exists m. auto.
          * exfalso. destruct (wp_first _ _ _ _ _ _ _ _ (iv_win _ _ _ _ _ _ _ _ _ _ _ Hi) h eq_refl) as (m & Hm & Eh).
            eapply find_none in Ef; [|exact Hm]. cbv beta in Ef. rewrite Eh, N.eqb_refl in Ef. discriminate.
        + rewrite Eg. cbn [alive_q]. exists s', (OGot (QItems items)), l, g, off, H, first, M, T, e, sl. split; [reflexivity|].
          split; [exact (inv_later _ _ _ _ _ _ _ _ _ _ _ now (so_dur _ _ Hset) (proj1 Hclk) Hi')|]. split; [|split; [reflexivity|lia]].
          rewrite Es'. now apply (booked_same c s).
      - destruct (tick_step c gens s l g off H first M T e t now Hset Hi (proj1 Hclk)) as (g' & Hi' & Eg').
        eexists _, _, l, g', off, H, first, M, T, e, sl. split; [reflexivity|]. split; [exact Hi'|].
        split; [|split; [reflexivity|cbn [set_mem d_seq]; lia]]. cbn [keep_book].
        apply (booked_tick c s l g g' b sl now (so_dur _ _ Hset) B Hcur); [|exact Eg'|].
        + pose proof (iv_cur _ _ _ _ _ _ _ _ _ _ _ Hi). pose proof (trunc_mono t now _ (so_dur _ _ Hset) (proj1 Hclk)). lia.
        + rewrite <- (gi_cur _ _ _ (mp_inv _ _ _ _ (iv_mem _ _ _ _ _ _ _ _ _ _ _ Hi'))). reflexivity.
      - pose proof (commit_step _ _ _ _ _ _ _ _ _ _ _ Hi) as Hi'.
        eexists _, _, l, g, off, H, first, M, T, e, sl. split; [reflexivity|]. split; [exact Hi'|].
        split; [now apply booked_commit|split; [reflexivity|cbn [set_mem d_seq]; lia]].
      - destruct (sync_step c gens s l g off H first M T e t now ord Hset Hi (proj1 Hclk) ltac:(lia) ltac:(lia) Hreq)
          as (s' & g' & off' & H' & first' & M' & T' & Ey & Hi' & Eq & _ & _ & _ & Ht' & Hd). rewrite Ey. cbn [alive].
        exists s', (S_DB.ORes DOk), l, g', off', H', first', M', T', (e + 1), sl. split; [reflexivity|]. split; [exact Hi'|].
        split; [|split; [reflexivity|lia]]. cbn [keep_book]. apply (booked_sync c s s' l g g' b sl B Hl Hcur Ht').
        + intros m Hm. pose proof (lp_ok _ _ _ Hl) as Hk. rewrite Forall_forall in Hk. pose proof (gk_seq _ _ (Hk m Hm)). lia.
        + destruct Hd as [Hd|(W & W' & Hd)]; [now left|right; eauto].
      - destruct (new_id_step c s l g off H first M T e t now Hi ltac:(lia)) as [Hi' Eq].
        destruct (db_new_id s now) as [s' id] eqn:En. cbn [fst] in *.
        eexists s', _, l, g, off, H, first, M, T, e, sl. split; [reflexivity|].
        split; [exact (inv_later _ _ _ _ _ _ _ _ _ _ _ now (so_dur _ _ Hset) (proj1 Hclk) Hi')|]. split; [|split; [reflexivity|lia]].
        unfold db_new_id in En. injection En as <- _. now apply (booked_same c s).
      - eexists _, _, l, g, off, H, first, M, T, e, sl. split; [reflexivity|]. split; [exact Hi|]. split; [exact B|]. split; [reflexivity|lia]. }
    destruct Hstep as (s1 & x & l1 & g1 & off1 & H1 & first1 & M1 & T1 & e1 & sl1 & Es & Hi1 & B1 & El & Eq & Ee).
    destruct (IH s1 l1 g1 off1 H1 first1 M1 T1 e1 (clock t o) _ sl1 Hi1 B1) as (s' & outs & l' & g' & off' & H' & first' & M' & T' & e' & t' & sl' & Er & Hi' & B' & Hm'); try lia.
    { rewrite El. exact Hrest. }
    exists s', (x :: outs), l', g', off', H', first', M', T', e', t', sl'. rewrite Es, Er. auto.
Qed.

Lemma booked_open c gens t s : setting_ok c gens -> c_dur (c_mem c) <= t -> mem_open (c_mem c) gens [] t = Some (d_mem s) -> d_count s = 0%N -> d_last s = 0%N ->
  booked c s [] (gstart (c_mem c) t) (mkBook (t - t mod c_dur (c_mem c)) [] [] []) (fun _ => 0).
Proof.
  intros Hset Ht Em Ec El. unfold mem_open in Em. cbn [replay all_ids flat_map map recover_logs fold_left] in Em. injection Em as Em.
  pose proof (so_dur _ _ Hset) as Hd. pose proof (trunc_pos t _ Hd Ht) as Hp. unfold trunc in Hp.
  constructor; cbn [bk_slot bk_wait bk_done bk_all map]; rewrite <- ?Em, ?Ec, ?El; try reflexivity; try (intros m Hm; now destruct Hm); try (intros m1 m2 Hm; now destruct Hm); try (now left); auto.
  - split; [exact Hp|intros m []].
  - intros u v. cbn. unfold trunc. destruct (_ =? u); congruence.
  - intros u [<-|[]]. left. cbn. unfold trunc. now rewrite Z.eqb_refl.
  - repeat constructor.
Qed.

Lemma book_end c gens t ord immut enc ops more : setting_ok c gens -> c_dur (c_mem c) <= t -> session_ok c t [] (ops ++ more) -> (N.of_nat (length (ops ++ more)) <= 130000)%N ->
  exists s outs l g off H first M T e t' sl, drun c (Down no_files) (DoOpen gens t ord immut enc :: map as_dop ops) = (Up s, OOpened true :: outs) /\
    inv c s l g off H first M T e t' /\ booked c s l g (book_of (c_dur (c_mem c)) t ops) sl /\
    session_ok c t' (map gm_sent l) more /\ e + Z.of_nat (length more) <= 130000 /\ Z.of_N (d_seq s) + Z.of_nat (length more) <= 130000 /\ 0 <= t'.
Proof.
  intros Hset Ht Hok Hn. rewrite app_length in Hn. pose proof (so_dur _ _ Hset) as Hd. destruct (open_step c gens t ord immut enc Hset ltac:(lia)) as (s & Eo & Eq & Hi & Em & Ec & El).
  pose proof (booked_open c gens t s Hset Ht Em Ec El) as B.
  destruct (run_book c gens Hset more ops s [] _ _ _ _ _ _ _ _ _ _ Hi B Hok ltac:(lia) ltac:(lia) ltac:(lia)) as (s' & outs & l' & g' & off' & H' & first' & M' & T' & e' & t' & sl' & Er & Hi' & B' & Hm').
  cbn [drun dstep]. rewrite Eo, Er. exists s', outs, l', g', off', H', first', M', T', e', t', sl'. auto.
Qed.

Lemma written_eq c s l g b sl : booked c s l g b sl -> written_of b = map gm_sent (filter (in_store g) l).
Proof.
  intros B. unfold written_of. rewrite (bi_all _ _ _ _ _ _ B). clear B. induction l as [|m r IH]; [reflexivity|]. cbn [map filter fst snd].
  destruct (in_store g m); cbn [map snd]; now rewrite IH.
Qed.

Lemma drun_snoc c : forall ops w o w' outs, drun c w ops = (w', outs) -> drun c w (ops ++ [o]) = (fst (dstep c w' o), outs ++ [snd (dstep c w' o)]).
Proof.
  induction ops as [|a r IH]; intros w o w' outs E; cbn [app drun] in *.
  - injection E as <- <-. destruct (dstep c w o); reflexivity.
  - destruct (dstep c w a) as [w1 x1]. destruct (drun c w1 r) as [w2 xs] eqn:Er. injection E as <- <-. now rewrite (IH _ o _ _ Er).
Qed.

Lemma count_session c gens t ord immut enc ops : setting_ok c gens -> c_dur (c_mem c) <= t -> session_ok c t [] ops -> (N.of_nat (length ops) <= 130000)%N ->
  exists outs, snd (drun c (Down no_files) (DoOpen gens t ord immut enc :: map as_dop ops ++ [DoCount])) =
    outs ++ [OCount (N.of_nat (length (written_of (book_of (c_dur (c_mem c)) t ops))))].
Proof.
  intros Hset Ht Hok Hn. destruct (book_end c gens t ord immut enc ops [] Hset Ht ltac:(now rewrite app_nil_r) ltac:(now rewrite app_nil_r)) as (s & outs & l & g & off & H & first & M & T & e & t' & sl & E & Hi & B & _).
  exists (OOpened true :: outs). rewrite app_comm_cons, (drun_snoc _ _ _ _ _ _ E). cbn [snd dstep]. do 3 f_equal.
  rewrite (written_eq _ _ _ _ _ _ B), map_length. pose proof (bi_count _ _ _ _ _ _ B) as Hc. unfold nstored in Hc. lia.
Qed.

Lemma files_booked c s l g off H first M T e t b sl : inv c s l g off H first M T e t -> booked c s l g b sl ->
  exists qs, NoDup qs /\ Forall2 (on_file c (on_disk s)) qs (written_of b).
Proof.
  intros Hi B. pose proof (iv_list _ _ _ _ _ _ _ _ _ _ _ Hi) as Hl.
  exists (map gm_seq (filter (in_store g) l)). split; [apply sorted_nodup, sorted_filter; exact (lp_sorted _ _ _ Hl)|].
  rewrite (written_eq _ _ _ _ _ _ B).
  assert (Hall : forall m, In m (filter (in_store g) l) -> on_file c (on_disk s) (gm_seq m) (gm_sent m)).
  { intros m Hm. apply filter_In in Hm as [Hm Hs]. pose proof (lp_ok _ _ _ Hl) as Hk. rewrite Forall_forall in Hk. specialize (Hk m Hm).
    destruct (sp_read _ _ _ _ _ _ (iv_store _ _ _ _ _ _ _ _ _ _ _ Hi) m Hm Hs) as (o & Ho & Hre & Hra). pose proof (gm_body_len c m Hk) as Lb.
    destruct (read_parts (d_data s) o (gm_seq m) (gm_id m) (gm_raw m) (gm_val m)) as [Rm _]; auto.
    - exact (gk_id _ _ Hk).
    - pose proof (gk_raw _ _ Hk). lia.
    - fold (gm_body m). rewrite Lb. pose proof (gk_raw _ _ Hk). pose proof (gk_len _ _ Hk). lia.
    - eexists _, _, _. split; [exact Hre|]. split; [reflexivity|]. split; [exact Rm|]. exact (gm_decode c m Hk). }
  induction (filter (in_store g) l) as [|m r IH]; cbn [map]; constructor; [apply Hall; now left|]. apply IH. intros x Hx. apply Hall. now right.
Qed.
Lemma files_session c gens t ord immut enc ops : setting_ok c gens -> c_dur (c_mem c) <= t -> session_ok c t [] ops -> (N.of_nat (length ops) <= 130000)%N ->
  exists s, fst (drun c (Down no_files) (DoOpen gens t ord immut enc :: map as_dop ops)) = Up s /\
    exists qs, NoDup qs /\ Forall2 (on_file c (on_disk s)) qs (written_of (book_of (c_dur (c_mem c)) t ops)).
Proof.
  intros Hset Ht Hok Hn. destruct (book_end c gens t ord immut enc ops [] Hset Ht ltac:(now rewrite app_nil_r) ltac:(now rewrite app_nil_r)) as (s & outs & l & g & off & H & first & M & T & e & t' & sl & E & Hi & B & _).
  exists s. rewrite E. split; [reflexivity|]. eapply files_booked; eassumption.
Qed.
