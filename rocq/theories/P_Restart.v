(** Proofs about restarts: what has to be kept for the next Open. *)
From Verif Require Import M_Bytes P_Bytes M_File M_Hash M_Bloom M_Entry P_Codec M_MsgId M_Mac P_Mac M_Topic M_Trie M_Query M_IndexBlock M_Lease
  M_BlockRange M_BlockStore M_WinBlock M_Wal M_MemDB M_Window M_Get M_DB S_Trie S_Window S_BlockStore S_MemDB S_Get S_DB S_Session S_Restart
  P_Topic P_Trie P_Trie2 P_Trie3 P_BlockStore4 P_Window2 P_Window3 P_Window4 P_WinOpen P_Get P_MemBlock P_MemDB P_MemGet P_MemLog P_MemWal P_MemKeep P_DB
  P_Session P_Session2 P_Session3 P_Session4.
From Coq Require Import Lia ZifyBool ZifyNat ZifyN Permutation Sorted.
Open Scope Z_scope.

(** The first message of a topic carries it. *)
Definition own_raw (m : gmsg) : bytes :=
  topic_marshal (t_parts (filed (s_owner (gm_sent m)) (text (s_pattern (gm_sent m))))) (t_depth (filed (s_owner (gm_sent m)) (text (s_pattern (gm_sent m))))).
Definition raws (l : list gmsg) : Prop := forall a m b, l = a ++ m :: b ->
  gm_raw m = if existsb (fun x => (gm_hash x =? gm_hash m)%N) a then [] else own_raw m.

Record kept (c : dcfg) (s : db) (l : list gmsg) (g : gstate) (off : offsets) (H : hist) (first : option N) (t : Z) : Prop := {
  ke_mem : exists L, mkeep (d_mem s) (g_slot g) L /\ (forall q, In q (map fst (pending (d_mem s))) -> 0 <= q <= t);
  ke_lease : d_lease s = newLease (c_find c) (c_min c);
  ke_cur : 0 < g_cur g;
  ke_pos : forall k u v, g_slot g k = Held u v -> 0 < u;
  ke_order : forall m1 m2, In m1 l -> In m2 l -> in_store g m1 = true -> in_store g m2 = false -> (gm_seq m1 < gm_seq m2)%N;
  ke_raws : raws l;
  ke_win : owin (fview (d_win s)) off H first
}.

Lemma kept_later c s l g off H first t t' : t <= t' -> kept c s l g off H first t -> kept c s l g off H first t'.
Proof.
  intros Ht [(L & K1 & K3) K4 K5 K6 K7 K8 K9]. split; auto. exists L. split; [exact K1|].
  intros q Hq; specialize (K3 q Hq); lia.
Qed.

(** * Put *)
Lemma raws_snoc l m : raws l -> gm_raw m = (if existsb (fun x => (gm_hash x =? gm_hash m)%N) l then [] else own_raw m) -> raws (l ++ [m]).
Proof.
  intros Hr Hm a m' b E. destruct (exists_last (l := m' :: b)) as (b' & y & Eb); [discriminate|].
  destruct b as [|b0 b1].
  - apply app_inj_tail in E as [-> ->]. exact Hm.
  - destruct b' as [|b2 b']; [discriminate|]. cbn [app] in Eb. injection Eb as <- Eb.
    rewrite Eb in E. change (a ++ m' :: b' ++ [y]) with (a ++ (m' :: b') ++ [y]) in E. rewrite app_assoc in E.
    apply app_inj_tail in E as [-> _]. now apply (Hr a m' b').
Qed.
Lemma find_existsb {A} (f : A -> bool) l : existsb f l = match find f l with Some _ => true | None => false end.
Proof. induction l as [|x r IH]; cbn; [reflexivity|]. destruct (f x); [reflexivity|exact IH]. Qed.

Lemma kept_put c s s' l g off H first M T e t m : inv c s l g off H first M T e t -> kept c s l g off H first t ->
  gm_ok c m -> gm_seq m = (d_seq s + 1)%N -> gm_raw m = raw_of s (s_owner (gm_sent m)) (s_pattern (gm_sent m)) -> g_slot g (gm_seq m) = Absent ->
  mem_put (c_mem c) (d_mem s) (gm_seq m) (gm_cache m) = (d_mem s', MOk) -> d_win s' = d_win s -> d_lease s' = d_lease s ->
  kept c s' (l ++ [m]) (gset g (gm_seq m) (Held (g_cur g) (gm_cache m))) off H first t.
Proof.
  intros Hi [(L & K1 & K3) K4 K5 K6 K7 K8 K9] Hok Eseq Eraw Habs Ep Ew El.
  pose proof Hi as [Icl Ienc Il Im Itw Iwin Ist Itr Icur IT].
  assert (Hlt : forall x, In x l -> (gm_seq x < gm_seq m)%N).
  { intros x Hx. pose proof (lp_below _ _ _ Il) as Hb. rewrite Forall_forall in Hb. specialize (Hb x Hx). lia. }
  assert (Epend : pending (d_mem s') = pending (d_mem s)).
  { unfold mem_put in Ep. destruct (put_fields _ _ _ _ _ _ _ Ep) as (_ & F1 & F2 & F3 & _). unfold pending. now rewrite F1, F2, F3. }
  split.
  - exists L. split.
    + eapply keep_put; [exact (mp_inv _ _ _ _ Im)|exact K1|exact (gk_item _ _ Hok)|exact Habs| |exact Ep|reflexivity].
      intros k' t' v' Hk. destruct (mp_held _ _ _ _ Im _ _ _ Hk) as (x & Hx & <- & _). now apply Hlt.
    + now rewrite Epend.
  - now rewrite El.
  - exact K5.
  - intros k u v. unfold gset; cbn [g_slot]. destruct (N.eqb_spec k (gm_seq m)); [intros [= <- _]; exact K5|apply K6].
  - assert (Hne : forall x, In x l -> in_store (gset g (gm_seq m) (Held (g_cur g) (gm_cache m))) x = in_store g x).
    { intros x Hx. unfold in_store, gset; cbn [g_slot]. specialize (Hlt x Hx). destruct (N.eqb_spec (gm_seq x) (gm_seq m)); [lia|reflexivity]. }
    intros m1 m2 H1 H2 E1 E2. apply in_app_iff in H1, H2. destruct H1 as [H1|[<-|[]]].
    + rewrite (Hne m1 H1) in E1. destruct H2 as [H2|[<-|[]]]; [|now apply Hlt]. rewrite (Hne m2 H2) in E2. now apply K7.
    + unfold in_store, gset in E1. cbn [g_slot] in E1. rewrite N.eqb_refl in E1. discriminate.
  - apply raws_snoc; [exact K8|]. rewrite Eraw. unfold raw_of. fold (own_raw m). destruct Itr as (Mt & Htr & EM).
    change (get_hash (s_owner (gm_sent m)) (filed (s_owner (gm_sent m)) (text (s_pattern (gm_sent m))))) with (gm_hash m).
    rewrite (tries_offset _ _ _ Htr), EM, find_existsb. unfold topic_of. destruct (find _ l); reflexivity.
  - now rewrite Ew.
Qed.

(** * Get, NewID, ticks *)
Lemma kept_get c s l g off H first t qr qf qb : kept c s l g off H first t ->
  kept c (set_mem s (set_query (d_mem s) qr qf qb)) l g off H first t.
Proof.
  intros [(L & K1 & K3) K4 K5 K6 K7 K8 K9]. split; auto. exists L. split; [|exact K3].
  eapply keep_same; [exact K1|tauto|reflexivity..].
Qed.
Lemma kept_id c s l g off H first t now : kept c s l g off H first t -> kept c (fst (db_new_id s now)) l g off H first t.
Proof. intros [K1 K4 K5 K6 K7 K8 K9]. split; auto. Qed.

Lemma kept_tick c gens s l g g' off H first M T e t now : setting_ok c gens -> inv c s l g off H first M T e t -> kept c s l g off H first t -> t < now ->
  inv c (set_mem s (mem_tick (c_mem c) (d_mem s) now None)) l g' off H first M T e now -> g_slot g' = g_slot g -> c_dur (c_mem c) <= now ->
  kept c (set_mem s (mem_tick (c_mem c) (d_mem s) now None)) l g' off H first now.
Proof.
  intros Hset Hi [(L & K1 & K3) K4 K5 K6 K7 K8 K9] Ht Hi' Es Hdur.
  pose proof (so_dur _ _ Hset) as Hd. pose proof (iv_mem _ _ _ _ _ _ _ _ _ _ _ Hi) as Im. pose proof (iv_cur _ _ _ _ _ _ _ _ _ _ _ Hi) as Icur.
  assert (Hcid : 0 <= m_curid (d_mem s) <= t).
  { apply K3. unfold pending. rewrite map_app. apply in_or_app. right. now left. }
  pose proof (gi_cur _ _ _ (mp_inv _ _ _ _ (iv_mem _ _ _ _ _ _ _ _ _ _ _ Hi'))) as Ec'.
  cbn [set_mem d_mem] in Ec'. 
  assert (Ecur' : m_cur (mem_tick (c_mem c) (d_mem s) now None) = trunc now (c_dur (c_mem c)) /\ pending (mem_tick (c_mem c) (d_mem s) now None) = pending (d_mem s) ++ [(now, trunc now (c_dur (c_mem c)))]).
  { unfold mem_tick, newTinyLog, pending. cbn [m_marks m_released m_cur m_queue m_curid set_log mark_add set_marks].
    destruct (add_fields (set_log (d_mem s) (m_cur (d_mem s)) (m_curid (d_mem s)) (m_queue (d_mem s) ++ [(m_curid (d_mem s), m_cur (d_mem s))])) (trunc now (c_dur (c_mem c))) None)
      as (-> & _). split; reflexivity. }
  destruct Ecur' as [Ecur' Epend].
  assert (Hin : forall x, in_store g' x = in_store g x) by (intros x; unfold in_store; now rewrite Es).
  split; cbn [set_mem d_mem d_lease d_win]; auto.
  - exists L. rewrite Es. split.
    + eapply keep_tick; [exact (mp_inv _ _ _ _ Im)|exact K1|lia|]. rewrite (gi_cur _ _ _ (mp_inv _ _ _ _ Im)).
      etransitivity; [exact Icur|]. apply trunc_mono; lia.
    + rewrite Epend. rewrite map_app. cbn [map fst]. intros q Hq. apply in_app_iff in Hq as [Hq|[<-|[]]]; [specialize (K3 q Hq); lia|lia].
  - rewrite <- Ec', Ecur'. unfold trunc. pose proof (Z.mod_pos_bound now (c_dur (c_mem c)) Hd). pose proof (Z.mod_le now (c_dur (c_mem c))). 
    pose proof (Z.div_mod now (c_dur (c_mem c)) ltac:(lia)). pose proof (Z.div_str_pos now (c_dur (c_mem c)) ltac:(lia)). nia.
  - rewrite Es. exact K6.
  - intros m1 m2 H1 H2. rewrite !Hin. now apply K7.
Qed.

(** * The log *)
Lemma encs_weight c l rs : Forall (gm_ok c) l -> NoDup (map fst rs) ->
  (forall k v, In (k, v) rs -> fst k = false /\ exists m, In m l /\ gm_seq m = snd k /\ v = gm_cache m) ->
  (N.of_nat (length (encs rs)) <= total c (map gm_sent l))%N.
Proof.
  revert l. induction rs as [|[k v] rs IH]; intros l Hok Hn Hin; [cbn; lia|].
  cbn [map fst] in Hn. inversion Hn as [|? ? Hk Hn']; subst.
  destruct (Hin k v (or_introl eq_refl)) as (Ek & m & Hm & Eq & ->). apply in_split in Hm as (a & b & ->).
  apply Forall_app in Hok as [Ha Hb]. inversion Hb as [|? ? Hok Hb']; subst.
  assert (Ht : total c (map gm_sent (a ++ m :: b)) = (weight c (gm_sent m) + total c (map gm_sent (a ++ b)))%N).
  { rewrite !map_app. cbn [map]. unfold total. clear. generalize (map gm_sent a). induction l as [|x r IH]; cbn [app fold_right]; [reflexivity|]. rewrite IH. apply N.add_shuffle3. }
  rewrite Ht, encs_cons, app_length, enc_length. cbn [snd].
  specialize (IH (a ++ b)). rewrite Nat2N.inj_add.
  assert (Hc : (N.of_nat (length (gm_cache m) + 13) <= weight c (gm_sent m))%N).
  { unfold gm_cache, weight. rewrite app_length, entry_marshal_length, (gm_body_len c m Hok). pose proof (gk_raw _ _ Hok). pose proof (gk_size _ _ Hok). unfold entrySize. lia. }
  enough (N.of_nat (length (encs rs)) <= total c (map gm_sent (a ++ b)))%N by lia. apply IH.
  - now apply Forall_app.
  - exact Hn'.
  - intros k' v' Hi. destruct (Hin k' v' (or_intror Hi)) as (Ek' & m' & Hm' & Eq' & Ev). split; [exact Ek'|]. exists m'. split; [|auto].
    apply in_app_iff in Hm'. apply in_app_iff. destruct Hm' as [Hm'|[<-|Hm']]; auto.
    exfalso. apply Hk. apply in_map_iff. exists (k', v'). split; [|exact Hi]. cbn [fst]. destruct k, k'; cbn in *; congruence.
Qed.
Lemma kept_fits c s l g off H first M T e t : inv c s l g off H first M T e t -> kept c s l g off H first t ->
  (total c (map gm_sent l) + 4 < 2 ^ 32)%N -> fits (d_mem s).
Proof.
  intros Hi [(L & K1 & K3) K4 K5 K6 K7 K8 K9] Hw u refs last d E.
  destruct (mw_view _ _ _ _ (wl_mem _ _ _ _ (kp_wal _ _ _ K1)) _ _ _ _ E) as (rs & B).
  rewrite (bv_data _ _ _ _ _ _ _ _ B). eapply N.le_lt_trans; [apply N.add_le_mono_r, (encs_weight c l)|exact Hw].
  - exact (lp_ok _ _ _ (iv_list _ _ _ _ _ _ _ _ _ _ _ Hi)).
  - exact (bv_keys _ _ _ _ _ _ _ _ B).
  - intros k v Hin. destruct (bv_slot _ _ _ _ _ _ _ _ B k v Hin) as [Ek Es]. split; [exact Ek|].
    exact (mp_held _ _ _ _ (iv_mem _ _ _ _ _ _ _ _ _ _ _ Hi) _ _ _ Es).
Qed.
Lemma kept_commit c s l g off H first M T e t : inv c s l g off H first M T e t -> kept c s l g off H first t ->
  (total c (map gm_sent l) + 4 < 2 ^ 32)%N -> t < 2 ^ 63 -> kept c (set_mem s (mem_commit (d_mem s))) l g off H first t.
Proof.
  intros Hi K Hw Ht. pose proof (kept_fits _ _ _ _ _ _ _ _ _ _ _ Hi K Hw) as Hf. destruct K as [(L & K1 & K3) K4 K5 K6 K7 K8 K9].
  destruct (keep_commit (d_mem s) (g_slot g) L (gi_w _ _ _ (mp_inv _ _ _ _ (iv_mem _ _ _ _ _ _ _ _ _ _ _ Hi))) K1 Hf) as (L' & C1 & C2 & C3 & C4).
  { intros id Hid. specialize (K3 id Hid). lia. }
  split; auto. exists L'. split; [exact C1|]. intros q Hq. apply K3. now apply C3.
Qed.
