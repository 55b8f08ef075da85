(** Proofs about sessions: Put, ticks, logs, identifiers. *)
From Verif Require Import M_Bytes P_Bytes M_File M_Hash M_Bloom M_Entry P_Codec M_MsgId M_Mac P_Mac M_Topic M_Trie M_Query M_IndexBlock M_Lease
  M_BlockStore M_WinBlock M_Wal M_MemDB M_Window M_Get M_DB S_Trie S_Window S_BlockStore S_MemDB S_Get S_DB S_Session
  P_Topic P_Trie P_Trie2 P_Trie3 P_BlockStore4 P_Window4 P_WindowEx P_Get P_MemBlock P_MemDB P_MemGet P_DB P_Session P_Session2.
From Coq Require Import Lia ZifyBool ZifyNat ZifyN Permutation Sorted.
Open Scope Z_scope.

(** * Bytes *)
Lemma le_bytes n : forall x, Forall is_byte (le n x).
Proof.
  induction n as [|n IH]; intros x; cbn [le]; constructor; [|apply IH]. unfold is_byte. apply N.mod_lt. discriminate.
Qed.
Lemma firstn_bytes n (l : bytes) : Forall is_byte l -> Forall is_byte (firstn n l).
Proof. intros H. rewrite <- (firstn_skipn n l) in H. now apply Forall_app in H as [H _]. Qed.
Lemma skipn_bytes n (l : bytes) : Forall is_byte l -> Forall is_byte (skipn n l).
Proof. intros H. rewrite <- (firstn_skipn n l) in H. now apply Forall_app in H as [_ H]. Qed.
Lemma u8_byte x : is_byte (u8 x).
Proof. unfold is_byte, u8. apply N.mod_lt. discriminate. Qed.
Lemma encrypt_bytes m src v : (forall n p, Forall is_byte p -> Forall is_byte (seal (m_parent m) n p)) ->
  Forall is_byte src -> mac_encrypt m src = Some v -> Forall is_byte v.
Proof.
  intros Hs Hb. unfold mac_encrypt. destruct (Nat.ltb _ _); [discriminate|]. intros E. apply Some_inj in E. subst v.
  rewrite !Forall_app. repeat split; [now apply firstn_bytes| |apply Hs; now apply skipn_bytes].
  unfold mac_signature. repeat constructor; apply u8_byte.
Qed.
Lemma entry_bytes x : Forall is_byte (entry_marshal x).
Proof. unfold entry_marshal. rewrite !Forall_app. repeat split; apply le_bytes. Qed.
Lemma topic_bytes_ok ps d : (d < 256)%N -> Forall is_byte (topic_marshal ps d).
Proof.
  intros Hd. unfold topic_marshal. constructor; [exact Hd|]. induction ps as [|p r IH]; [constructor|]. cbn [map concat]. apply Forall_app.
  split; [|exact IH]. unfold part_marshal. constructor; [apply u8_byte|apply le_bytes].
Qed.
Lemma compiled_short k ls ps : compiled k ls ps -> (length ps <= length ls)%nat.
Proof. induction 1 as [|n j ls ps H IH]; cbn [length]; [lia|]. rewrite app_length, repeat_length. lia. Qed.
Lemma plain_raw k p : plain k p ->
  (length (topic_marshal (t_parts (filed k (text p))) (t_depth (filed k (text p)))) <= 2000)%nat /\
  Forall is_byte (topic_marshal (t_parts (filed k (text p))) (t_depth (filed k (text p)))).
Proof.
  intros Hp. destruct (filed_plain k p (text p) Hp (or_introl eq_refl)) as (ps & H1 & H2 & H3 & _).
  unfold fparts, fdepth in *. destruct Hp as (_ & _ & _ & _ & Hl & _). pose proof (compiled_short _ _ _ H1) as Hs.
  split.
  - rewrite topic_marshal_length, H2. cbn [length]. rewrite app_length. destruct (pt_multi p); cbn [length]; lia.
  - apply topic_bytes_ok. rewrite H3. destruct (pt_multi p); cbn [b2n]; lia.
Qed.
Lemma hash_range k txt : (k < 2 ^ 32)%N -> (get_hash k (filed k txt) < 2 ^ 64)%N.
Proof.
  intros Hk. unfold get_hash. assert (H : forall x, (u64 x < 2 ^ 64)%N) by (intros x; apply N.mod_lt; discriminate).
  destruct (t_parts _) as [|a [|b r]]; [lia|lia|apply H].
Qed.
Lemma trunc_mono a b d : 0 < d -> a <= b -> trunc a d <= trunc b d.
Proof. intros Hd H. unfold trunc. pose proof (Z.div_mod a d ltac:(lia)). pose proof (Z.div_mod b d ltac:(lia)). pose proof (Z.div_le_mono a b d Hd H). nia. Qed.
Lemma unix_mono a b : a <= b -> unix a <= unix b.
Proof. intros H. unfold unix. apply Z.div_le_mono; lia. Qed.

(** * Put *)
Definition put_arg (p : pattern) (payload : bytes) (expires k : N) (encrypt : bool) : uentry :=
  mkUE None (text p) payload expires k encrypt None 0.
Definition raw_of (s : db) (k : N) (p : pattern) : bytes :=
  match getOffset (d_trie s) (get_hash k (filed k (text p))) with
  | Some _ => []
  | None => topic_marshal (t_parts (filed k (text p))) (t_depth (filed k (text p)))
  end.

Lemma plain_text k p : plain k p -> text p <> [].
Proof. apply text_ne. Qed.
Lemma set_contract_id id k : length id = 16%nat -> (k < 2 ^ 32)%N ->
  let i := id_prefix (id_setContract id k) ++ [1%N] in
  length i = 9%nat /\ id_contract i = k /\ nth 8 i 0%N = 1%N.
Proof.
  intros Hl Hk i. unfold i, id_prefix, id_setContract, id_contract.
  do 16 (destruct id as [|? id]; [discriminate|]). destruct id; [|discriminate]. unfold slice. cbn [firstn skipn app length nth le].
  repeat split. cbn [unle]. pose proof (N.div_mod k 256 ltac:(lia)). pose proof (N.div_mod (k/256) 256 ltac:(lia)).
  pose proof (N.div_mod (k/256/256) 256 ltac:(lia)). assert (k / 256 / 256 / 256 < 256)%N.
  { rewrite !N.div_div by lia. apply N.div_lt_upper_bound; lia. }
  assert ((k / 256 / 256 / 256) mod 256 = k / 256 / 256 / 256)%N by (apply N.mod_small; assumption). lia.
Qed.
Lemma new_id_length now seq : length (newID now seq) = 16%nat.
Proof. reflexivity. Qed.

Lemma set_entry_session c gens s l now k p payload expires encrypt : setting_ok c gens -> d_enc s = 1%N ->
  (d_seq s + 1 <= 130000)%N -> put_ok c (map gm_sent l) k p payload expires ->
  exists e' m, set_entry c s now (put_arg p payload expires k encrypt) = SOk (next_seq s) e' (gm_entry m) (gm_cache m) /\
    gm_sent m = mkSent (owner k) p expires payload /\ gm_seq m = (d_seq s + 1)%N /\ gm_raw m = raw_of s (owner k) p /\ gm_ok c m /\
    gm_id m = id_prefix (id_setContract (newID (unix now) (d_seq s + 1)) (owner k)) ++ [1%N].
Proof.
  intros Hset Henc Hseq [Hk Hpl Htop (Hpay & Hplen & Hpb) Hfour Hexp _]. pose proof Hset as [_ _ Hun Hsn Hsl Hae Hse _].
  assert (Hok : (owner k < 2 ^ 32)%N) by (apply Hpl).
  destruct (mac_roundtrip_total (c_mac c) (c_snap c payload) Hae Hfour) as (v & Ev & Lv & Dv).
  assert (Hvb : Forall is_byte v) by (eapply encrypt_bytes; [exact Hse|apply Hsn; exact Hpb|exact Ev]).
  assert (Hvl : (N.of_nat (length v) < 2 ^ 31 + 100)%N) by (specialize (Hsl payload Hplen); lia).
  set (raw := raw_of s (owner k) p).
  assert (Hraw : (length raw <= 2000)%nat /\ Forall is_byte raw).
  { unfold raw, raw_of. destruct (getOffset _ _); [split; [cbn; lia|constructor]|]. now apply plain_raw. }
  assert (E1 : u64 (d_seq s + 1) = (d_seq s + 1)%N) by (apply next_num; lia).
  destruct (set_contract_id (newID (unix now) (d_seq s + 1)) (owner k) (new_id_length _ _) Hok) as (I1 & I2 & I3).
  set (idb := id_prefix (id_setContract (newID (unix now) (d_seq s + 1)) (owner k)) ++ [1%N]) in *.
  set (m := mkGM (d_seq s + 1) (mkSent (owner k) p expires payload) raw idb v).
  assert (Hib : Forall is_byte idb).
  { unfold idb. apply Forall_app. split; [|repeat constructor]. apply firstn_bytes. unfold id_setContract. rewrite !Forall_app.
    assert (Forall is_byte (newID (unix now) (d_seq s + 1))) as Hn by (unfold newID; rewrite !Forall_app; repeat split; apply le_bytes).
    repeat split; [now apply firstn_bytes|apply le_bytes|]. unfold slice. now apply firstn_bytes, skipn_bytes. }
  exists (mkUE None (text p) payload expires (owner k) encrypt (Some (get_hash (owner k) (filed (owner k) (text p)))) (N.of_nat (length raw))), m.
  assert (Hlev : Forall level_ok (pt_levels p)) by apply Hpl.
  split.
  - unfold set_entry, put_arg. cbn [u_contract u_topic u_hash u_id u_payload u_expires u_encrypt u_tsize]. fold (owner k). cbv zeta.
    fold (filed (owner k) (text p)). fold (raw_of s (owner k) p). fold raw.
    cbn [u_contract u_topic u_hash u_id u_payload u_expires u_encrypt u_tsize].
    rewrite (no_options (owner k) p Hlev (plain_text _ _ Hpl)). unfold entry_expiry. cbn [topic_ttl get_option].
    assert (Eexp : (if ((expires =? 0)%N && (0 <? 0)%N)%bool then 0%N else expires) = expires) by (destruct (expires =? 0)%N; reflexivity).
    rewrite Eexp.
    assert (Ets : match raw with [] => 0%N | _ :: _ => u16 (N.of_nat (length raw)) end = N.of_nat (length raw)).
    { destruct raw as [|b r] eqn:Er; [reflexivity|]. rewrite <- Er in *. unfold u16. apply N.mod_small. lia. }
    change (match getOffset (d_trie s) (get_hash (owner k) (filed (owner k) (text p))) with
            | Some _ => []
            | None => topic_marshal (t_parts (filed (owner k) (text p))) (t_depth (filed (owner k) (text p)))
            end) with raw.
    rewrite Ets. change (d_seq (next_seq s)) with (u64 (d_seq s + 1)). rewrite E1.
    destruct (N.eqb_spec (d_seq s + 1) 0); [lia|]. change (d_enc (next_seq s)) with (d_enc s). rewrite Henc. cbn [N.eqb Pos.eqb orb]. rewrite Ev.
    assert (Ev32 : u32 (N.of_nat (length v)) = N.of_nat (length v)) by (unfold u32; apply N.mod_small; lia). rewrite Ev32.
    f_equal. unfold gm_cache, gm_entry, gm_body, m. cbn [gm_seq gm_sent gm_raw gm_id gm_val s_expires s_owner s_pattern].
    unfold gm_hash, number. cbn [gm_sent s_owner s_pattern]. f_equal. unfold idb. rewrite <- !app_assoc. do 2 f_equal. cbn [app]. f_equal.
    rewrite Nat2N.id, firstn_app, firstn_all, Nat.sub_diag. cbn [firstn]. now rewrite app_nil_r.
  - do 3 (split; [reflexivity|]). split; [|reflexivity]. split; unfold m; cbn [gm_seq gm_sent gm_raw gm_id gm_val s_expires s_owner s_pattern s_payload];
      try assumption; try (destruct Hraw; lia).
    + exists (c_snap c payload). split; [exact Dv|apply Hun].
    + unfold gm_hash, number. cbn [gm_sent s_owner s_pattern]. now apply hash_range.
    + unfold gm_cache, gm_body. cbn [gm_raw gm_id gm_val]. unfold item_ok. rewrite !app_length, entry_marshal_length, I1. destruct Hraw as [Hr1 Hr2]. unfold entrySize. split; [lia|]. split; [lia|].
      rewrite !Forall_app. repeat split; [apply entry_bytes|exact Hib|exact Hr2|exact Hvb].
Qed.

Lemma off_zero w off H first T h : wrun w off H first T -> H h = [] -> off h = 0.
Proof. intros [_ Hz]. apply Hz. Qed.

Section Put.
Variables (g : gstate) (l : list gmsg) (m : gmsg).
Hypothesis Hnew : forall x, In x l -> gm_seq x <> gm_seq m.
Let g' := gset g (gm_seq m) (Held (g_cur g) (gm_cache m)).
Lemma slot_old x : In x l -> g_slot g' (gm_seq x) = g_slot g (gm_seq x).
Proof. intros Hx. unfold g', gset; cbn [g_slot]. destruct (N.eqb_spec (gm_seq x) (gm_seq m)) as [E|]; [|reflexivity]. now apply Hnew in Hx. Qed.
Lemma slot_new : g_slot g' (gm_seq m) = Held (g_cur g) (gm_cache m).
Proof. unfold g', gset; cbn [g_slot]. now rewrite N.eqb_refl. Qed.
Lemma filter_snoc (f : gstate -> gmsg -> bool) : (forall a b x, g_slot a (gm_seq x) = g_slot b (gm_seq x) -> f a x = f b x) ->
  filter (f g') (l ++ [m]) = filter (f g) l ++ (if f g' m then [m] else []).
Proof.
  intros Hf. rewrite filter_app. cbn [filter]. f_equal. apply filter_ext_in. intros x Hx. apply Hf. now apply slot_old.
Qed.
Lemma snoc_stored : filter (in_store g') (l ++ [m]) = filter (in_store g) l.
Proof.
  rewrite filter_snoc by (intros a b x E; unfold in_store; now rewrite E). unfold in_store at 2. rewrite slot_new. apply app_nil_r.
Qed.
Lemma snoc_stored_of h : filter (stored_of g' h) (l ++ [m]) = filter (stored_of g h) l.
Proof.
  rewrite (filter_snoc (fun g => stored_of g h)) by (intros a b x E; unfold stored_of, in_store; now rewrite E). unfold stored_of at 2, in_store.
  rewrite slot_new, andb_false_r. apply app_nil_r.
Qed.
Lemma snoc_held t h : filter (held_at g' t h) (l ++ [m]) = filter (held_at g t h) l ++ (if ((gm_hash m =? h)%N && (g_cur g =? t))%bool then [m] else []).
Proof.
  rewrite (filter_snoc (fun g => held_at g t h)) by (intros a b x E; unfold held_at; now rewrite E). unfold held_at at 2. now rewrite slot_new.
Qed.
End Put.

Lemma tw_put tw g l m : tw_part tw g l -> (forall x, In x l -> gm_seq x <> gm_seq m) ->
  tw_part (tw_add tw (g_cur g) (gm_hash m) (gm_we m)) (gset g (gm_seq m) (Held (g_cur g) (gm_cache m))) (l ++ [m]).
Proof.
  intros [Hn Hf] Hnew. split.
  - assert (Hs : forall k (v : list wentry), NoDup (map fst (aset tk_eqb tw k v))).
    { intros k v. unfold aset. cbn [map fst]. constructor.
      - intros Hi. apply (adel_keys _ tk_eqb_iff) in Hi. now destruct Hi.
      - unfold adel. clear - Hn. induction tw as [|[k' v'] r IH]; [constructor|]. cbn [map fst filter] in *. inversion Hn; subst.
        destruct (negb _); [|auto]. cbn [map fst]. constructor; [|auto]. intros Hi. apply H1. apply in_map_iff in Hi as (x & E & Hi). apply filter_In in Hi as [Hi _].
        rewrite <- E. now apply in_map. }
    unfold tw_add. destruct (afind _ _ _); apply Hs.
  - intros t h. rewrite (snoc_held g l m Hnew). pose proof (Hf t h) as Hth. pose proof (Hf (g_cur g) (gm_hash m)) as Hc.
    destruct (N.eqb_spec (gm_hash m) h) as [Eh|Eh]; cbn [andb].
    + destruct (Z.eqb_spec (g_cur g) t) as [Et|Et].
      * subst t h. unfold tw_add. destruct (afind tk_eqb tw (g_cur g, gm_hash m)) as [es|].
        -- rewrite (afind_aset_same _ tk_eqb_iff). destruct Hc as [_ ->]. split; [intros E; apply app_eq_nil in E as [_ E]; discriminate|]. now rewrite map_app.
        -- rewrite (afind_aset_same _ tk_eqb_iff). rewrite Hc. split; [discriminate|reflexivity].
      * rewrite app_nil_r. unfold tw_add. assert ((g_cur g, gm_hash m) <> (t, h)) by congruence.
        destruct (afind tk_eqb tw (g_cur g, gm_hash m)); rewrite (afind_aset_other _ tk_eqb_iff) by assumption; exact Hth.
    + rewrite app_nil_r. unfold tw_add. assert ((g_cur g, gm_hash m) <> (t, h)) by congruence.
      destruct (afind tk_eqb tw (g_cur g, gm_hash m)); rewrite (afind_aset_other _ tk_eqb_iff) by assumption; exact Hth.
Qed.

Lemma find_snoc (l : list gmsg) m h : find (fun x => (gm_hash x =? h)%N) (l ++ [m]) =
  match find (fun x => (gm_hash x =? h)%N) l with Some x => Some x | None => if (gm_hash m =? h)%N then Some m else None end.
Proof. induction l as [|a r IH]; cbn [app find]; [reflexivity|]. destruct (gm_hash a =? h)%N; [reflexivity|exact IH]. Qed.

Lemma trie_put c s l m off n : list_part c l n -> gm_ok c m -> trie_part (d_trie s) l off ->
  (find (fun x => (gm_hash x =? gm_hash m)%N) l = None -> off (gm_hash m) = 0) ->
  gm_raw m = raw_of s (s_owner (gm_sent m)) (s_pattern (gm_sent m)) ->
  exists tr, add_topic (d_trie s) (gm_entry m) (gm_cache m) (entrySize + idSize) = Some tr /\ trie_part tr (l ++ [m]) off.
Proof.
  intros Hl Hok (Mt & Htr & EM) Hoff Hraw. set (k := s_owner (gm_sent m)) in *. set (p := s_pattern (gm_sent m)) in *.
  pose proof (gk_plain _ _ Hok) as Hpl. fold k p in Hpl.
  assert (Eh : gm_hash m = get_hash k (filed k (text p))) by reflexivity.
  unfold raw_of in Hraw. rewrite <- Eh, (tries_offset _ _ _ Htr), EM in Hraw. unfold topic_of in Hraw.
  unfold add_topic. change (e_topicSize (gm_entry m)) with (N.of_nat (length (gm_raw m))). change (e_topicHash (gm_entry m)) with (gm_hash m).
  destruct (find (fun x => (gm_hash x =? gm_hash m)%N) l) as [m0|] eqn:Ef.
  - rewrite Hraw. cbn [length N.of_nat N.eqb]. eexists. split; [reflexivity|]. exists Mt. split; [exact Htr|].
    intros h. rewrite EM. unfold topic_of. rewrite find_snoc. destruct (find (fun x => (gm_hash x =? h)%N) l) eqn:Ef2; [reflexivity|].
    destruct (N.eqb_spec (gm_hash m) h) as [E|]; [|reflexivity]. subst h. congruence.
  - destruct (plain_raw k p Hpl) as [Hr _]. rewrite <- Hraw in Hr.
    assert (Hne : (0 < length (gm_raw m))%nat) by (rewrite Hraw; unfold topic_marshal; cbn; lia).
    destruct (N.eqb_spec (N.of_nat (length (gm_raw m))) 0); [lia|].
    unfold topic_bytes. destruct (N.leb_spec (2 ^ 16) (N.of_nat (entrySize + idSize) + N.of_nat (length (gm_raw m)))) as [Hb|_].
    { unfold entrySize, idSize in Hb. lia. }
    assert (Es : slice (gm_cache m) (entrySize + idSize) (N.to_nat (N.of_nat (length (gm_raw m)))) = gm_raw m).
    { rewrite Nat2N.id. unfold gm_cache, gm_body. rewrite app_assoc. apply slice_app_mid; [|reflexivity].
      rewrite app_length, entry_marshal_length, (gk_id _ _ Hok). reflexivity. }
    rewrite Es, Hraw. pose proof (stored_plain k p (text p) Hpl (or_introl eq_refl)) as Est. unfold stored in Est. rewrite Est.
    destruct (trie_add (d_trie s) (gm_hash m, 0) (fparts k (text p)) (fdepth k (text p))) as [tr b] eqn:Ea. cbn [fst].
    assert (b = true).
    { unfold trie_add in Ea. cbn [fst] in Ea. rewrite (ti_sum _ _ (tries_inv _ _ Htr)), EM in Ea. unfold topic_of in Ea. rewrite Ef in Ea. congruence. }
    subst b. eexists. split; [reflexivity|]. exists (tput Mt (gm_hash m) (k, text p, 0)). split.
    + rewrite Eh. eapply tr_add; [exact Htr|exact Est|]. rewrite <- Eh. exact Ea.
    + intros h. unfold tput, topic_of. rewrite find_snoc. destruct (N.eqb_spec h (gm_hash m)) as [->|Hn].
      * rewrite Ef, N.eqb_refl. now rewrite Hoff.
      * rewrite EM. unfold topic_of. destruct (find (fun x => (gm_hash x =? h)%N) l); [reflexivity|]. destruct (N.eqb_spec (gm_hash m) h); [congruence|reflexivity].
Qed.

Lemma inv_later c s l g off H first M T e t t' : 0 < c_dur (c_mem c) -> t <= t' ->
  inv c s l g off H first M T e t -> inv c s l g off H first M T e t'.
Proof.
  intros Hd Ht [H1 H2 H3 H4 H5 H6 H7 H8 H9 H10]. split; auto.
  - etransitivity; [exact H9|]. now apply trunc_mono.
  - etransitivity; [exact H10|]. now apply unix_mono.
Qed.

Lemma put_step c gens s l g off H first M T e t now k p payload expires encrypt : setting_ok c gens ->
  inv c s l g off H first M T e t -> t <= now -> (d_seq s + 1 <= 130000)%N -> put_ok c (map gm_sent l) k p payload expires ->
  exists s' ue m g', put_entry c s now (put_arg p payload expires k encrypt) = (s', ue, DOk) /\
    gm_sent m = mkSent (owner k) p expires payload /\ d_seq s' = (d_seq s + 1)%N /\
    inv c s' (l ++ [m]) g' off H first M T e now /\
    gm_seq m = (d_seq s + 1)%N /\ gm_raw m = raw_of s (owner k) p /\ gm_ok c m /\ g_slot g (gm_seq m) = Absent /\
    g' = gset g (gm_seq m) (Held (g_cur g) (gm_cache m)) /\ mem_put (c_mem c) (d_mem s) (gm_seq m) (gm_cache m) = (d_mem s', MOk) /\
    on_disk s' = mkF (d_info s) (d_win s) (d_index s) (d_data s) (d_lfile s) (m_wal (d_mem s')) /\ d_lease s' = d_lease s /\
    gm_id m = id_prefix (id_setContract (newID (unix now) (d_seq s + 1)) (owner k)) ++ [1%N].
Proof.
  intros Hset Hi Ht Hseq Hput. pose proof (inv_later _ _ _ _ _ _ _ _ _ _ _ now (so_dur _ _ Hset) Ht Hi) as Hi'. clear Hi Ht.
  pose proof Hi' as [Hcl Henc Hl Hm Htw Hwin Hst Htr Hcur HT]. pose proof Hput as [Hk Hpl Htop (Hpay & Hplen & Hpb) Hfour Hexp Hclash].
  destruct (set_entry_session c gens s l now k p payload expires encrypt Hset Henc Hseq Hput) as (e' & m & Ese & Esent & Eseq & Eraw & Hok & Eid).
  assert (Hnew : forall x, In x l -> gm_seq x <> gm_seq m).
  { intros x Hx E. pose proof (lp_below _ _ _ Hl) as Hb. rewrite Forall_forall in Hb. specialize (Hb x Hx). lia. }
  assert (Habs : g_slot g (gm_seq m) = Absent).
  { destruct (g_slot g (gm_seq m)) as [|t' v|] eqn:Es; [reflexivity| |]; exfalso.
    - destruct (mp_held _ _ _ _ Hm _ _ _ Es) as (x & Hx & E & _). now apply (Hnew x).
    - destruct (mp_freed _ _ _ _ Hm _ Es) as (x & Hx & E). now apply (Hnew x). }
  unfold put_entry. rewrite Hcl.
  assert (Ec : check_put (put_arg p payload expires k encrypt) = None).
  { unfold check_put, put_arg. cbn [u_topic u_payload].
    destruct (Nat.eqb_spec (length (text p)) 0) as [E0|_]; [apply length_zero_iff_nil in E0; now apply (plain_text _ _ Hpl) in E0|].
    destruct (N.ltb_spec maxTopicLength (N.of_nat (length (text p)))); [lia|].
    destruct (Nat.eqb_spec (length payload) 0) as [E0|_]; [apply length_zero_iff_nil in E0; contradiction|].
    destruct (N.ltb_spec maxValueLength (N.of_nat (length payload))); [lia|reflexivity]. }
  rewrite Ec, Ese. change (d_mem (next_seq s)) with (d_mem s). change (e_seq (gm_entry m)) with (gm_seq m).
  destruct (mem_put (c_mem c) (d_mem s) (gm_seq m) (gm_cache m)) as [mm r] eqn:Ep.
  destruct (gput _ _ _ _ _ _ _ (mp_inv _ _ _ _ Hm) (gk_item _ _ Hok) (or_introl Habs) Ep) as (g' & Ha & Hg').
  pose proof (mp_open _ _ _ _ Hm) as Hop.
  inversion Ha; subst; [|congruence]. cbn [set_mem set_tw d_tw d_trie d_mem]. change (d_trie (next_seq s)) with (d_trie s).
  assert (Hin : forall x, In x (l ++ [m]) <-> In x l \/ x = m) by (intros x; rewrite in_app_iff; cbn [In]; intuition).
  set (g' := gset g (gm_seq m) (Held (g_cur g) (gm_cache m))) in *.
  destruct (trie_put c s l m off (d_seq s) Hl Hok Htr) as (tr & -> & Htr').
  { intros Ef. apply (off_zero _ _ _ _ _ _ (wp_run _ _ _ _ _ _ _ _ Hwin)). pose proof (wp_hist _ _ _ _ _ _ _ _ Hwin (gm_hash m)) as Hp.
    rewrite filter_none in Hp; [apply Permutation_sym, Permutation_nil, map_eq_nil in Hp; exact Hp|].
    intros x Hx. apply (find_none _ _ Ef) in Hx. unfold stored_of. cbn beta in Hx. now rewrite Hx. }
  { rewrite Eraw, Esent. reflexivity. }
  assert (E1 : u64 (d_seq s + 1) = (d_seq s + 1)%N) by (apply next_num; lia).
  do 2 eexists. exists m, g'. split; [reflexivity|]. split; [exact Esent|].
  split; [cbn [set_trie d_seq]; exact E1|].
  split; [|repeat (split; [first [exact Eseq|exact Eraw|exact Hok|exact Habs|exact Ep|reflexivity]|]); exact Eid].
  pose proof (gi_cur _ _ _ (mp_inv _ _ _ _ Hm)) as Ecur.
  split; cbn [set_trie set_tw set_mem next_seq set_seq d_closed d_enc d_seq d_mem d_tw d_win d_index d_data d_lease d_trie]; try assumption.
  - rewrite E1. destruct Hl as [L1 L2 L3 L4]. split.
    + apply Forall_app. split; [exact L1|]. constructor; [exact Hok|constructor].
    + rewrite map_app. cbn [map]. rewrite Eseq. clear - L2 L3. induction l as [|a r IH]; cbn [map app]; [repeat constructor|].
      cbn [map] in L2. inversion L2; subst. inversion L3; subst. constructor; [auto|]. apply Forall_app. split; [assumption|]. constructor; [lia|constructor].
    + apply Forall_app. split; [eapply Forall_impl; [|exact L3]; cbn; lia|]. constructor; [lia|constructor].
    + intros m1 m2 I1 I2 Eh. apply Hin in I1, I2. destruct I1 as [I1|I1], I2 as [I2|I2]; subst; auto.
      * rewrite Esent. cbn [s_owner s_pattern]. apply Hclash; [now apply in_map|]. unfold gm_hash in Eh. rewrite Eh, Esent. reflexivity.
      * rewrite Esent. cbn [s_owner s_pattern]. destruct (Hclash (gm_sent m2)) as [-> ->]; [now apply in_map| |auto]. unfold gm_hash in Eh. rewrite <- Eh, Esent. reflexivity.
  - destruct Hm as [M1 M2 M3 M4 M5]. split; [exact Hg'|first [reflexivity|assumption]|..].
    + intros q t' v Es. unfold g', gset in Es; cbn [g_slot] in Es. destruct (N.eqb_spec q (gm_seq m)) as [->|Hq].
      * injection Es as <- <-. exists m. split; [apply Hin; now right|auto].
      * destruct (M3 _ _ _ Es) as (x & Hx & E1' & E2). exists x. split; [apply Hin; now left|auto].
    + intros x Hx. apply Hin in Hx as [Hx| ->].
      * unfold g'. rewrite (slot_old g l m Hnew x Hx). now apply M4.
      * right. exists (g_cur g). apply slot_new.
    + intros q Es. unfold g', gset in Es; cbn [g_slot] in Es. destruct (N.eqb_spec q (gm_seq m)) as [Hq|Hq]; [discriminate|].
      destruct (M5 _ Es) as (x & Hx & E2). exists x. split; [apply Hin; now left|exact E2].
  - rewrite Ecur. change (e_topicHash (gm_entry m)) with (gm_hash m). change (mkWE (gm_seq m) (e_expiresAt (gm_entry m))) with (gm_we m). now apply tw_put.
  - destruct Hwin as [W1 W2 W3 W4]. split; auto.
    + unfold nstored in *. unfold g'. rewrite (snoc_stored g l m Hnew). exact W2.
    + intros h. unfold g'. rewrite (snoc_stored_of g l m Hnew). apply W3.
    + intros h Ef. destruct (W4 h Ef) as (x & Hx & E2). exists x. split; [apply Hin; now left|exact E2].
  - assert (Hst' : forall x, In x (l ++ [m]) -> in_store g' x = true -> In x l /\ in_store g x = true).
    { intros x Hx Es. apply Hin in Hx as [Hx| ->].
      - split; [exact Hx|]. unfold in_store in *. unfold g' in Es. now rewrite (slot_old g l m Hnew x Hx) in Es.
      - unfold in_store, g' in Es. rewrite slot_new in Es. discriminate. }
    destruct Hst as [(w & S1 & S2 & S3) [G1 G2] S4]. split.
    + exists w. split; [exact S1|]. split; [exact S2|]. unfold nstored in *. unfold g'. now rewrite (snoc_stored g l m Hnew).
    + split.
      * intros x Hx Es. destruct (Hst' x Hx Es). now apply G1.
      * intros q Hq. unfold g', gset; cbn [g_slot]. destruct (N.eqb_spec q (gm_seq m)) as [->|]; [|now apply G2].
        rewrite G2 in Habs by exact Hq. discriminate.
    + intros x Hx Es. destruct (Hst' x Hx Es). now apply S4.
Qed.

(** * The rest *)
Lemma tick_step c gens s l g off H first M T e t now : setting_ok c gens -> inv c s l g off H first M T e t -> t <= now ->
  exists g', inv c (set_mem s (mem_tick (c_mem c) (d_mem s) now None)) l g' off H first M T e now /\ g_slot g' = g_slot g.
Proof.
  intros Hset Hi Ht. pose proof (inv_later _ _ _ _ _ _ _ _ _ _ _ now (so_dur _ _ Hset) Ht Hi) as Hi'. clear Hi Ht.
  pose proof Hi' as [Hcl Henc Hl Hm Htw Hwin Hst Htr Hcur HT].
  destruct (gstep (c_mem c) (d_mem s) g (OTick now None) _ S_MemDB.ODone (mp_inv _ _ _ _ Hm) (conj eq_refl Hcur) I eq_refl) as (g' & Ha & Hg').
  inversion Ha; subst. exists (mkG (trunc now (c_dur (c_mem c))) true (g_slot g)). split; [|reflexivity].
  split; cbn [set_mem d_closed d_enc d_seq d_mem d_tw d_win d_index d_data d_lease d_trie]; auto.
  - destruct Hm as [M1 M2 M3 M4 M5]. split; [exact Hg'|first [reflexivity|assumption]|..]; auto.
  - destruct Hwin as [W1 W2 W3 W4]. split; auto.
  - destruct Hst as [S1 [G1 G2] S4]. split; auto. split; auto.
  - cbn [g_cur]. lia.
Qed.
Lemma commit_step c s l g off H first M T e t : inv c s l g off H first M T e t ->
  inv c (set_mem s (mem_commit (d_mem s))) l g off H first M T e t.
Proof.
  intros Hi. pose proof Hi as [Hcl Henc Hl Hm Htw Hwin Hst Htr Hcur HT].
  destruct (gstep (c_mem c) (d_mem s) g OCommit _ S_MemDB.ODone (mp_inv _ _ _ _ Hm) I I eq_refl) as (g' & Ha & Hg').
  inversion Ha; subst. eapply inv_mem; [exact Hi|]. eexists. split; [reflexivity|exact Hg'].
Qed.
Lemma new_id_step c s l g off H first M T e t now : inv c s l g off H first M T e t -> (d_seq s + 1 <= 130000)%N ->
  inv c (fst (db_new_id s now)) l g off H first M T e t /\ d_seq (fst (db_new_id s now)) = (d_seq s + 1)%N.
Proof.
  intros [Hcl Henc Hl Hm Htw Hwin Hst Htr Hcur HT] Hs. unfold db_new_id, next_seq. cbn [fst set_seq d_seq].
  assert (E1 : u64 (d_seq s + 1) = (d_seq s + 1)%N) by (apply next_num; lia). rewrite E1. split; [|reflexivity].
  split; cbn [set_seq d_closed d_enc d_seq d_mem d_tw d_win d_index d_data d_lease d_trie]; auto.
  destruct Hl as [L1 L2 L3 L4]. split; auto. eapply Forall_impl; [|exact L3]. cbn. lia.
Qed.
