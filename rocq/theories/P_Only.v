(** Proofs about what a Get may give at most. *)
From Verif Require Import M_Bytes P_Bytes M_Hash M_Bloom M_Entry P_Codec M_MsgId M_Mac P_Mac M_Topic M_Trie M_Query M_IndexBlock M_Lease M_File
  M_BlockRange M_BlockStore M_WinBlock M_Wal M_MemDB M_Window M_Get M_DBInfo M_DB S_Trie S_Window S_BlockStore S_MemDB S_Get S_DB S_Session S_Only
  P_Get P_Window2 P_Window4 P_MemDB P_MemGet P_DB P_Session P_Session2 P_Session3 P_Session5.
From Coq Require Import Lia ZifyBool ZifyNat ZifyN Permutation.
Open Scope Z_scope.

(** * Records *)
Definition rec_ok (c : dcfg) (m : omsg) (v : bytes) : Prop :=
  exists x (id raw val z : bytes), v = entry_marshal x ++ id ++ raw ++ val /\ entry_ok x /\ e_topicSize x = N.of_nat (length raw) /\ (N.of_nat (length raw) + 35 < 2 ^ 16)%N /\
    length id = 9%nat /\ id_contract id = o_owner m /\
    (if (nth 8 id 0 =? 1)%N then fst (mac_decrypt (c_mac c) val) else Some val) = Some z /\ c_unsnap c z = Some (o_payload m).

Lemma rec_decode c m v contract cutoff : rec_ok c m v -> exists x id val, entry_unmarshal v = Some x /\
  cache_message (e_topicSize x) (skipn entrySize v) = Some (id, val) /\
  forall p, decode c contract cutoff id val = OItem p -> o_owner m = contract /\ o_payload m = p.
Proof.
  intros (x & id & raw & val & z & -> & Hx & Ht & Hl & Hi & Hc & Hd & Hu). exists x, id, val.
  split; [now apply entry_roundtrip|]. split.
  - rewrite skipn_app, entry_marshal_length. unfold entrySize at 2. rewrite Nat.sub_diag, skipn_O.
    rewrite skipn_all2 by (rewrite entry_marshal_length; apply Nat.le_refl). cbn [app].
    unfold cache_message. rewrite Ht. unfold u16, idSize. rewrite N.mod_small by lia. rewrite !app_length, Hi.
    replace (N.to_nat (N.of_nat (length raw) + N.of_nat 9)) with (9 + length raw)%nat by lia.
    destruct (Nat.ltb_spec (9 + (length raw + length val)) 9); [lia|].
    destruct (Nat.ltb_spec (9 + (length raw + length val)) (9 + length raw)); [lia|]. cbn [orb]. f_equal. f_equal.
    + rewrite firstn_app, Hi, Nat.sub_diag, firstn_O, app_nil_r. now rewrite firstn_all2 by lia.
    + rewrite skipn_app, Hi. rewrite skipn_all2 by lia. cbn [app]. replace (9 + length raw - 9)%nat with (length raw) by lia.
      rewrite skipn_app, Nat.sub_diag, skipn_all. reflexivity.
  - intros p. unfold decode. destruct (evalPrefix id contract cutoff) eqn:Ee; cbn [negb]; [|discriminate]. rewrite Hd, Hu. intros [= <-].
    split; [|reflexivity]. rewrite <- Hc. unfold evalPrefix in Ee. destruct (0 <? cutoff); [apply andb_prop in Ee as [_ Ee]|]; now apply N.eqb_eq.
Qed.

(** * Putting *)
Lemma set_contract_any id k b : length id = 16%nat -> (k < 2 ^ 32)%N ->
  let i := id_prefix (id_setContract id k) ++ [b] in length i = 9%nat /\ id_contract i = k /\ nth 8 i 0%N = b.
Proof.
  intros Hl Hk i. unfold i, id_prefix, id_setContract, id_contract.
  do 16 (destruct id as [|? id]; [discriminate|]). destruct id; [|discriminate]. unfold slice. cbn [firstn skipn app length nth le].
  repeat split. cbn [unle]. pose proof (N.div_mod k 256 ltac:(lia)). pose proof (N.div_mod (k/256) 256 ltac:(lia)).
  pose proof (N.div_mod (k/256/256) 256 ltac:(lia)). assert (k / 256 / 256 / 256 < 256)%N.
  { rewrite !N.div_div by lia. apply N.div_lt_upper_bound; lia. }
  assert ((k / 256 / 256 / 256) mod 256 = k / 256 / 256 / 256)%N by (apply N.mod_small; assumption). lia.
Qed.
Lemma depth_byte k txt : (t_depth (filed k txt) < 256)%N.
Proof.
  unfold filed, add_contract, parse_topic. destruct (parse_key txt) as [name opts]. cbn [t_depth].
  match goal with |- (lp_depth (fold_left _ ?l ?a) < 256)%N => generalize l; assert (H : (lp_depth a < 256)%N) by (cbn [lp_depth]; destruct (has_suffix _ _); lia); generalize a, H end.
  clear. intros a H l. revert a H. induction l as [|w l IH]; intros a H; cbn [fold_left]; [exact H|]. apply IH. unfold loop_step.
  assert (Hu : (u8 (lp_depth a + 1) < 256)%N) by apply u8_byte.
  destruct (has_suffix w [cStar]); [exact Hu|]. destruct (lp_wild a =? 0)%N; exact Hu.
Qed.
Lemma expiry_range pd now given opts : (given < 2 ^ 32)%N -> (entry_expiry pd now given opts < 2 ^ 32)%N.
Proof.
  intros Hg. unfold entry_expiry, topic_ttl.
  assert (Hu : forall z, (u32z z < 2 ^ 32)%N) by (intros z; unfold u32z; pose proof (Z.mod_pos_bound z (2 ^ 32) ltac:(lia)); lia).
  destruct (get_option opts kTTL) as [[txt sec]|].
  - destruct (0 <? sec); match goal with |- context [u32z ?z] => specialize (Hu z) end; destruct (_ && _)%bool; lia.
  - destruct (_ && _)%bool; lia.
Qed.
Lemma id_bytes now seq : Forall is_byte (newID now seq).
Proof. unfold newID; rewrite !Forall_app; repeat split; apply le_bytes. Qed.
Lemma sequence_range id : Forall is_byte id -> (16 <= length id)%nat -> (id_sequence id < 2 ^ 64)%N.
Proof.
  intros Hb Hl. unfold id_sequence. change (2 ^ 64)%N with (256 ^ N.of_nat 8)%N. apply unle_slice_bound; [exact Hb|lia].
Qed.

Lemma set_entry_any c gens ids s now e s' e' x cache : setting_ok c gens -> entry_fits ids e ->
  (forall id, In id ids -> length id = 16%nat /\ Forall is_byte id) -> (N.of_nat (length (u_payload e)) <= maxValueLength)%N ->
  (d_seq s + 1 < 2 ^ 64)%N -> set_entry c s now e = SOk s' e' x cache ->
  s' = match u_id e with Some _ => s | None => next_seq s end /\
  e_seq x = match u_id e with Some id => id_sequence id | None => (d_seq s + 1)%N end /\
  (u_expires e <> 0%N -> e_expiresAt x = u_expires e) /\ item_ok (e_seq x) cache /\
  ((e_topicSize x + 35 < 2 ^ 16)%N -> rec_ok c (mkO (u_id e) (put_owner e) (u_expires e) (u_payload e)) cache).
Proof.
  intros Hset [Fc Fe Fp Fh Ft Fi] Hids Hlen Hseq E. pose proof Hset as [_ _ Hun Hsn Hsl Hae Hse _].
  unfold set_entry in E. cbv zeta in E. fold (owner (u_contract e)) in E. fold (filed (owner (u_contract e)) (u_topic e)) in E.
  (* the first half *)
  set (raw := match u_hash e with Some _ => [] | None =>
      match getOffset (d_trie s) (get_hash (owner (u_contract e)) (filed (owner (u_contract e)) (u_topic e))) with
      | Some _ => [] | None => topic_marshal (t_parts (filed (owner (u_contract e)) (u_topic e))) (t_depth (filed (owner (u_contract e)) (u_topic e))) end end).
  set (ts := match raw with [] => 0%N | _ => u16 (N.of_nat (length raw)) end).
  assert (Hraw : Forall is_byte raw).
  { unfold raw. destruct (u_hash e); [constructor|]. destruct (getOffset _ _); [constructor|]. apply topic_bytes_ok, depth_byte. }
  assert (Hts : (ts <= N.of_nat (length raw))%N /\ (ts < 2 ^ 16)%N).
  { unfold ts. destruct raw; [cbn; lia|]. unfold u16. split; [apply N.mod_le; discriminate|apply N.mod_lt; discriminate]. }
  assert (E1 : exists ex h, (u_expires e <> 0%N -> ex = u_expires e) /\ (ex < 2 ^ 32)%N /\ (h < 2 ^ 64)%N /\
     match (match u_id e with
            | Some id => if Nat.ltb (length id) 16 then None else Some (s, id, id_sequence id)
            | None => let s := next_seq s in Some (s, newID (unix now) (d_seq s), d_seq s)
            end) with
     | None => SPanic
     | Some (s, id, seq) =>
         if (seq =? 0)%N then SPanic
         else match (if ((d_enc s =? 1)%N || u_encrypt e)%bool then mac_encrypt (c_mac c) (c_snap c (u_payload e)) else Some (c_snap c (u_payload e))) with
          | None => SPanic
          | Some val => SOk s e' (mkEntry seq ts (u32 (N.of_nat (length val))) ex h)
               (entry_marshal (mkEntry seq ts (u32 (N.of_nat (length val))) ex h) ++ id_prefix (id_setContract id (put_owner e)) ++ [if ((d_enc s =? 1)%N || u_encrypt e)%bool then 1%N else 0%N]
                         ++ firstn (N.to_nat ts) (raw ++ repeat 0%N (N.to_nat ts)) ++ val)
          end
     end = SOk s' e' x cache).
  { unfold put_owner, ts, raw in *. destruct (u_hash e) as [h|] eqn:Eh.
    - exists (u_expires e), h. split; [auto|]. split; [exact Fe|]. split; [now apply Fh|]. rewrite Eh in E. rewrite Ft in E.
      match type of E with match ?n with _ => _ end = _ => destruct n as [[[s1 id] seq]|]; [|discriminate] end.
      destruct (seq =? 0)%N; [discriminate|].
      match type of E with match ?n with _ => _ end = _ => destruct n; [|discriminate] end. injection E as -> <- <- <-. reflexivity.
    - eexists _, _. split; [|split; [|split]].
      4:{ cbn [u_hash u_id u_payload u_expires u_contract u_encrypt u_tsize u_topic] in E. rewrite Ft in E.
          match type of E with match ?n with _ => _ end = _ => destruct n as [[[s1 id] seq]|]; [|discriminate] end.
          destruct (seq =? 0)%N; [discriminate|].
      match type of E with match ?n with _ => _ end = _ => destruct n; [|discriminate] end. injection E as -> <- <- <-. reflexivity. }
      + intros Hne. unfold entry_expiry. destruct (topic_ttl _ _ _) as [ttl ok]. destruct (N.eqb_spec (u_expires e) 0); [contradiction|reflexivity].
      + now apply expiry_range.
      + now apply hash_range. }
  clear E. destruct E1 as (ex & h & Hex & Hexr & Hhr & E).
  set (named := match u_id e with Some id => if Nat.ltb (length id) 16 then None else Some (s, id, id_sequence id)
                | None => let s := next_seq s in Some (s, newID (unix now) (d_seq s), d_seq s) end) in E.
  assert (Hn : forall s1 id seq, named = Some (s1, id, seq) -> s1 = (match u_id e with Some _ => s | None => next_seq s end) /\
     seq = (match u_id e with Some id => id_sequence id | None => (d_seq s + 1)%N end) /\ length id = 16%nat /\ Forall is_byte id /\ (seq < 2 ^ 64)%N).
  { intros s1 id seq. unfold named. destruct (u_id e) as [i|] eqn:Ei.
    - destruct (Hids i (Fi i eq_refl)) as [L B]. rewrite L. cbn [Nat.ltb Nat.leb]. intros [= <- <- <-]. repeat split; auto. apply sequence_range; [exact B|lia].
    - cbv zeta. intros [= <- <- <-]. split; [reflexivity|]. assert (E1 : d_seq (next_seq s) = (d_seq s + 1)%N) by (cbn [next_seq set_seq d_seq]; unfold u64; apply N.mod_small; exact Hseq).
      split; [exact E1|]. split; [reflexivity|]. split; [apply id_bytes|change (d_seq (next_seq s) < 2 ^ 64)%N; rewrite E1; exact Hseq]. }
  destruct named as [[[s1 id] seq]|] eqn:En; [|discriminate]. destruct (Hn s1 id seq eq_refl) as (E1 & E2 & E3 & E4 & E5). clear Hn.
  destruct (seq =? 0)%N; [discriminate|].
  set (crypt := ((d_enc s1 =? 1)%N || u_encrypt e)%bool) in *.
  destruct (if crypt then mac_encrypt (c_mac c) (c_snap c (u_payload e)) else Some (c_snap c (u_payload e))) as [val|] eqn:Ev; [|discriminate].
  remember (mkEntry seq ts (u32 (N.of_nat (length val))) ex h) as xx eqn:Exx.
  injection E as Es' Ex Ec. subst s'. rewrite Exx in Ex.
  assert (Hv : Forall is_byte val /\ (N.of_nat (length val) < 2 ^ 31 + 100)%N /\ (if crypt then fst (mac_decrypt (c_mac c) val) else Some val) = Some (c_snap c (u_payload e))).
  { specialize (Hsl _ Hlen). destruct crypt.
    - split; [eapply encrypt_bytes; [exact Hse|apply Hsn; exact Fp|exact Ev]|]. rewrite (mac_encrypt_length _ _ _ Hae Ev). split; [lia|]. now apply mac_roundtrip.
    - injection Ev as <-. split; [now apply Hsn|]. split; [lia|reflexivity]. }
  destruct Hv as (Hvb & Hvl & Hvd).
  destruct (set_contract_any id (put_owner e) (if crypt then 1 else 0)%N E3 Fc) as (I1 & I2 & I3).
  set (idb := id_prefix (id_setContract id (put_owner e)) ++ [if crypt then 1%N else 0%N]) in *.
  set (tp := firstn (N.to_nat ts) (raw ++ repeat 0%N (N.to_nat ts))) in *.
  assert (Htl : length tp = N.to_nat ts) by (unfold tp; rewrite firstn_length, app_length, repeat_length; lia).
  assert (Htb : Forall is_byte tp).
  { unfold tp. apply firstn_bytes, Forall_app. split; [exact Hraw|]. apply Forall_forall. intros y Hy. apply repeat_spec in Hy as ->. reflexivity. }
  assert (Hib : Forall is_byte idb).
  { unfold idb. apply Forall_app. split; [|destruct crypt; repeat constructor]. apply firstn_bytes. unfold id_setContract. rewrite !Forall_app.
    repeat split; [now apply firstn_bytes|apply le_bytes|]. unfold slice. now apply firstn_bytes, skipn_bytes. }
  rewrite Exx, Ex in Ec. assert (Eca : cache = entry_marshal x ++ idb ++ tp ++ val) by (unfold idb; rewrite <- Ec, <- !app_assoc; reflexivity). clear Ec.
  split; [exact E1|]. rewrite <- Ex. cbn [e_seq e_expiresAt e_topicSize]. split; [exact E2|]. split; [exact Hex|]. split.
  - rewrite Eca. unfold item_ok. rewrite !app_length, entry_marshal_length, I1, Htl. unfold entrySize. split; [exact E5|]. split; [lia|].
    rewrite !Forall_app. repeat split; [apply entry_bytes|exact Hib|exact Htb|exact Hvb].
  - intros Hsmall. exists x, idb, tp, val, (c_snap c (u_payload e)). split; [exact Eca|]. split.
    + rewrite <- Ex. unfold entry_ok; cbn [e_seq e_topicSize e_valueSize e_expiresAt e_topicHash]. repeat split; try assumption; try lia. unfold u32. apply N.mod_lt. discriminate.
    + rewrite <- Ex. cbn [e_topicSize]. split; [lia|]. split; [lia|]. split; [exact I1|]. split; [exact I2|]. cbn [o_payload]. split; [|apply Hun].
      rewrite I3. destruct crypt; exact Hvd.
Qed.

(** * The invariant *)
Record oinv (c : dcfg) (s : db) (l : list omsg) (ids : list bytes) (a : list (N * omsg)) (g : gstate) (t : Z) : Prop := {
  oi_open : d_closed s = false;
  oi_mem : ginv (c_mem c) (d_mem s) g;
  oi_cur : g_cur g <= trunc t (c_dur (c_mem c));
  oi_win : d_win s = [];
  oi_index : d_index s = [];
  oi_held : forall k tt v, g_slot g k = Held tt v -> exists m, In (k, m) a /\ rec_ok c m v /\ In m l;
  oi_freed : forall k, g_slot g k <> Freed;
  oi_fun : forall k m m', In (k, m) a -> In (k, m') a -> m = m';
  oi_used : forall k m, In (k, m) a -> (k <= d_seq s)%N /\ ~ In k (map id_sequence ids) /\ (forall id, o_id m = Some id -> id_sequence id = k);
  oi_ids : NoDup (map id_sequence ids);
  oi_id : forall id, In id ids -> length id = 16%nat /\ Forall is_byte id /\ (id_sequence id <= d_seq s)%N;
  oi_tw : forall k es e, In (k, es) (d_tw s) -> In e es -> exists m, In (w_seq e, m) a /\ (o_expires m <> 0%N -> w_expiresAt e = o_expires m)
}.

Lemma nodup_one {A} (l : list A) x : NoDup l -> ~ In x l -> NoDup (l ++ [x]).
Proof. intros H1 H2. apply NoDup_rev in H1. rewrite <- (rev_involutive (l ++ [x])). apply NoDup_rev. rewrite rev_app_distr. cbn [rev app]. constructor; [now rewrite <- in_rev|exact H1]. Qed.
Lemma oinv_time c s l ids a g t t' : 0 < c_dur (c_mem c) -> t <= t' -> oinv c s l ids a g t -> oinv c s l ids a g t'.
Proof. intros Hd Ht [A1 A2 A3 A4 A5 A6 A7 A8 A9 A10 A11 A12]. constructor; auto. etransitivity; [exact A3|]. now apply trunc_mono. Qed.
Lemma spend_in ids i x : In x (spend ids i) -> In x ids.
Proof. destruct i; cbn [spend]; [|auto]. intros H. now apply filter_In in H. Qed.
Lemma spend_map_in ids i k : In k (map id_sequence (spend ids i)) -> In k (map id_sequence ids).
Proof. rewrite !in_map_iff. intros (x & <- & H). exists x. split; [reflexivity|]. eapply spend_in, H. Qed.
Lemma nodup_map_filter {A B} (f : A -> B) (p : A -> bool) l : NoDup (map f l) -> NoDup (map f (filter p l)).
Proof.
  induction l as [|x l IH]; cbn [map filter]; [auto|]. intros H. inversion H as [|y ys Hn Hr]; subst. destruct (p x); [|auto]. cbn [map]. constructor; [|auto].
  intros Hin. apply Hn. apply in_map_iff in Hin as (z & E & Hz). apply in_map_iff. exists z. split; [exact E|]. now apply filter_In in Hz.
Qed.
Lemma spend_nodup ids i : NoDup (map id_sequence ids) -> NoDup (map id_sequence (spend ids i)).
Proof. destruct i; cbn [spend]; [|auto]. apply nodup_map_filter. Qed.
Lemma spent_out ids id : NoDup (map id_sequence ids) -> In id ids -> ~ In (id_sequence id) (map id_sequence (spend ids (Some id))).
Proof.
  intros Hn Hi Hin. cbn [spend] in Hin. apply in_map_iff in Hin as (x & E & Hx). apply filter_In in Hx as [Hx Hb].
  assert (x = id).
  { clear Hb. induction ids as [|y ids IH]; [destruct Hi|]. cbn [map] in Hn. inversion Hn as [|z zs H1 H2]; subst. destruct Hi as [->|Hi], Hx as [->|Hx]; auto.
    - exfalso. apply H1. rewrite <- E. now apply in_map.
    - exfalso. apply H1. rewrite E. now apply in_map. }
  subst x. rewrite (proj2 (beq_eq id id) eq_refl) in Hb. discriminate.
Qed.
Lemma oinv_spend c s l ids i a g t : oinv c s l ids a g t -> oinv c s l (spend ids i) a g t.
Proof.
  intros [A1 A2 A3 A4 A5 A6 A7 A8 A9 A10 A11 A12]. constructor; auto.
  - intros k m H. destruct (A9 k m H) as (B1 & B2 & B3). split; [exact B1|]. split; [|exact B3]. intros Hi. apply B2. eapply spend_map_in, Hi.
  - now apply spend_nodup.
  - intros id H. apply A11. eapply spend_in, H.
Qed.

(** A state that differs in other parts only. *)
Lemma oinv_same c s s' l ids a g t : oinv c s l ids a g t -> d_closed s' = false -> ginv (c_mem c) (d_mem s') g ->
  d_win s' = [] -> d_index s' = [] -> d_tw s' = d_tw s -> (d_seq s <= d_seq s')%N -> oinv c s' l ids a g t.
Proof.
  intros [A1 A2 A3 A4 A5 A6 A7 A8 A9 A10 A11 A12] B1 B2 B3 B4 B5 B6. constructor; auto.
  - intros k m H. destruct (A9 k m H) as (C1 & C2 & C3). split; [lia|]. auto.
  - intros id H. destruct (A11 id H) as (C1 & C2 & C3). split; [exact C1|]. split; [exact C2|lia].
  - rewrite B5. exact A12.
Qed.

Lemma tw_found (m : twmap) k v : afind tk_eqb m k = Some v -> In (k, v) m.
Proof.
  induction m as [|[k0 v0] m IH]; cbn [afind]; [discriminate|]. destruct (tk_eqb k0 k) eqn:Ek.
  - intros [= ->]. apply tk_eqb_iff in Ek as ->. now left.
  - intros H. right. auto.
Qed.

(** * Steps *)
Lemma put_any c gens s l ids a g t now e s' e' r : setting_ok c gens -> oinv c s l ids a g t -> real_time t now -> 0 <= t -> entry_fits ids e ->
  (d_seq s + 1 < 2 ^ 64)%N -> M_DB.put_entry c s now e = (s', e', r) -> r <> DPanic ->
  exists a' g', oinv c s' (match r with DOk => l ++ [mkO (u_id e) (put_owner e) (u_expires e) (u_payload e)] | _ => l end) (spend ids (u_id e)) a' g' now /\
    (d_seq s' <= d_seq s + 1)%N.
Proof.
  intros Hset Hi Hrt H0 Hf Hsq E Hnp. pose proof (so_dur _ _ Hset) as Hd.
  assert (Hi' : oinv c s l (spend ids (u_id e)) a g now) by (apply oinv_spend; eapply oinv_time; [exact Hd|apply Hrt|exact Hi]).
  unfold M_DB.put_entry in E. rewrite (oi_open _ _ _ _ _ _ _ Hi) in E.
  destruct (check_put e) as [ce|] eqn:Ec; [injection E as <- <- <-; exists a, g; split; [exact Hi'|lia]|].
  assert (Hlen : (N.of_nat (length (u_payload e)) <= maxValueLength)%N).
  { unfold check_put in Ec. destruct (Nat.eqb _ _); [discriminate|]. destruct (_ <? _)%N; [discriminate|]. destruct (Nat.eqb _ _); [discriminate|].
    destruct (N.ltb_spec maxValueLength (N.of_nat (length (u_payload e)))); [discriminate|assumption]. }
  destruct (set_entry c s now e) as [s1 e1 x cache|e1 r1|] eqn:Es.
  2:{ injection E as <- <- <-. exists a, g; (split; [exact Hi'|lia]). }
  2:{ injection E as <- <- <-. congruence. }
  - destruct (set_entry_any c gens ids s now e s1 e1 x cache Hset Hf) as (E1 & E2 & E3 & E4 & E5); auto.
    { intros id Hin. destruct (oi_id _ _ _ _ _ _ _ Hi id Hin) as (B1 & B2 & _). auto. }
    assert (Hm1 : d_mem s1 = d_mem s /\ d_tw s1 = d_tw s /\ d_closed s1 = false /\ d_win s1 = [] /\ d_index s1 = [] /\ (d_seq s <= d_seq s1 <= d_seq s + 1)%N /\
       (e_seq x <= d_seq s1)%N).
    { pose proof Hi as [A1 A2 A3 A4 A5 A6 A7 A8 A9 A10 A11 A12].
      rewrite E1, E2. destruct (u_id e) as [id|] eqn:Eu.
      - destruct (A11 id (ef_id _ _ Hf id Eu)) as (_ & _ & B). repeat split; auto; lia.
      - cbn [next_seq set_seq d_mem d_tw d_closed d_win d_index d_seq]. assert (u64 (d_seq s + 1) = (d_seq s + 1)%N) as -> by (unfold u64; apply N.mod_small; exact Hsq).
        repeat split; auto; lia. }
    destruct Hm1 as (M1 & M2 & M3 & M4 & M5 & M6 & M7).
    assert (Hfresh : ~ In (e_seq x) (map fst a) /\ ~ In (e_seq x) (map id_sequence (spend ids (u_id e)))).
    { pose proof Hi as [A1 A2 A3 A4 A5 A6 A7 A8 A9 A10 A11 A12]. rewrite E2. destruct (u_id e) as [id|] eqn:Eu.
      - pose proof (ef_id _ _ Hf id Eu) as Hin. split; [|now apply spent_out]. rewrite in_map_iff. intros ((k & m) & Ek & Hm). cbn [fst] in Ek. subst k.
        destruct (A9 _ _ Hm) as (_ & B & _). apply B. now apply in_map.
      - split.
        + rewrite in_map_iff. intros ((k & m) & Ek & Hm). cbn [fst] in Ek. subst k. destruct (A9 _ _ Hm) as (B & _). lia.
        + cbn [spend]. rewrite in_map_iff. intros (id & Ek & Hm). destruct (A11 _ Hm) as (_ & _ & B). lia. }
    destruct Hfresh as [Hfa Hfi].
    assert (Habs : g_slot g (e_seq x) = Absent).
    { destruct (g_slot g (e_seq x)) as [|tt v|] eqn:Eg; [reflexivity| |exfalso; eapply (oi_freed _ _ _ _ _ _ _ Hi), Eg].
      destruct (oi_held _ _ _ _ _ _ _ Hi _ _ _ Eg) as (m & Hm & _). exfalso. apply Hfa. apply in_map_iff. exists (e_seq x, m). auto. }
    destruct (mem_put (c_mem c) (d_mem s1) (e_seq x) cache) as [mm mr] eqn:Emp.
    destruct (gstep (c_mem c) (d_mem s1) g (OPut (e_seq x) cache) mm (S_MemDB.ORes mr)) as (g' & Hga & Hgi).
    { rewrite M1. apply (oi_mem _ _ _ _ _ _ _ Hi). }
    { cbn [allowed]. now left. }
    { exact E4. }
    { cbn [mstep]. now rewrite Emp. }
    clear E1. inversion Hga; subst.
    + (* accepted *)
      destruct (add_topic (d_trie (set_tw (set_mem s1 mm) _)) x cache (entrySize + idSize)) as [tr|] eqn:Et; [|injection E as <- <- <-; congruence].
      injection E as <- <- <-.
      set (m := mkO (u_id e) (put_owner e) (u_expires e) (u_payload e)).
      assert (Hsmall : (e_topicSize x + 35 < 2 ^ 16)%N).
      { unfold add_topic in Et. destruct (N.eqb_spec (e_topicSize x) 0) as [->|]; [reflexivity|]. unfold topic_bytes in Et.
        destruct (N.leb_spec (2 ^ 16) (N.of_nat (entrySize + idSize) + e_topicSize x)) as [|Hlt]; [discriminate|]. unfold entrySize, idSize in Hlt. lia. }
      specialize (E5 Hsmall). exists ((e_seq x, m) :: a), (gset g (e_seq x) (Held (g_cur g) cache)).
      split; [|cbn [set_trie set_tw set_mem d_seq]; lia].
      destruct Hi' as [A1 A2 A3 A4 A5 A6 A7 A8 A9 A10 A11 A12]. constructor; cbn [set_trie set_tw set_mem d_closed d_mem d_win d_index d_seq d_tw gset g_cur g_slot]; auto.
      * intros k tt v. destruct (N.eqb_spec k (e_seq x)) as [->|Hne].
        -- intros [= <- <-]. exists m. split; [now left|]. split; [exact E5|]. apply in_app_iff. right. now left.
        -- intros Hk. destruct (A6 k tt v Hk) as (m' & B1 & B2 & B3). exists m'. split; [now right|]. split; [exact B2|]. apply in_app_iff. now left.
      * intros k. destruct (k =? e_seq x)%N; [discriminate|apply A7].
      * intros k m1 m2 [[= <- <-]|H1] [H2|H2].
        -- now injection H2.
        -- exfalso. apply Hfa. apply in_map_iff. exists (e_seq x, m2). auto.
        -- injection H2 as <- <-. exfalso. apply Hfa. apply in_map_iff. exists (e_seq x, m1). auto.
        -- eapply A8; eassumption.
      * intros k m1 [[= <- <-]|H1].
        -- split; [exact M7|]. split; [exact Hfi|]. intros id Eid. cbn [o_id m] in Eid. rewrite E2, Eid. reflexivity.
        -- destruct (A9 k m1 H1) as (B1 & B2 & B3). split; [lia|]. auto.
      * intros id Hin. destruct (A11 id Hin) as (B1 & B2 & B3). split; [exact B1|]. split; [exact B2|lia].
      * rewrite M2. intros k es e0 Hes He.
        assert (Hold : forall es, In (k, es) (d_tw s) -> In e0 es -> exists m0, In (w_seq e0, m0) ((e_seq x, m) :: a) /\ (o_expires m0 <> 0%N -> w_expiresAt e0 = o_expires m0)).
        { intros es1 H1 H2. destruct (A12 k es1 e0 H1 H2) as (m0 & B1 & B2). exists m0. split; [now right|exact B2]. }
        assert (Hnew : e0 = mkWE (e_seq x) (e_expiresAt x) -> exists m0, In (w_seq e0, m0) ((e_seq x, m) :: a) /\ (o_expires m0 <> 0%N -> w_expiresAt e0 = o_expires m0)).
        { intros ->. exists m. split; [now left|]. exact E3. }
        unfold tw_add in Hes. destruct (afind tk_eqb (d_tw s) (m_cur (d_mem s1), e_topicHash x)) as [es0|] eqn:Ef; destruct Hes as [Hes|Hes].
        -- injection Hes as <- <-. apply in_app_iff in He as [He|[He|[]]]; [|auto]. eapply Hold; [|exact He]. apply tw_found. exact Ef.
        -- apply filter_In in Hes as [Hes _]. eauto.
        -- injection Hes as <- <-. destruct He as [He|[]]. auto.
        -- apply filter_In in Hes as [Hes _]. eauto.
    + (* refused *)
      injection E as <- <- <-. exists a, g'. split; [|cbn [set_mem d_seq]; lia]. eapply oinv_same; [exact Hi'|..]; cbn [set_mem d_closed d_mem d_win d_index d_seq d_tw]; auto. lia.
Qed.

Lemma no_block off : readIndexBlock [] off = None.
Proof. unfold readIndexBlock, read_at. destruct (off <? 0); [reflexivity|]. destruct (Nat.ltb_spec (length (@nil N)) (Z.to_nat off + blockBytes)) as [|H]; [reflexivity|]. exfalso. cbn [length] in H. unfold blockBytes in H. lia. Qed.
Lemma no_window off : readWindowBlock [] off = None.
Proof. unfold readWindowBlock, read_at. destruct (off <? 0); [reflexivity|]. destruct (Nat.ltb_spec (length (@nil N)) (Z.to_nat off + blockBytes)) as [|H]; [reflexivity|]. exfalso. cbn [length] in H. unfold blockBytes in H. lia. Qed.

Lemma delete_any c s l ids a g t e s' r : oinv c s l ids a g t -> (forall id, u_id e = Some id -> Forall is_byte id) ->
  delete_entry c s e = (s', r) -> r <> DPanic ->
  exists g', oinv c s' (match r with DOk => filter (fun m => negb (same_id (o_id m) (u_id e))) l | _ => l end) ids a g' t /\ d_seq s' = d_seq s.
Proof.
  intros Hi Hb E Hnp. unfold delete_entry in E. cbv zeta in E.
  destruct (d_immut s) eqn:Eim; [injection E as <- <-; exists g; auto|].
  do 3 (match type of E with (if ?b then _ else _) = _ => destruct b; [injection E as <- <-; exists g; auto|] end).
  match type of E with (if ?b then _ else _) = _ => destruct b eqn:El; [injection E as <- <-; congruence|] end. apply Nat.ltb_ge in El as Hl16.
  destruct (u_id e) as [id|] eqn:Eu; [|cbn in Hl16; lia].
  assert (Hr : (id_sequence id < 2 ^ 64)%N) by (apply sequence_range; auto). set (k := id_sequence id) in *.
  unfold db_delete in E. rewrite Eim in E. destruct (mem_delete (c_mem c) (d_mem s) k) as [mm mr] eqn:Em.
  destruct (gstep (c_mem c) (d_mem s) g (ODelete k) mm (S_MemDB.ORes mr)) as (g' & Hga & Hgi).
  { apply (oi_mem _ _ _ _ _ _ _ Hi). } { exact I. } { exact Hr. } { cbn [mstep]. now rewrite Em. }
  assert (Hmr : mr <> MPanic) by (inversion Hga; subst; [intros Hmp; intuition congruence|discriminate]).
  assert (E' : match newBlockWriter (d_index (set_mem s mm)) (d_data (set_mem s mm)) (d_lease (set_mem s mm)) with
      | None => (set_mem s mm, DErr XIO)
      | Some w =>
          match bw_del w k with
          | None => (set_mem s mm, DErr XIO)
          | Some (_, e) =>
              match freeBlock (d_lease (set_mem s mm)) (x_msgOffset e) (mSize e) with
              | None => (set_mem s mm, DPanic)
              | Some l => (set_free (set_mem s mm) l (count_sub (d_count (set_mem s mm)) 1), DOk)
              end
          end
      end = (s', r)) by (destruct mr; try exact E; congruence). clear E.
  assert (Hs' : d_mem s' = mm /\ d_tw s' = d_tw s /\ d_closed s' = d_closed s /\ d_win s' = d_win s /\ d_index s' = d_index s /\ d_seq s' = d_seq s /\ r = DOk).
  { cbn [set_mem d_index] in E'. rewrite (oi_index _ _ _ _ _ _ _ Hi) in E'. unfold newBlockWriter, fsize in E'. cbn [length Z.of_nat] in E'.
    change (0 <? 0) with false in E'. cbn [andb] in E'. unfold bw_del in E'. cbn [w_blockIdx w_index] in E'.
    destruct (-1 <? blockIndex k) eqn:Eb.
    - destruct (freeBlock _ _ _); injection E' as <- <-; [|congruence]. repeat split.
    - exfalso. unfold blockIndex in Eb. assert (0 <= Z.of_N (u64 (k + 2 ^ 64 - 1)) / 255) by (apply Z.div_pos; lia). lia. }
  destruct Hs' as (S1 & S2 & S3 & S4 & S5 & S6 & ->). exists g'. split; [|exact S6].
  pose proof Hi as [A1 A2 A3 A4 A5 A6 A7 A8 A9 A10 A11 A12].
  assert (Hg' : (forall k' tt v, g_slot g' k' = Held tt v -> k' <> k /\ g_slot g k' = Held tt v) /\ (forall k', g_slot g' k' <> Freed) /\ g_cur g' = g_cur g).
  { inversion Hga; subst; cbn [gset g_slot g_cur].
    - split; [|split; [|reflexivity]].
      + intros k' tt v0. destruct (N.eqb_spec k' k); [discriminate|auto].
      + intros k'. destruct (k' =? k)%N; [discriminate|apply A7].
    - split; [|split; [exact A7|reflexivity]]. intros k' tt v0 Hh. split; [|exact Hh]. intros ->. match goal with H : forall t v, g_slot _ _ <> Held t v |- _ => eapply H, Hh end. }
  destruct Hg' as (G1 & G2 & G3).
  constructor; rewrite ?S2, ?S3, ?S4, ?S5, ?S6, ?G3; auto.
  - now rewrite S1.
  - intros k' tt v Hh. destruct (G1 _ _ _ Hh) as [Hne Hh']. destruct (A6 _ _ _ Hh') as (m & B1 & B2 & B3). exists m. split; [exact B1|]. split; [exact B2|].
    apply filter_In. split; [exact B3|]. destruct (o_id m) as [i|] eqn:Eo; [|reflexivity]. cbn [same_id]. destruct (beq i id) eqn:Eb; [|reflexivity].
    exfalso. apply beq_eq in Eb as ->. destruct (A9 _ _ B1) as (_ & _ & B4). apply Hne. symmetry. exact (B4 id Eo).
Qed.

Lemma pass_only {S} (rd : S -> N -> S * outcome) (J : S -> Prop) (P : bytes -> Prop) qs :
  (forall s q s' o, J s -> In q qs -> q <> 0%N -> rd s q = (s', o) -> J s' /\ (forall p, o = OItem p -> P p)) ->
  forall s items inv s' items' inv' e, J s -> Forall P items -> pass rd s qs items inv = (s', items', inv', e) -> J s' /\ Forall P items'.
Proof.
  induction qs as [|q qs IH]; intros Hrd s items inv s' items' inv' e Hj Hp; cbn [pass].
  - intros [= <- <- <- <-]. auto.
  - assert (Hrd' : forall s q s' o, J s -> In q qs -> q <> 0%N -> rd s q = (s', o) -> J s' /\ (forall p, o = OItem p -> P p)) by (intros; eapply Hrd; eauto; now right).
    destruct (N.eqb_spec q 0) as [|Hq]; [apply IH; auto|].
    destruct (rd s q) as [s1 o] eqn:Er. destruct (Hrd _ _ _ _ Hj (or_introl eq_refl) Hq Er) as [Hj1 Ho].
    destruct o as [v| | |].
    + apply IH; auto. apply Forall_app. split; [exact Hp|]. constructor; [now apply Ho|constructor].
    + apply IH; auto.
    + intros [= <- <- <- <-]. auto.
    + intros [= <- <- <- <-]. auto.
Qed.
Lemma loop_only {S} (rd : S -> N -> S * outcome) (J : S -> Prop) (P : bytes -> Prop) win cap L :
  (forall s q s' o, J s -> In q win -> q <> 0%N -> rd s q = (s', o) -> J s' /\ (forall p, o = OItem p -> P p)) ->
  forall fuel s a b items s' r, J s -> Forall P items -> get_loop fuel rd s win cap L a b items = (s', r) ->
  J s' /\ match r with GotItems l | GotErr l => Forall P l | _ => True end.
Proof.
  intros Hrd. induction fuel as [|fuel IH]; intros s a b items s' r Hj Hp; cbn [get_loop]; [intros [= <- <-]; auto|].
  destruct (cut win cap a b) as [qs|] eqn:Ec; [|intros [= <- <-]; auto].
  destruct (pass rd s qs items 0) as [[[s1 items1] inv1] e] eqn:Ep.
  destruct (pass_only rd J P qs) with (2 := Hj) (3 := Hp) (4 := Ep) as [Hj1 Hp1].
  { intros s0 q s0' o H1 H2 H3 H4. destruct (cut_in _ _ _ _ _ _ Ec H2) as [->|Hin]; [congruence|]. exact (Hrd _ _ _ _ H1 Hin H3 H4). }
  destruct e; [|intros [= <- <-]; auto|intros [= <- <-]; auto]. cbv zeta.
  destruct (_ || _)%bool; [intros [= <- <-]; auto|]. destruct (_ <=? _); apply IH; auto.
Qed.
Lemma entries_only {S} (rd : S -> N -> S * outcome) (J : S -> Prop) (P : bytes -> Prop) win cap L s s' r :
  (forall s q s' o, J s -> In q win -> q <> 0%N -> rd s q = (s', o) -> J s' /\ (forall p, o = OItem p -> P p)) ->
  J s -> get_entries rd s win cap L = (s', r) -> J s' /\ match r with GotItems l | GotErr l => Forall P l | _ => True end.
Proof.
  intros Hrd Hj. unfold get_entries. destruct win as [|w win]; [intros [= <- <-]; auto|]. cbv zeta. eapply loop_only; eauto.
Qed.

Definition mem_only (c : dcfg) (s : db) (g : gstate) (s1 : db) : Prop := exists mm, s1 = set_mem s mm /\ ginv (c_mem c) mm g.
Lemma read_any c s l ids a g t contract cutoff s1 q s' o : oinv c s l ids a g t -> (q < 2 ^ 64)%N -> mem_only c s g s1 -> read_one c contract cutoff s1 q = (s', o) ->
  mem_only c s g s' /\ (forall p, o = OItem p -> exists m, In (q, m) a /\ In m l /\ o_owner m = contract /\ o_payload m = p).
Proof.
  intros Hi Hq (mm & -> & Hg) E. unfold read_one in E. cbn [set_mem d_mem d_index d_data] in E.
  destruct (mem_get (c_mem c) mm q) as [m' gr] eqn:Em.
  destruct (gstep (c_mem c) mm g (OGet q) m' (OVal gr) Hg) as (g' & Hga & Hgi); [exact I|exact Hq|cbn [mstep]; now rewrite Em|].
  assert (Hj : mem_only c s g (set_mem (set_mem s mm) m')).
  { exists m'. split; [reflexivity|]. inversion Hga; subst; exact Hgi. }
  rewrite (oi_index _ _ _ _ _ _ _ Hi) in E. unfold readEntry in E. rewrite no_block in E.
  inversion Hga; subst.
  - destruct (oi_held _ _ _ _ _ _ _ Hi _ _ _ ltac:(eassumption)) as (m & B1 & B2 & B3).
    destruct (rec_decode c m v contract cutoff B2) as (x & id & val & E1 & E2 & E3). rewrite E1, E2 in E. injection E as <- <-.
    split; [exact Hj|]. intros p Ep. destruct (E3 p Ep). exists m. auto.
  - injection E as <- <-. split; [exact Hj|]. discriminate.
  - exfalso. eapply (oi_freed _ _ _ _ _ _ _ Hi). eassumption.
Qed.

Lemma lookup_any c s l ids a g t now gc L cutoff : oinv c s l ids a g t -> (forall l, Permutation (g_walk gc l) l) ->
  forall tops acc win, lookup_topics s now gc L cutoff tops acc = Some win -> forall q, In q win -> In q acc \/
    exists e k es, w_seq e = q /\ In (k, es) (d_tw s) /\ In e es /\ we_live now e = true.
Proof.
  intros Hi Hw. induction tops as [|[h off] tops IH]; intros acc win; cbn [lookup_topics].
  - intros [= <-] q Hq. now left.
  - destruct (L <? _); [intros [= <-] q Hq; now left|].
    destruct (tw_lookup now (g_walk gc (tw_lists (d_tw s) h)) (d_win s) h off cutoff (L - Z.of_nat (length acc))) as [es|] eqn:El; [|discriminate].
    intros E q Hq. destruct (IH _ _ E q Hq) as [Hin|Hin]; [|now right]. apply in_app_iff in Hin as [Hin|Hin]; [now left|]. right.
    apply in_map_iff in Hin as (e & Ee & He).
    assert (He' : In e (tw_ilookup now (L - Z.of_nat (length acc)) (g_walk gc (tw_lists (d_tw s) h)))).
    { unfold tw_lookup in El. destruct (_ <=? _); [now injection El as <-|]. rewrite (oi_win _ _ _ _ _ _ _ Hi) in El. cbn [look_chain] in El. rewrite no_window in El. now injection El as <-. }
    apply ilookup_in in He' as [[]|(Hl & es0 & H1 & H2)]. apply (Permutation_in _ (Hw _)) in H1. unfold tw_lists in H1. apply in_map_iff in H1 as ((k & es1) & E1 & H1).
    cbn [snd] in E1. subst es1. apply filter_In in H1 as [H1 _]. exists e, k, es0. auto.
Qed.

Lemma get_any c gens s l ids a g t now gc q s' q' r : setting_ok c gens -> oinv c s l ids a g t -> real_time t now -> 0 <= t -> (q_contract q < 2 ^ 32)%N ->
  (forall l, Permutation (g_walk gc l) l) -> Forall (fun n => (n < 2 ^ 64)%N) (q_win q) -> (d_seq s < 2 ^ 64)%N ->
  db_get c s now gc q = (s', q', r) ->
  match r with QItems items | QErr items _ => Forall (allowed_item now q l) items | _ => True end /\ oinv c s' l ids a g now /\ d_seq s' = d_seq s.
Proof.
  intros Hset Hi Hrt H0 Hc Hw Hqw Hsq E.
  assert (Hi' : oinv c s l ids a g now) by (eapply oinv_time; [exact (so_dur _ _ Hset)|apply Hrt|exact Hi]).
  unfold db_get in E. rewrite (oi_open _ _ _ _ _ _ _ Hi) in E.
  do 2 (match type of E with (if ?b then _ else _) = _ => destruct b; [injection E as <- <- <-; split; [constructor|auto]|] end).
  cbv zeta in E. fold (owner (q_contract q)) in E.
  destruct (parse_limit _ _ _ _ _) as [L cutoff].
  match type of E with match ?n with _ => _ end = _ => destruct n as [win|] eqn:El; [|injection E as <- <- <-; auto] end.
  pose proof (lookup_any _ _ _ _ _ _ _ _ _ _ _ Hi Hw _ _ _ El) as Hwin.
  destruct (get_entries (read_one c (owner (q_contract q)) cutoff) s (seq_desc win) (g_cap gc (seq_desc win)) L) as [s1 gr] eqn:Eg.
  destruct (entries_only (read_one c (owner (q_contract q)) cutoff) (mem_only c s g) (allowed_item now q l) (seq_desc win) (g_cap gc (seq_desc win)) L s s1 gr) as [Hj Hp]; [| |exact Eg|].
  - intros s0 k s0' o Hj Hk Hk0 Er. apply (Permutation_in _ (seq_desc_perm win)) in Hk.
    assert (Hk64 : (k < 2 ^ 64)%N).
    { destruct (Hwin k Hk) as [Hin|(e & kk & es & E1 & E2 & E3 & E4)]; [eapply (proj1 (Forall_forall _ _) Hqw), Hin|].
      destruct (oi_tw _ _ _ _ _ _ _ Hi _ _ _ E2 E3) as (m & B1 & _). destruct (oi_used _ _ _ _ _ _ _ Hi _ _ B1) as (B & _). lia. }
    destruct (read_any _ _ _ _ _ _ _ _ _ _ _ _ _ Hi Hk64 Hj Er) as [Hj' Ho]. split; [exact Hj'|].
    intros p Ep. destruct (Ho p Ep) as (m & B1 & B2 & B3 & B4). exists m. split; [exact B2|]. split; [exact B4|]. split; [exact B3|].
    intros Eq. destruct (Hwin k Hk) as [Hin|(e & kk & es & E1 & E2 & E3 & E4)]; [rewrite Eq in Hin; destruct Hin|].
    destruct (oi_tw _ _ _ _ _ _ _ Hi _ _ _ E2 E3) as (m' & B5 & B6). rewrite E1 in B5.
    assert (m' = m) as -> by (eapply (oi_fun _ _ _ _ _ _ _ Hi); eassumption).
    destruct (N.eq_dec (o_expires m) 0) as [|Hne]; [now left|]. right. specialize (B6 Hne). unfold we_live, is_expired in E4. rewrite B6 in E4.
    assert (Hu : Z.of_N (u32z (unix now)) = now / 1000000000).
    { unfold u32z, unix. destruct Hrt as [R1 R2]. rewrite Z.mod_small; [rewrite Z2N.id; [reflexivity|apply Z.div_pos; lia]|].
      split; [apply Z.div_pos; lia|]. apply Z.div_lt_upper_bound; lia. }
    destruct (N.eqb_spec (o_expires m) 0); [contradiction|]. cbn [negb andb] in E4. destruct (N.leb_spec (o_expires m) (u32z (unix now))); [discriminate|]. lia.
  - exists (d_mem s). split; [destruct s; reflexivity|]. apply (oi_mem _ _ _ _ _ _ _ Hi).
  - assert (Hs1 : oinv c s1 l ids a g now /\ d_seq s1 = d_seq s).
    { destruct Hj as (mm & -> & Hg). split; [|reflexivity]. eapply oinv_same; [exact Hi'|..]; cbn [set_mem d_closed d_mem d_win d_index d_seq d_tw]; try (apply Hi); auto. lia. }
    destruct gr; injection E as <- <- <-; auto.
Qed.

Lemma down_only c f : forall ops l w outs, Forall (fun o => match o with DoOpen _ _ _ _ _ => False | _ => True end) ops -> drun c (Down f) ops = (w, outs) -> only l ops outs.
Proof.
  induction ops as [|o ops IH]; intros l w outs Hf; cbn [drun].
  - intros [= <- <-]. exact I.
  - inversion Hf as [|? ? Ho Hr]; subst. destruct o; try contradiction; cbn [dstep]; destruct (drun c (Down f) ops) as [w1 xs] eqn:Er; intros [= <- <-]; cbn [only]; eapply IH; eauto.
Qed.
Lemma quiet_no_open : forall ops t ids outs, length outs = length ops -> quiet t ids ops outs -> Forall (fun o => match o with DoOpen _ _ _ _ _ => False | _ => True end) ops.
Proof.
  induction ops as [|o ops IH]; intros t ids outs Hl Hq; [constructor|]. destruct outs as [|x outs]; [discriminate|]. injection Hl as Hl. cbn [quiet] in Hq.
  constructor; [destruct o; auto; contradiction|]. destruct o; try contradiction; intuition eauto.
Qed.
Lemma drun_length c : forall ops w w' outs, drun c w ops = (w', outs) -> length outs = length ops.
Proof.
  induction ops as [|o ops IH]; intros w w' outs; cbn [drun]; [intros [= <- <-]; reflexivity|].
  destruct (dstep c w o) as [w1 x], (drun c w1 ops) as [w2 xs] eqn:Er. intros [= <- <-]. cbn [length]. f_equal. eapply IH, Er.
Qed.

Lemma run_only c gens : setting_ok c gens -> forall ops s l ids a g t w outs, oinv c s l ids a g t -> 0 <= t ->
  (d_seq s + N.of_nat (length ops) < 2 ^ 64 - 1)%N -> drun c (Up s) ops = (w, outs) -> quiet t ids ops outs -> only l ops outs.
Proof.
  intros Hset. induction ops as [|o ops IH]; intros s l ids a g t w outs Hi H0 Hn; cbn [drun]; [intros [= <- <-] _; exact I|].
  destruct (dstep c (Up s) o) as [w1 x] eqn:Ed. destruct (drun c w1 ops) as [w2 xs] eqn:Er. intros [= <- <-] Hq. cbn [length] in Hn.
  pose proof (drun_length _ _ _ _ _ Er) as Hlen.
  assert (Hdown : forall f l' t' ids', w1 = Down f -> quiet t' ids' ops xs -> only l' ops xs).
  { intros f l' t' ids' -> Hq'. eapply down_only; [eapply quiet_no_open; eauto|exact Er]. }
  destruct o; cbn [quiet] in Hq; try contradiction; cbn [dstep] in Ed.
  - (* Put *)
    destruct Hq as (Hrt & Hf & Hq). destruct (M_DB.put_entry c s now e) as [[s' e'] r] eqn:Ep. injection Ed as <- <-. cbn [only].
    destruct r as [|er|]; [| |eapply (Hdown _ _ now); [reflexivity|exact Hq]].
    + destruct (put_any _ _ _ _ _ _ _ _ _ _ _ _ _ Hset Hi Hrt H0 Hf ltac:(lia) Ep) as (a' & g' & Hi' & Hs'); [discriminate|]. eapply IH; [exact Hi'|destruct Hrt; lia|lia|exact Er|exact Hq].
    + destruct (put_any _ _ _ _ _ _ _ _ _ _ _ _ _ Hset Hi Hrt H0 Hf ltac:(lia) Ep) as (a' & g' & Hi' & Hs'); [discriminate|]. eapply IH; [exact Hi'|destruct Hrt; lia|lia|exact Er|exact Hq].
  - (* Delete *)
    destruct Hq as (Hf & Hq). destruct (delete_entry c s e) as [s' r] eqn:Ep. injection Ed as <- <-. cbn [only].
    destruct r as [|er|]; [| |eapply (Hdown _ _ t); [reflexivity|exact Hq]].
    + destruct (delete_any _ _ _ _ _ _ _ _ _ _ Hi Hf Ep) as (g' & Hi' & Hs'); [discriminate|]. eapply IH; [exact Hi'|lia|rewrite Hs'; lia|exact Er|exact Hq].
    + destruct (delete_any _ _ _ _ _ _ _ _ _ _ Hi Hf Ep) as (g' & Hi' & Hs'); [discriminate|]. eapply IH; [exact Hi'|lia|rewrite Hs'; lia|exact Er|exact Hq].
  - (* Get *)
    destruct Hq as (Hrt & Hc & Hw & Hqw & Hq). destruct (db_get c s now g0 q) as [[s' q'] r] eqn:Ep. injection Ed as <- <-. cbn [only].
    destruct (get_any _ _ _ _ _ _ _ _ _ _ _ _ _ _ Hset Hi Hrt H0 Hc Hw Hqw ltac:(lia) Ep) as (Hr & Hi' & Hs').
    split; [exact Hr|]. destruct r; try (eapply (Hdown _ _ now); [reflexivity|exact Hq]);
      (eapply IH; [exact Hi'|destruct Hrt; lia|rewrite Hs'; lia|exact Er|exact Hq]).
  - (* NewID *)
    destruct Hq as (Hrt & Hq). unfold db_new_id in Ed. cbv zeta in Ed. injection Ed as <- <-. cbn [only].
    assert (Es : d_seq (next_seq s) = (d_seq s + 1)%N) by (cbn [next_seq set_seq d_seq]; unfold u64; apply N.mod_small; lia).
    eapply (IH (next_seq s) l (ids ++ [newID (unix now) (d_seq (next_seq s))]) a g now); [|destruct Hrt; lia|rewrite Es; lia|exact Er|exact Hq].
    assert (Hi' : oinv c (next_seq s) l ids a g now).
    { eapply oinv_time; [exact (so_dur _ _ Hset)|apply Hrt|]. eapply oinv_same; [exact Hi|..]; try apply Hi; auto. rewrite Es. lia. }
    assert (Eid : id_sequence (newID (unix now) (d_seq (next_seq s))) = (d_seq s + 1)%N) by (rewrite newID_sequence, Es; [reflexivity|rewrite Es; lia]).
    destruct Hi' as [A1 A2 A3 A4 A5 A6 A7 A8 A9 A10 A11 A12]. constructor; auto.
    + intros k m Hm. destruct (A9 k m Hm) as (B1 & B2 & B3). split; [exact B1|]. split; [|exact B3]. rewrite map_app, in_app_iff. intros [B|[B|[]]]; [auto|].
      destruct (oi_used _ _ _ _ _ _ _ Hi _ _ Hm) as (B4 & _). rewrite Eid in B. lia.
    + rewrite map_app. apply nodup_one; [exact A10|]. rewrite Eid. intros Hin. apply in_map_iff in Hin as (id & E1 & Hid).
      destruct (oi_id _ _ _ _ _ _ _ Hi _ Hid) as (_ & _ & B). lia.
    + intros id Hid. apply in_app_iff in Hid as [Hid|[<-|[]]]; [auto|]. split; [apply new_id_length|]. split; [apply id_bytes|]. rewrite Eid, Es. lia.
  - (* Count *)
    injection Ed as <- <-. cbn [only]. eapply IH; [exact Hi|exact H0|lia|exact Er|exact Hq].
  - (* Tick *)
    destruct Hq as (Hrt & -> & Hq). injection Ed as <- <-. cbn [only].
    destruct (gstep (c_mem c) (d_mem s) g (OTick now None) (mem_tick (c_mem c) (d_mem s) now None) S_MemDB.ODone (oi_mem _ _ _ _ _ _ _ Hi)) as (g' & Hga & Hgi); [|exact I|reflexivity|].
    { cbn [allowed]. split; [reflexivity|]. etransitivity; [exact (oi_cur _ _ _ _ _ _ _ Hi)|]. apply trunc_mono; [exact (so_dur _ _ Hset)|apply Hrt]. }
    eapply (IH (set_mem s (mem_tick (c_mem c) (d_mem s) now None)) l ids a g' now); [|destruct Hrt; lia|cbn [set_mem d_seq]; lia|exact Er|exact Hq].
    inversion Hga; subst. destruct Hi as [A1 A2 A3 A4 A5 A6 A7 A8 A9 A10 A11 A12]. constructor; cbn [set_mem d_closed d_mem d_win d_index d_seq d_tw g_cur g_slot]; auto. lia.
  - (* Commit *)
    injection Ed as <- <-. cbn [only].
    destruct (gstep (c_mem c) (d_mem s) g OCommit (mem_commit (d_mem s)) S_MemDB.ODone (oi_mem _ _ _ _ _ _ _ Hi)) as (g' & Hga & Hgi); [exact I|exact I|reflexivity|].
    eapply (IH (set_mem s (mem_commit (d_mem s))) l ids a g' t); [|exact H0|cbn [set_mem d_seq]; lia|exact Er|exact Hq].
    inversion Hga; subst. eapply oinv_same; [exact Hi|..]; cbn [set_mem d_closed d_mem d_win d_index d_seq d_tw]; try apply Hi; auto. lia.
Qed.

Lemma run_from_open c gens t ord immut enc ops outs : setting_ok c gens -> 0 <= t -> (N.of_nat (length ops) < 2 ^ 64 - 1)%N ->
  snd (drun c (Down no_files) (DoOpen gens t ord immut enc :: ops)) = OOpened true :: outs -> quiet t [] ops outs -> only [] ops outs.
Proof.
  intros Hset H0 Hn Er Hq. destruct (open_step c gens t ord immut enc Hset H0) as (s & Eo & Es & Hi & _). cbn [drun dstep] in Er. rewrite Eo in Er.
  destruct (drun c (Up s) ops) as [w xs] eqn:E. cbn [snd] in Er. injection Er as <-.
  assert (Hm : ginv (c_mem c) (d_mem s) (gstart (c_mem c) t) /\ d_win s = [] /\ d_index s = [] /\ d_tw s = [] /\ d_closed s = false).
  { destruct (mem_open (c_mem c) gens [] t) as [mm|] eqn:Em.
    2:{ unfold mem_open in Em. cbn [replay all_ids flat_map map recover_logs fold_left] in Em. discriminate. }
    assert (E1 : exists cnt lf info, db_open c gens t ord immut enc no_files =
      Opened (mkDB mm [] newTrie info [] [] [] lf (newLease (c_find c) (c_min c)) 0 cnt 1 0 immut false)).
    { unfold db_open, no_files. cbn [f_info f_wal f_index f_data f_win f_lease].
      unfold open_header. rewrite open_info_fresh. rewrite Em.
      exists 0%N, [], (info_marshal (mkInfo signature version 0 0 0)). destruct enc; reflexivity. }
    destruct E1 as (cnt & lf & info & E1). rewrite E1 in Eo. injection Eo as <-. cbn [d_mem d_win d_index d_tw d_closed].
    pose proof (ginv_empty _ _ _ _ (so_mem _ _ Hset) Em) as Hg. auto. }
  destruct Hm as (M1 & M2 & M3 & M4 & M5).
  eapply (run_only c gens Hset ops s [] [] [] (gstart (c_mem c) t) t); [|exact H0|rewrite Es; lia|exact E|exact Hq].
  constructor; cbn [gstart g_cur g_slot map]; auto.
  - apply Z.le_refl.
  - intros k tt v. discriminate.
  - intros k. discriminate.
  - intros k m m' [].
  - intros k m [].
  - constructor.
  - intros id [].
  - rewrite M4. intros k es e [].
Qed.

(** * A deleted payload *)
Lemma only_app : forall ops1 l ops2 outs1 outs2, length outs1 = length ops1 -> only l (ops1 ++ ops2) (outs1 ++ outs2) ->
  exists l', only l' ops2 outs2 /\ forall m, In m l' -> In m l \/ exists now e, In (DoPut now e) ops1 /\ m = mkO (u_id e) (put_owner e) (u_expires e) (u_payload e).
Proof.
  induction ops1 as [|o ops1 IH]; intros l ops2 outs1 outs2 Hl H.
  - destruct outs1; [|discriminate]. exists l. split; [exact H|auto].
  - destruct outs1 as [|x outs1]; [discriminate|]. injection Hl as Hl. cbn [app only] in H.
    assert (Hgen : forall l1, only l1 (ops1 ++ ops2) (outs1 ++ outs2) ->
      (forall m, In m l1 -> In m l \/ exists now e, In (DoPut now e) (o :: ops1) /\ m = mkO (u_id e) (put_owner e) (u_expires e) (u_payload e)) ->
      exists l', only l' ops2 outs2 /\ forall m, In m l' -> In m l \/ exists now e, In (DoPut now e) (o :: ops1) /\ m = mkO (u_id e) (put_owner e) (u_expires e) (u_payload e)).
    { intros l1 H1 H2. destruct (IH _ _ _ _ Hl H1) as (l' & H3 & H4). exists l'. split; [exact H3|]. intros m Hm. destruct (H4 m Hm) as [H5|(now & e & H5 & H6)]; [auto|].
      right. exists now, e. split; [now right|exact H6]. }
    destruct o, x; try (apply Hgen with (1 := H); auto); try (destruct r; try (apply Hgen with (1 := H); auto)); try (apply Hgen with (1 := proj2 H); auto).
    + intros m Hm. apply in_app_iff in Hm as [Hm|[<-|[]]]; [auto|]. right. exists now, e. split; [now left|reflexivity].
    + intros m Hm. apply filter_In in Hm as [Hm _]. auto.
Qed.
Lemma only_never p : forall ops l outs, only l ops outs -> (forall m, In m l -> o_payload m <> p) -> (forall now e, In (DoPut now e) ops -> u_payload e <> p) ->
  ~ given p ops outs.
Proof.
  induction ops as [|o ops IH]; intros l outs H Hl Hp (now & g & q & r & Hin & Hg); [destruct Hin|].
  destruct outs as [|x outs]; [destruct Hin|]. cbn [only] in H. cbn [combine] in Hin.
  assert (Hgen : forall l1, only l1 ops outs -> (forall m, In m l1 -> o_payload m <> p) -> In (DoGet now g q, OGot r) (combine ops outs) -> False).
  { intros l1 H1 H2 H3. eapply (IH l1 outs H1 H2); [intros now' e' Hin'; apply (Hp now' e'); now right|]. exists now, g, q, r. auto. }
  destruct Hin as [Hin|Hin].
  - injection Hin as -> ->. destruct H as [H _]. destruct r; try contradiction; cbn [gives] in Hg; apply (proj1 (Forall_forall _ _) H) in Hg as (m & H1 & H2 & _); eapply Hl; eassumption.
  - destruct o, x; try (eapply Hgen; [exact H|exact Hl|exact Hin]); try (destruct r0; try (eapply Hgen; [exact H|exact Hl|exact Hin])); try (eapply Hgen; [exact (proj2 H)|exact Hl|exact Hin]).
    + eapply Hgen; [exact H| |exact Hin]. intros m Hm. apply in_app_iff in Hm as [Hm|[<-|[]]]; [auto|]. cbn [o_payload]. apply (Hp now0 e). now left.
    + eapply Hgen; [exact H| |exact Hin]. intros m Hm. apply filter_In in Hm as [Hm _]. auto.
Qed.
Lemma deleted_gone c gens t ord immut enc ops1 e ops2 outs1 outs2 : setting_ok c gens -> 0 <= t -> (N.of_nat (length (ops1 ++ DoDelete e :: ops2)) < 2 ^ 64 - 1)%N ->
  snd (drun c (Down no_files) (DoOpen gens t ord immut enc :: ops1 ++ DoDelete e :: ops2)) = OOpened true :: outs1 ++ ORes DOk :: outs2 ->
  length outs1 = length ops1 -> quiet t [] (ops1 ++ DoDelete e :: ops2) (outs1 ++ ORes DOk :: outs2) -> u_id e <> None ->
  forall p, (forall now e', In (DoPut now e') ops1 -> u_payload e' = p -> u_id e' = u_id e) -> (forall now e', In (DoPut now e') ops2 -> u_payload e' <> p) ->
  ~ given p ops2 outs2.
Proof.
  intros Hset H0 Hn Er Hl Hq Hid p H1 H2. pose proof (run_from_open _ _ _ _ _ _ _ _ Hset H0 Hn Er Hq) as Ho.
  destruct (only_app _ _ _ _ _ Hl Ho) as (l & H3 & H4). cbn [only] in H3. eapply only_never; [exact H3| |exact H2].
  intros m Hm Ep. apply filter_In in Hm as [Hm Hs]. destruct (H4 m Hm) as [[]|(now & e' & H5 & ->)]. cbn [o_payload o_id] in *. rewrite (H1 now e' H5 Ep) in Hs.
  destruct (u_id e) as [id|]; [|congruence]. cbn [same_id] in Hs. rewrite (proj2 (beq_eq id id) eq_refl) in Hs. discriminate.
Qed.

(** * Delete and the files *)
Lemma delete_files c s e s' r : delete_entry c s e = (s', r) ->
  d_index s' = d_index s /\ d_data s' = d_data s /\ d_win s' = d_win s /\ d_info s' = d_info s /\ d_lfile s' = d_lfile s /\ d_tw s' = d_tw s /\ d_trie s' = d_trie s.
Proof.
  unfold delete_entry. cbv zeta. do 5 (match goal with |- (if ?b then _ else _) = _ -> _ => destruct b; [intros [= <- <-]; repeat split|] end).
  unfold db_delete. destruct (d_immut s); [intros [= <- <-]; repeat split|]. destruct (mem_delete _ _ _) as [mm mr]. destruct mr; try (intros [= <- <-]; repeat split; fail);
  (destruct (newBlockWriter _ _ _) as [w|]; [|intros [= <- <-]; repeat split]; destruct (bw_del _ _) as [[w' x]|]; [|intros [= <- <-]; repeat split];
   destruct (freeBlock _ _ _); intros [= <- <-]; repeat split).
Qed.
