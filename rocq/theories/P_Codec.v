(** Proofs about the fixed layout records: entry.go, db_info.go, message/id.go. *)
From Verif Require Import M_Bytes P_Bytes M_Entry M_DBInfo M_MsgId.
From Coq Require Import Lia ZifyBool ZifyNat ZifyN.
Open Scope N_scope.
Ltac Zify.zify_post_hook ::= Z.div_mod_to_equations.

Ltac lens := rewrite ?app_length, ?le_length; reflexivity.
Ltac slice_at := first
  [ rewrite slice_head by lens
  | match goal with
    | |- context [slice (?a ++ ?b) ?o ?n] =>
        rewrite (slice_app_mid a) by lens
    end ].

(** Byte [i] of a little endian field. *)
Lemma le_nth k v i : (i < k)%nat -> nth_error (le k v) i = Some (v / 256 ^ N.of_nat i mod 256).
Proof.
  revert v i; induction k as [|k IH]; intros v i Hi; [lia|].
  destruct i as [|i]; cbn [le nth_error].
  - rewrite N.pow_0_r, N.div_1_r. reflexivity.
  - rewrite IH by lia. rewrite pow256_S.
    rewrite N.div_div by (try apply N.pow_nonzero; lia). reflexivity.
Qed.

Lemma slice_slice_full (l : bytes) n : length l = n -> slice l 0 n = l.
Proof. intros <-; unfold slice; cbn [skipn]; apply firstn_all. Qed.

(** Cutting a string into consecutive pieces. *)
Lemma slice_cut (l : bytes) o n : slice l o n ++ skipn (o + n) l = skipn o l.
Proof. unfold slice. rewrite <- (skipn_skipn_add l n o). apply firstn_skipn. Qed.

Lemma skipn_all2_nil {A} (l : list A) n : (length l <= n)%nat -> skipn n l = [].
Proof. intros; apply skipn_all2; lia. Qed.

(** * Entry *)
Lemma entry_marshal_length e : length (entry_marshal e) = entrySize.
Proof. unfold entry_marshal; lens. Qed.

Lemma entry_marshal_ok e : bytes_ok (entry_marshal e).
Proof. unfold entry_marshal; rewrite !bytes_ok_app; repeat split; apply le_ok. Qed.

Lemma entry_roundtrip e rest : entry_ok e ->
  entry_unmarshal (entry_marshal e ++ rest) = Some e.
Proof.
  intros (H1 & H2 & H3 & H4 & H5). unfold entry_unmarshal.
  destruct (Nat.ltb_spec (length (entry_marshal e ++ rest)) entrySize) as [Hl|Hl].
  { rewrite app_length, entry_marshal_length in Hl. unfold entrySize in Hl. lia. }
  unfold entry_marshal. rewrite <- !app_assoc.
  set (s := le 8 (e_seq e)); set (t := le 2 (e_topicSize e)); set (v := le 4 (e_valueSize e));
  set (x := le 4 (e_expiresAt e)); set (h := le 8 (e_topicHash e)).
  assert (Ls : length s = 8%nat) by apply le_length.
  assert (Lt : length t = 2%nat) by apply le_length.
  assert (Lv : length v = 4%nat) by apply le_length.
  assert (Lx : length x = 4%nat) by apply le_length.
  assert (Lh : length h = 8%nat) by apply le_length.
  rewrite (slice_head s) by exact Ls.
  rewrite (slice_app_mid s t) by assumption.
  replace (s ++ t ++ v ++ x ++ h ++ rest) with ((s ++ t) ++ v ++ x ++ h ++ rest)
    by (now rewrite <- !app_assoc).
  rewrite (slice_app_mid (s ++ t) v) by (rewrite ?app_length; lia).
  replace ((s ++ t) ++ v ++ x ++ h ++ rest) with ((s ++ t ++ v) ++ x ++ h ++ rest)
    by (now rewrite <- !app_assoc).
  rewrite (slice_app_mid (s ++ t ++ v) x) by (rewrite ?app_length; lia).
  replace ((s ++ t ++ v) ++ x ++ h ++ rest) with ((s ++ t ++ v ++ x) ++ h ++ rest)
    by (now rewrite <- !app_assoc).
  rewrite (slice_app_mid (s ++ t ++ v ++ x) h) by (rewrite ?app_length; lia).
  unfold s, t, v, x, h.
  rewrite !unle_le8, unle_le2, !unle_le4 by assumption. destruct e; reflexivity.
Qed.

Lemma entry_roundtrip0 e : entry_ok e -> entry_unmarshal (entry_marshal e) = Some e.
Proof. intros H. rewrite <- (app_nil_r (entry_marshal e)). now apply entry_roundtrip. Qed.

Lemma entry_injective e1 e2 : entry_ok e1 -> entry_ok e2 ->
  entry_marshal e1 = entry_marshal e2 -> e1 = e2.
Proof.
  intros H1 H2 He.
  assert (Some e1 = Some e2) as E by (rewrite <- !entry_roundtrip0 by assumption; now rewrite He).
  now injection E.
Qed.

Lemma unle_slice_bound d o n : bytes_ok d -> (o + n <= length d)%nat ->
  unle (slice d o n) < 256 ^ N.of_nat n.
Proof.
  intros Hd Hl. rewrite <- (slice_length d o n Hl) at 2. apply unle_bound, bytes_ok_slice, Hd.
Qed.

Lemma le_unle_slice d o n : bytes_ok d -> (o + n <= length d)%nat ->
  le n (unle (slice d o n)) = slice d o n.
Proof.
  intros Hd Hl. rewrite <- (slice_length d o n Hl) at 1. apply le_unle, bytes_ok_slice, Hd.
Qed.

Lemma entry_surjective d : bytes_ok d -> length d = entrySize ->
  exists e, entry_ok e /\ entry_unmarshal d = Some e /\ entry_marshal e = d.
Proof.
  intros Hd Hl. unfold entry_unmarshal, entrySize in *. rewrite Hl. cbn [Nat.ltb Nat.leb].
  eexists; split; [|split; [reflexivity|]].
  - unfold entry_ok; cbn [e_seq e_topicSize e_valueSize e_expiresAt e_topicHash].
    pose proof (unle_slice_bound d 0 8 Hd ltac:(lia)) as B1.
    pose proof (unle_slice_bound d 8 2 Hd ltac:(lia)) as B2.
    pose proof (unle_slice_bound d 10 4 Hd ltac:(lia)) as B3.
    pose proof (unle_slice_bound d 14 4 Hd ltac:(lia)) as B4.
    pose proof (unle_slice_bound d 18 8 Hd ltac:(lia)) as B5.
    change (256 ^ N.of_nat 8) with (2 ^ 64) in *.
    change (256 ^ N.of_nat 4) with (2 ^ 32) in *.
    change (256 ^ N.of_nat 2) with (2 ^ 16) in *. auto.
  - unfold entry_marshal; cbn [e_seq e_topicSize e_valueSize e_expiresAt e_topicHash].
    rewrite !le_unle_slice by (try exact Hd; lia).
    replace (slice d 18 8) with (slice d 18 8 ++ skipn (18 + 8) d)
      by (rewrite (skipn_all2_nil d) by lia; apply app_nil_r).
    rewrite slice_cut. change 18%nat with (14 + 4)%nat at 1. rewrite slice_cut.
    change 14%nat with (10 + 4)%nat at 1. rewrite slice_cut.
    change 10%nat with (8 + 2)%nat at 1. rewrite slice_cut.
    change 8%nat with (0 + 8)%nat at 2. rewrite slice_cut. reflexivity.
Qed.

(** * Header *)
Lemma put_app l1 mid l2 d off : length l1 = off -> length mid = length d ->
  put (l1 ++ mid ++ l2) off d = l1 ++ d ++ l2.
Proof.
  intros H1 H2. unfold put. rewrite firstn_app_len by exact H1. f_equal. f_equal.
  rewrite app_assoc. apply skipn_app_len. rewrite app_length. lia.
Qed.

(** The bytes of the header after all stores. *)
Lemma info_marshal_layout i : length (i_signature i) = 7%nat ->
  info_marshal i = i_signature i ++ le 4 (i_version i) ++ [0] ++ le 8 (i_sequence i)
                   ++ le 8 (i_count i) ++ repeat 0 4.
Proof.
  intros Hs. unfold info_marshal, info_fixed.
  change (repeat 0 32) with (@nil N ++ repeat 0 7 ++ repeat 0 25).
  rewrite put_app by (rewrite ?repeat_length; auto). rewrite app_nil_l.
  change (repeat 0 25) with (repeat 0 4 ++ repeat 0 21).
  rewrite put_app by (rewrite ?repeat_length, ?le_length; auto).
  change (repeat 0 21) with ([0] ++ [0] ++ repeat 0 7 ++ repeat 0 12).
  replace (i_signature i ++ le 4 (i_version i) ++ [0] ++ [0] ++ repeat 0 7 ++ repeat 0 12)
    with ((i_signature i ++ le 4 (i_version i) ++ [0]) ++ [0] ++ repeat 0 7 ++ repeat 0 12)
    by (now rewrite <- !app_assoc).
  rewrite put_app by (rewrite ?app_length, ?le_length, ?Hs; reflexivity).
  rewrite (app_assoc [i_encryption i] (repeat 0 7)).
  rewrite put_app by (rewrite ?app_length, ?repeat_length, ?le_length, ?Hs; reflexivity).
  change (repeat 0 12) with (repeat 0 8 ++ repeat 0 4).
  rewrite (app_assoc _ (le 8 (i_sequence i)) (repeat 0 8 ++ repeat 0 4)).
  rewrite put_app by (rewrite ?app_length, ?repeat_length, ?le_length, ?Hs; reflexivity).
  now rewrite <- !app_assoc.
Qed.

Lemma info_marshal_length i : length (i_signature i) = 7%nat ->
  length (info_marshal i) = info_fixed.
Proof.
  intros Hs. rewrite info_marshal_layout by exact Hs.
  rewrite !app_length, !le_length, repeat_length, Hs. reflexivity.
Qed.

Lemma info_roundtrip_gen i rest : info_ok i ->
  info_unmarshal (info_marshal i ++ rest) =
  Some (mkInfo (i_signature i) (i_version i) (i_version i mod 256) (i_sequence i) (i_count i)).
Proof.
  intros (Hs & Hb & Hv & He & Hq & Hc).
  unfold info_unmarshal.
  destruct (Nat.ltb_spec (length (info_marshal i ++ rest)) 28) as [Hl|Hl].
  { rewrite app_length, info_marshal_length in Hl by exact Hs. unfold info_fixed in Hl. lia. }
  rewrite info_marshal_layout by exact Hs. rewrite <- !app_assoc.
  set (s := i_signature i) in *. set (v := le 4 (i_version i)).
  set (q := le 8 (i_sequence i)). set (c := le 8 (i_count i)).
  assert (Lv : length v = 4%nat) by apply le_length.
  assert (Lq : length q = 8%nat) by apply le_length.
  assert (Lc : length c = 8%nat) by apply le_length.
  rewrite (slice_head s) by exact Hs.
  rewrite (slice_app_mid s v) by assumption.
  assert (E : slice (s ++ v ++ [0] ++ q ++ c ++ repeat 0 4 ++ rest) 7 1 = [i_version i mod 256]).
  { unfold slice. rewrite skipn_app_len by exact Hs. reflexivity. }
  rewrite E.
  replace (s ++ v ++ [0] ++ q ++ c ++ repeat 0 4 ++ rest)
    with ((s ++ v ++ [0]) ++ q ++ c ++ repeat 0 4 ++ rest) by (now rewrite <- !app_assoc).
  rewrite (slice_app_mid (s ++ v ++ [0]) q) by (rewrite ?app_length; cbn [length]; lia).
  replace ((s ++ v ++ [0]) ++ q ++ c ++ repeat 0 4 ++ rest)
    with ((s ++ v ++ [0] ++ q) ++ c ++ repeat 0 4 ++ rest) by (now rewrite <- !app_assoc).
  rewrite (slice_app_mid (s ++ v ++ [0] ++ q) c) by (rewrite ?app_length; cbn [length]; lia).
  unfold v, q, c. rewrite unle_le4, !unle_le8 by assumption. cbn [unle].
  do 2 f_equal. lia.
Qed.

Lemma bytes_eqb_spec a b : bytes_eqb a b = true <-> a = b.
Proof. unfold bytes_eqb. destruct (list_eq_dec N.eq_dec a b); split; congruence. Qed.

Lemma open_info_written enc seq count : enc < 256 -> seq < 2 ^ 64 -> count < 2 ^ 64 ->
  open_info (Some (write_info enc seq count)) = OpenOk (mkInfo signature version 1 seq count).
Proof.
  intros He Hs Hc. unfold open_info.
  assert (L : length (write_info enc seq count) = info_fixed)
    by (apply info_marshal_length; reflexivity).
  rewrite L, Nat.ltb_irrefl. rewrite firstn_all2 by (rewrite L; reflexivity).
  unfold write_info. rewrite <- (app_nil_r (info_marshal _)).
  rewrite info_roundtrip_gen.
  - cbn [i_signature i_version i_sequence i_count].
    replace (bytes_eqb signature signature) with true by reflexivity. reflexivity.
  - unfold info_ok; cbn [i_signature i_version i_sequence i_count i_encryption].
    repeat split; try assumption; try reflexivity.
    apply bytes_okb_spec; reflexivity.
Qed.

Lemma open_info_rejects b : (info_fixed <= length b)%nat -> firstn 7 b <> signature ->
  open_info (Some b) = OpenCorrupted.
Proof.
  unfold open_info, info_fixed. intros Hl Hn.
  destruct (Nat.ltb_spec (length b) 32) as [H|H]; [lia|].
  unfold info_unmarshal.
  rewrite firstn_length, Nat.min_l by lia. cbn [Nat.ltb Nat.leb].
  cbn [i_signature]. unfold slice at 1. cbn [skipn].
  rewrite firstn_firstn. cbn [Nat.min].
  destruct (bytes_eqb (firstn 7 b) signature) eqn:E; [|reflexivity].
  now apply bytes_eqb_spec in E.
Qed.

Lemma open_info_accepts_only b i : open_info (Some b) = OpenOk i -> firstn 7 b = signature.
Proof.
  unfold open_info, info_fixed. destruct (Nat.ltb_spec (length b) 32) as [H|H]; [discriminate|].
  unfold info_unmarshal. rewrite firstn_length, Nat.min_l by lia. cbn [Nat.ltb Nat.leb].
  cbn [i_signature]. unfold slice at 1. cbn [skipn].
  rewrite firstn_firstn. cbn [Nat.min].
  destruct (bytes_eqb (firstn 7 b) signature) eqn:E; [|discriminate].
  intros _; now apply bytes_eqb_spec.
Qed.

Lemma open_info_fresh : open_info None = OpenOk (mkInfo signature version 1 0 0).
Proof. vm_compute; reflexivity. Qed.

(** * Message identifiers *)
Lemma newID_length now seq : length (newID now seq) = 16%nat.
Proof. unfold newID; lens. Qed.

Lemma newID_ok now seq : bytes_ok (newID now seq).
Proof. unfold newID; rewrite !bytes_ok_app; repeat split; apply le_ok. Qed.

Lemma setContract_length id c : length id = 16%nat -> length (id_setContract id c) = 16%nat.
Proof.
  intros H. unfold id_setContract. rewrite !app_length, firstn_length, le_length, slice_length by lia.
  lia.
Qed.

Lemma setContract_contract id c : length id = 16%nat -> c < 2 ^ 32 ->
  id_contract (id_setContract id c) = c.
Proof.
  intros H Hc. unfold id_contract, id_setContract.
  rewrite slice_app_mid; [now apply unle_le4| |apply le_length].
  rewrite firstn_length; lia.
Qed.

Lemma setContract_sequence id c : length id = 16%nat ->
  id_sequence (id_setContract id c) = id_sequence id.
Proof.
  intros H. unfold id_sequence, id_setContract. rewrite app_assoc.
  rewrite slice_app_mid_end; [reflexivity| |apply slice_length; lia].
  rewrite app_length, firstn_length, le_length; lia.
Qed.

Lemma setContract_epoch id c : length id = 16%nat ->
  slice (id_setContract id c) 0 4 = slice id 0 4.
Proof.
  intros H. unfold id_setContract. rewrite slice_head by (rewrite firstn_length; lia). reflexivity.
Qed.

Lemma newID_sequence now seq : seq < 2 ^ 64 -> id_sequence (newID now seq) = seq.
Proof.
  intros H. unfold id_sequence, newID. rewrite app_assoc.
  rewrite slice_app_mid_end by lens. now apply unle_le8.
Qed.

Lemma newApoch_bound now : newApoch now < 2 ^ 32.
Proof. unfold newApoch, u32. apply N.mod_lt; lia. Qed.

Lemma newID_time now seq : (Offset <= now < Offset + 2 ^ 32)%Z -> uid_time (newID now seq) = now.
Proof.
  intros H. unfold uid_time, newID. rewrite slice_head by lens.
  rewrite unle_le4 by apply newApoch_bound.
  unfold newApoch, u32, MaxUint32, to_unsigned.
  change (2 ^ Z.of_N 32)%Z with 4294967296%Z.
  change (2 ^ 32) with 4294967296.
  rewrite Z.mod_small by (change (2 ^ 32)%Z with 4294967296%Z in H; lia).
  change (2 ^ 32)%Z with 4294967296%Z in H. lia.
Qed.

Lemma uid_time_slice id : uid_time (slice id 0 4) = uid_time id.
Proof.
  unfold uid_time, slice. cbn [skipn]. rewrite firstn_firstn. reflexivity.
Qed.

Lemma evalPrefix_spec id c cutoff :
  evalPrefix id c cutoff = true <->
  id_contract id = c /\ ((cutoff <= 0)%Z \/ (cutoff <= uid_time id)%Z).
Proof.
  unfold evalPrefix. rewrite uid_time_slice. destruct (Z.ltb_spec 0 cutoff) as [H|H]; lia.
Qed.

(** Newer identifiers have smaller epochs and times are ordered. *)
Lemma newID_prefix_retained now seq c : 
  id_prefix (id_setContract (newID now seq) c) = le 4 (newApoch now) ++ le 4 c.
Proof.
  unfold id_prefix, id_setContract, newID.
  rewrite firstn_app_len with (n := 4%nat) by lens.
  rewrite app_assoc. apply firstn_app_len. lens.
Qed.

Lemma prefix_eval id c cutoff : length id = 16%nat ->
  evalPrefix (id_prefix id) c cutoff = evalPrefix id c cutoff.
Proof.
  intros H. do 8 (destruct id as [|? id]; [discriminate H|]). reflexivity.
Qed.

Lemma open_header_written opt enc seq count : enc < 256 -> seq < 2 ^ 64 -> count < 2 ^ 64 ->
  open_header opt (Some (write_info enc seq count)) = OpenOk (mkInfo signature version 1 seq count).
Proof.
  intros. unfold open_header. rewrite open_info_written by assumption.
  destruct opt; reflexivity.
Qed.

Lemma open_header_rejects opt b : (info_fixed <= length b)%nat -> firstn 7 b <> signature ->
  open_header opt (Some b) = OpenCorrupted.
Proof. intros. unfold open_header. now rewrite open_info_rejects. Qed.

Lemma open_header_accepts_only opt b i : open_header opt (Some b) = OpenOk i -> firstn 7 b = signature.
Proof.
  unfold open_header. destruct (open_info (Some b)) eqn:E; try discriminate.
  intros _. eapply open_info_accepts_only; eauto.
Qed.

Lemma C09_fields now seq c :
  (Offset <= now < Offset + 2 ^ 32)%Z -> seq < 2 ^ 64 -> c < 2 ^ 32 ->
  let id := id_setContract (newID now seq) c in
  length id = 16%nat /\ id_sequence id = seq /\ id_contract id = c /\ uid_time id = now.
Proof.
  intros Hn Hs Hc. cbv zeta. pose proof (newID_length now seq) as L.
  split; [now apply setContract_length|]. split.
  { rewrite setContract_sequence by exact L. now apply newID_sequence. }
  split; [now apply setContract_contract|].
  rewrite <- uid_time_slice, setContract_epoch, uid_time_slice by exact L. now apply newID_time.
Qed.

Lemma C09_distinct now1 now2 s1 s2 c1 c2 : s1 < 2 ^ 64 -> s2 < 2 ^ 64 -> s1 <> s2 ->
  id_setContract (newID now1 s1) c1 <> id_setContract (newID now2 s2) c2.
Proof.
  intros H1 H2 Hn E. apply Hn.
  rewrite <- (newID_sequence now1 s1 H1), <- (newID_sequence now2 s2 H2).
  rewrite <- (setContract_sequence (newID now1 s1) c1), <- (setContract_sequence (newID now2 s2) c2)
    by apply newID_length. now rewrite E.
Qed.

Lemma C10_new now seq c q cutoff :
  (Offset <= now < Offset + 2 ^ 32)%Z -> seq < 2 ^ 64 -> c < 2 ^ 32 ->
  evalPrefix (id_prefix (id_setContract (newID now seq) c)) q cutoff = true <->
  c = q /\ ((cutoff <= 0)%Z \/ (cutoff <= now)%Z).
Proof.
  intros Hn Hs Hc. pose proof (C09_fields now seq c Hn Hs Hc) as (L & _ & E & T).
  rewrite prefix_eval by exact L. rewrite evalPrefix_spec, E, T. reflexivity.
Qed.
