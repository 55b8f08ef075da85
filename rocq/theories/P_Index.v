(** Proofs about index blocks and window blocks. *)
From Verif Require Import M_Bytes P_Bytes P_Codec M_IndexBlock M_WinBlock S_Index.
From Coq Require Import Lia ZifyBool ZifyNat ZifyN.
Open Scope N_scope.
Ltac Zify.zify_post_hook ::= Z.div_mod_to_equations.

Lemma to_signed_unsigned64 z : (- 2 ^ 63 <= z < 2 ^ 63)%Z -> to_signed 64 (to_unsigned 64 z) = z.
Proof. intros H. apply to_signed_unsigned; [lia|exact H]. Qed.

Lemma ie_marshal_length base s : length (ie_marshal base s) = 16%nat.
Proof. unfold ie_marshal. lens. Qed.

Lemma ie_roundtrip k base s rest : ientry_ok s ->
  in_run k s -> (x_seq s <> 0 -> 255 * k < base <= 255 * k + 255) -> base < 2 ^ 64 ->
  ie_unmarshal base (ie_marshal base s ++ rest) = s.
Proof.
  intros (H1 & H2 & H3 & H4) Hr Hb Hb64. unfold ie_unmarshal, ie_marshal.
  set (rel := if x_seq s =? 0 then 0 else u16 (x_seq s + 2 ^ 64 - base + 255)).
  rewrite <- !app_assoc.
  set (r := le 2 rel). set (t := le 2 (x_topicSize s)). set (v := le 4 (x_valueSize s)).
  set (o := le 8 (to_unsigned 64 (x_msgOffset s))).
  assert (Lr : length r = 2%nat) by apply le_length.
  assert (Lt : length t = 2%nat) by apply le_length.
  assert (Lv : length v = 4%nat) by apply le_length.
  assert (Lo : length o = 8%nat) by apply le_length.
  rewrite (slice_head r) by exact Lr.
  rewrite (slice_app_mid r t) by assumption.
  replace (r ++ t ++ v ++ o ++ rest) with ((r ++ t) ++ v ++ o ++ rest) by (now rewrite <- !app_assoc).
  rewrite (slice_app_mid (r ++ t) v) by (rewrite ?app_length; lia).
  replace ((r ++ t) ++ v ++ o ++ rest) with ((r ++ t ++ v) ++ o ++ rest) by (now rewrite <- !app_assoc).
  rewrite (slice_app_mid (r ++ t ++ v) o) by (rewrite ?app_length; lia).
  unfold t, v, o. rewrite unle_le2, unle_le4 by assumption.
  rewrite unle_le8 by apply to_unsigned_bound. rewrite to_signed_unsigned64 by exact H4.
  assert (Hrel : rel < 2 ^ 16).
  { unfold rel, u16. destruct (x_seq s =? 0); [lia|apply N.mod_lt; lia]. }
  unfold r. rewrite unle_le2 by exact Hrel.
  destruct s as [seq ts vs mo]; cbn [x_seq x_topicSize x_valueSize x_msgOffset] in *. f_equal.
  unfold rel. destruct (N.eqb_spec seq 0) as [->|Hn]; [reflexivity|].
  destruct Hr as [Hr|Hr]; cbn [x_seq] in Hr; [lia|]. specialize (Hb Hn).
  assert (E : u16 (seq + 2 ^ 64 - base + 255) = seq + 255 - base).
  { unfold u16. change (2 ^ 64) with 18446744073709551616 in *. change (2 ^ 16) with 65536.
    lia. }
  rewrite E. destruct (N.eqb_spec (seq + 255 - base) 0) as [Hz|Hz]; [lia|].
  unfold to_signed. destruct (N.ltb_spec (seq + 255 - base) (2 ^ (16 - 1))) as [Hs|Hs];
    [|change (2 ^ (16 - 1)) with 32768 in Hs; lia].
  unfold to_unsigned. change (2 ^ Z.of_N 64)%Z with 18446744073709551616%Z.
  rewrite Z.mod_small by lia. rewrite N2Z.id. unfold u64.
  change (2 ^ 64) with 18446744073709551616 in *. lia.
Qed.

Lemma ie_roundtrip_n k base es rest : Forall ientry_ok es -> Forall (in_run k) es ->
  (forall s, In s es -> x_seq s <> 0 -> 255 * k < base <= 255 * k + 255) -> base < 2 ^ 64 ->
  ie_unmarshal_n (length es) base (concat (map (ie_marshal base) es) ++ rest) = es.
Proof.
  induction es as [|s es IH]; intros Ho Hr Hb Hb64; cbn [length ie_unmarshal_n map concat]; [reflexivity|].
  inversion Ho; subst. inversion Hr; subst. rewrite <- app_assoc. f_equal.
  - eapply ie_roundtrip; eauto. apply Hb; now left.
  - rewrite skipn_app_len by apply ie_marshal_length. apply IH; auto. intros s' Hs'; apply Hb; now right.
Qed.

Lemma concat_ie_length base es : length (concat (map (ie_marshal base) es)) = (16 * length es)%nat.
Proof.
  induction es as [|s es IH]; cbn [map concat length]; [lia|].
  rewrite app_length, ie_marshal_length, IH. lia.
Qed.

Lemma iblock_marshal_length b : length (b_entries b) = entriesPerIndexBlock ->
  length (iblock_marshal b) = blockBytes.
Proof.
  intros H. unfold iblock_marshal. rewrite !app_length, !le_length, concat_ie_length, repeat_length, H.
  reflexivity.
Qed.

Lemma iblock_roundtrip k b rest : block_of_run k b ->
  iblock_unmarshal (iblock_marshal b ++ rest) = Some b.
Proof.
  intros (Hl & Ho & Hr & Hz & Hi).
  assert (Hbase : base_of b < 2 ^ 64).
  { unfold base_of. destruct (b_entries b) as [|e es]; [lia|]. inversion Ho as [|? ? He ?]; subst. apply He. }
  assert (Hrun : forall s, In s (b_entries b) -> x_seq s <> 0 -> 255 * k < base_of b <= 255 * k + 255).
  { intros s Hs Hn. destruct (N.eq_dec (base_of b) 0) as [E|E].
    - specialize (Hz E). rewrite Forall_forall in Hz. now apply Hz in Hs.
    - unfold base_of in *. destruct (b_entries b) as [|e es]; [contradiction|].
      inversion Hr as [|? ? He ?]; subst. destruct He as [He|He]; [congruence|exact He]. }
  unfold iblock_unmarshal. rewrite app_length, iblock_marshal_length by exact Hl.
  destruct (Nat.ltb_spec (blockBytes + length rest) blockBytes) as [Hc|_]; [lia|].
  unfold iblock_marshal. fold (base_of b). rewrite <- !app_assoc.
  rewrite slice_head by apply le_length. rewrite unle_le8 by exact Hbase.
  rewrite skipn_app_len by apply le_length.
  rewrite <- Hl at 1. rewrite (ie_roundtrip_n k) by assumption.
  rewrite slice_app_mid; [|rewrite concat_ie_length, Hl; reflexivity|apply le_length].
  rewrite unle_le2 by exact Hi. destruct b; reflexivity.
Qed.

(** Scanning. *)
Lemma scan_found l seq e : scan_entries l seq = RFound e ->
  In e l /\ x_seq e = seq /\ x_msgOffset e <> (-1)%Z.
Proof.
  induction l as [|a l IH]; cbn [scan_entries]; [discriminate|].
  destruct (N.eqb_spec (x_seq a) seq) as [E|E].
  - destruct (Z.eqb_spec (x_msgOffset a) (-1)) as [Ez|Ez]; [discriminate|].
    intros [= <-]. split; [now left|auto].
  - intros H. apply IH in H as (? & ? & ?). split; [now right|auto].
Qed.

Lemma scan_spec l seq e : NoDup (map x_seq (filter (fun s => negb (x_seq s =? 0)) l)) ->
  seq <> 0 -> In e l -> x_seq e = seq ->
  scan_entries l seq = if (x_msgOffset e =? -1)%Z then RDeleted else RFound e.
Proof.
  intros Hn Hs Hi He. induction l as [|a l IH]; [contradiction|]. cbn [scan_entries].
  destruct (N.eqb_spec (x_seq a) seq) as [Ea|Ea].
  - destruct Hi as [->|Hi]; [reflexivity|]. exfalso.
    cbn [filter] in Hn. destruct (N.eqb_spec (x_seq a) 0) as [Z|Z]; [lia|]. cbn [negb map] in Hn.
    inversion Hn as [|? ? Hnot _]. apply Hnot.
    rewrite Ea. apply in_map_iff. exists e. split; [congruence|]. apply filter_In. split; [exact Hi|].
    destruct (N.eqb_spec (x_seq e) 0); [lia|reflexivity].
  - destruct Hi as [->|Hi]; [congruence|]. apply IH; [|exact Hi].
    cbn [filter] in Hn. destruct (x_seq a =? 0); cbn [negb map] in Hn; [exact Hn|now inversion Hn].
Qed.

Lemma scan_absent l seq : (forall e, In e l -> x_seq e <> seq) -> scan_entries l seq = RInvalid.
Proof.
  induction l as [|a l IH]; intros H; cbn [scan_entries]; [reflexivity|].
  destruct (N.eqb_spec (x_seq a) seq) as [E|E]; [exfalso; apply (H a); [now left|exact E]|].
  apply IH. intros e He; apply H; now right.
Qed.

(** Block numbers and offsets. *)
Lemma blockIndex_spec seq : 1 <= seq < 2 ^ 64 -> blockIndex seq = (Z.of_N ((seq - 1) / 255))%Z.
Proof.
  intros H. unfold blockIndex, u64. change (2 ^ 64) with 18446744073709551616 in *. lia.
Qed.

Lemma blockIndex_same a b : 1 <= a < 2 ^ 64 -> 1 <= b < 2 ^ 64 ->
  blockIndex a = blockIndex b <->
  exists k, 255 * k < a <= 255 * k + 255 /\ 255 * k < b <= 255 * k + 255.
Proof.
  intros Ha Hb. rewrite !blockIndex_spec by assumption. split.
  - intros H. exists ((a - 1) / 255). change (2 ^ 64) with 18446744073709551616 in *. lia.
  - intros (k & H1 & H2). change (2 ^ 64) with 18446744073709551616 in *. lia.
Qed.

Lemma blockOffset_small idx : (0 <= idx < 2 ^ 19)%Z -> blockOffset idx = (4096 * idx)%Z.
Proof.
  intros H. unfold blockOffset. destruct (Z.eqb_spec idx (-1)) as [E|_]; [lia|].
  apply to_signed_unsigned; [lia|]. change (2 ^ (Z.of_N 32 - 1))%Z with 2147483648%Z.
  change (2 ^ 19)%Z with 524288%Z in H. lia.
Qed.

Lemma seq_offset seq : 1 <= seq <= 255 * 2 ^ 19 ->
  blockOffset (blockIndex seq) = (4096 * Z.of_N ((seq - 1) / 255))%Z.
Proof.
  intros H. rewrite blockIndex_spec.
  - apply blockOffset_small. change (2 ^ 19)%Z with 524288%Z. change (2 ^ 19) with 524288 in H. lia.
  - change (2 ^ 19) with 524288 in H. change (2 ^ 64) with 18446744073709551616. lia.
Qed.

(** * Window blocks *)
Lemma we_marshal_length e : length (we_marshal e) = 12%nat.
Proof. unfold we_marshal; lens. Qed.

Lemma we_roundtrip e rest : wentry_ok e -> we_unmarshal (we_marshal e ++ rest) = e.
Proof.
  intros (H1 & H2). unfold we_unmarshal, we_marshal. rewrite <- app_assoc.
  rewrite slice_head by apply le_length. rewrite slice_app_mid by apply le_length.
  rewrite unle_le8, unle_le4 by assumption. destruct e; reflexivity.
Qed.

Lemma we_roundtrip_n es rest : Forall wentry_ok es ->
  we_unmarshal_n (length es) (concat (map we_marshal es) ++ rest) = es.
Proof.
  induction 1 as [|e es He Hes IH]; cbn [length we_unmarshal_n map concat]; [reflexivity|].
  rewrite <- app_assoc. rewrite we_roundtrip by exact He.
  rewrite skipn_app_len by apply we_marshal_length. now rewrite IH.
Qed.

Lemma concat_we_length es : length (concat (map we_marshal es)) = (12 * length es)%nat.
Proof.
  induction es as [|s es IH]; cbn [map concat length]; [lia|].
  rewrite app_length, we_marshal_length, IH. lia.
Qed.

Lemma wblock_marshal_length b : length (wb_entries b) = entriesPerWindowBlock ->
  length (wblock_marshal b) = blockBytes.
Proof.
  intros H. unfold wblock_marshal. rewrite !app_length, !le_length, concat_we_length, repeat_length, H.
  reflexivity.
Qed.

Lemma wblock_roundtrip b rest : wblock_ok b ->
  wblock_unmarshal (wblock_marshal b ++ rest) = Some b.
Proof.
  intros (Hh & He & Hl & Hn & Hc & Hi).
  unfold wblock_unmarshal. rewrite app_length, wblock_marshal_length by exact Hl.
  destruct (Nat.ltb_spec (blockBytes + length rest) blockBytes) as [Hx|_]; [lia|].
  unfold wblock_marshal. rewrite <- !app_assoc.
  rewrite skipn_app_len by (rewrite concat_we_length, Hl; reflexivity).
  rewrite <- Hl at 1. rewrite we_roundtrip_n by exact He.
  set (c := le 8 (to_unsigned 64 (wb_cutoffTime b))). set (h := le 8 (wb_topicHash b)).
  set (x := le 8 (to_unsigned 64 (wb_next b))). set (i := le 2 (wb_entryIdx b)).
  assert (Lc : length c = 8%nat) by apply le_length.
  assert (Lh : length h = 8%nat) by apply le_length.
  assert (Lx : length x = 8%nat) by apply le_length.
  assert (Li : length i = 2%nat) by apply le_length.
  set (r := repeat 0 50 ++ rest).
  rewrite (slice_head c) by exact Lc. rewrite (slice_app_mid c h) by assumption.
  replace (c ++ h ++ x ++ i ++ r) with ((c ++ h) ++ x ++ i ++ r) by (now rewrite <- !app_assoc).
  rewrite (slice_app_mid (c ++ h) x) by (rewrite ?app_length; lia).
  replace ((c ++ h) ++ x ++ i ++ r) with ((c ++ h ++ x) ++ i ++ r) by (now rewrite <- !app_assoc).
  rewrite (slice_app_mid (c ++ h ++ x) i) by (rewrite ?app_length; lia).
  unfold c, h, x, i. rewrite !unle_le8, unle_le2 by (try apply to_unsigned_bound; assumption).
  rewrite !to_signed_unsigned64 by assumption. destruct b; reflexivity.
Qed.

Lemma block_lookup k b b' rest seq e : block_of_run k b -> distinct_keys b ->
  iblock_unmarshal (iblock_marshal b ++ rest) = Some b' ->
  seq <> 0 -> In e (b_entries b) -> x_seq e = seq ->
  scan_entries (b_entries b') seq = if (x_msgOffset e =? -1)%Z then RDeleted else RFound e.
Proof.
  intros Hb Hd Hu. rewrite (iblock_roundtrip k b rest Hb) in Hu. injection Hu as <-.
  now apply scan_spec.
Qed.

Lemma block_lookup_absent k b b' rest seq : block_of_run k b ->
  iblock_unmarshal (iblock_marshal b ++ rest) = Some b' ->
  (forall e, In e (b_entries b) -> x_seq e <> seq) -> scan_entries (b_entries b') seq = RInvalid.
Proof.
  intros Hb Hu. rewrite (iblock_roundtrip k b rest Hb) in Hu. injection Hu as <-.
  apply scan_absent.
Qed.

Lemma Forall_repeat {A} (P : A -> Prop) x n : P x -> Forall P (repeat x n).
Proof. intros H. apply Forall_forall. intros y Hy. apply repeat_spec in Hy. now subst. Qed.

Lemma C03_example_lemma :
  let b := mkIB ([mkIE 511 3 10 4096; mkIE 512 0 20 (-1); mkIE 765 0 7 99]%Z ++ repeat ie_zero 252) 3 in
  block_of_run 2 b /\ distinct_keys b /\
  scan_entries (b_entries b) 765 = RFound (mkIE 765 0 7 99) /\ scan_entries (b_entries b) 512 = RDeleted.
Proof.
  cbv zeta. split; [|split; [|split]].
  - unfold block_of_run. cbn [b_entries b_entryIdx]. split; [reflexivity|]. split; [|split; [|split]].
    + apply Forall_app; split; [|apply Forall_repeat; unfold ientry_ok; cbn; lia].
      repeat constructor; cbn; lia.
    + apply Forall_app; split; [|apply Forall_repeat; left; reflexivity].
      repeat (constructor; [right; cbn; lia|]). constructor.
    + cbn. discriminate.
    + reflexivity.
  - unfold distinct_keys. vm_compute. repeat constructor; cbn; intuition discriminate.
  - vm_compute; reflexivity.
  - vm_compute; reflexivity.
Qed.

Lemma C04_refutation :
  (exists seq, 1 <= seq <= 2 ^ 63 /\ (blockOffset (blockIndex seq) < 0)%Z) /\
  (exists a b, 1 <= a <= 2 ^ 63 /\ 1 <= b <= 2 ^ 63 /\ blockIndex a <> blockIndex b /\
               blockOffset (blockIndex a) = blockOffset (blockIndex b)).
Proof.
  split.
  - exists 133693441. split; [split; vm_compute; discriminate|]. vm_compute; reflexivity.
  - exists 1, 267386881. repeat split; vm_compute; discriminate.
Qed.

Lemma C04_positions a b : 1 <= a <= 255 * 2 ^ 19 -> 1 <= b <= 255 * 2 ^ 19 ->
  (blockIndex a = blockIndex b <->
     exists k, 255 * k < a <= 255 * k + 255 /\ 255 * k < b <= 255 * k + 255) /\
  (0 <= blockOffset (blockIndex a))%Z /\
  (blockOffset (blockIndex a) = blockOffset (blockIndex b) <-> blockIndex a = blockIndex b) /\
  (blockIndex a <> blockIndex b ->
     4096 <= Z.abs (blockOffset (blockIndex a) - blockOffset (blockIndex b)))%Z.
Proof.
  intros Ha Hb. rewrite !seq_offset by assumption.
  change (255 * 2 ^ 19) with 133693440 in *.
  assert (Ha' : 1 <= a < 2 ^ 64) by (change (2 ^ 64) with 18446744073709551616; lia).
  assert (Hb' : 1 <= b < 2 ^ 64) by (change (2 ^ 64) with 18446744073709551616; lia).
  split; [now apply blockIndex_same|]. rewrite !blockIndex_spec by assumption. lia.
Qed.

Lemma C05_example_lemma :
  wblock_ok (mkWB 12345678901234 (mkWE 7 100 :: mkWE 9 0 :: repeat we_zero 333) 8192 1600000000 2).
Proof.
  unfold wblock_ok; cbn [wb_topicHash wb_entries wb_next wb_cutoffTime wb_entryIdx].
  split; [lia|]. split.
  { constructor; [unfold wentry_ok; cbn; lia|]. constructor; [unfold wentry_ok; cbn; lia|].
    apply Forall_repeat. unfold wentry_ok; cbn; lia. }
  split; [reflexivity|]. lia.
Qed.
