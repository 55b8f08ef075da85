(** Proofs about the bloom filter. *)
From Verif Require Import M_Bytes P_Bytes M_Hash P_Hash M_Bloom.
From Coq Require Import Lia ZifyBool ZifyNat ZifyN.
Open Scope N_scope.

Lemma update_length {A} (l : list A) i x : length (update l i x) = length l.
Proof.
  unfold update. rewrite app_length, firstn_length.
  destruct (skipn i l) as [|y r] eqn:E.
  - pose proof (skipn_length i l) as H. rewrite E in H. cbn [length] in *. lia.
  - pose proof (skipn_length i l) as H. rewrite E in H. cbn [length] in *. lia.
Qed.

Lemma nth_update {A} (l : list A) i x j d :
  nth j (update l i x) d = if (Nat.eqb i j && Nat.ltb i (length l))%bool then x else nth j l d.
Proof.
  revert i j; induction l as [|a l IH]; intros i j.
  - unfold update. rewrite firstn_nil, skipn_nil. cbn. rewrite andb_false_r. destruct j; reflexivity.
  - destruct i as [|i].
    + unfold update. cbn [firstn skipn app]. destruct j as [|j]; reflexivity.
    + change (update (a :: l) (S i) x) with (a :: update l i x).
      destruct j as [|j]; cbn [nth Nat.eqb]; [reflexivity|]. rewrite IH. reflexivity.
Qed.

Lemma land_63 i : N.land i 63 = i mod 64.
Proof. change 63 with (N.ones 6). rewrite N.land_ones. reflexivity. Qed.

Lemma test_bit_testbit m bits i :
  test_bit m bits i = N.testbit (nth (N.to_nat (i mod m / 64)) bits 0) (i mod m mod 64).
Proof.
  unfold test_bit. change 0x3f with 63. rewrite land_63. rewrite (N.shiftr_div_pow2 (i mod m) 6). change (2 ^ 6) with 64.
  set (w := nth _ bits 0). set (s := (i mod m) mod 64).
  change 1 with (N.ones 1). rewrite N.land_ones. change (2 ^ 1) with 2.
  rewrite <- N.bit0_mod. rewrite N.shiftr_spec'. rewrite N.add_0_l.
  destruct (N.testbit w s); reflexivity.
Qed.

Lemma set_bit_length m bits i : length (set_bit m bits i) = length bits.
Proof. apply update_length. Qed.

Lemma index_in_range m i : 2 <= m -> (N.to_nat (i mod m / 64) < N.to_nat ((m + 63) / 64))%nat.
Proof.
  intros H. pose proof (N.mod_lt i m ltac:(lia)) as Hl.
  assert (i mod m / 64 < (m + 63) / 64); [|lia].
  pose proof (N.div_mod' (i mod m) 64). pose proof (N.mod_lt (i mod m) 64 ltac:(lia)).
  pose proof (N.div_mod' (m + 63) 64). pose proof (N.mod_lt (m + 63) 64 ltac:(lia)). nia.
Qed.

(** A set bit stays set and is set. *)
Lemma test_set m bits i j : test_bit m bits j = true -> test_bit m (set_bit m bits i) j = true.
Proof.
  rewrite !test_bit_testbit. intros H. unfold set_bit. rewrite N.shiftr_div_pow2. change (2 ^ 6) with 64.
  rewrite nth_update. set (w := N.to_nat (i mod m / 64)).
  destruct (Nat.eqb_spec w (N.to_nat (j mod m / 64))) as [E|E]; cbn [andb]; [|exact H].
  destruct (Nat.ltb w (length bits)); [|exact H]. rewrite E. rewrite N.lor_spec, H. reflexivity.
Qed.

Lemma test_set_same m bits i : 2 <= m -> length bits = N.to_nat ((m + 63) / 64) ->
  test_bit m (set_bit m bits i) i = true.
Proof.
  intros Hm Hl. rewrite test_bit_testbit. unfold set_bit. rewrite N.shiftr_div_pow2. change (2 ^ 6) with 64.
  rewrite nth_update. set (w := N.to_nat (i mod m / 64)). rewrite Nat.eqb_refl. cbn [andb].
  pose proof (index_in_range m i Hm) as Hr. fold w in Hr. rewrite <- Hl in Hr.
  apply Nat.ltb_lt in Hr. rewrite Hr.
  change 0x3f with 63. rewrite land_63. rewrite N.lor_spec.
  rewrite N.shiftl_spec_high' by lia. rewrite N.sub_diag. rewrite orb_true_r. reflexivity.
Qed.

Lemma fold_set_length m is bits : length (fold_left (set_bit m) is bits) = length bits.
Proof.
  revert bits; induction is as [|i is IH]; intros bits; cbn [fold_left]; [reflexivity|].
  rewrite IH. apply set_bit_length.
Qed.

Lemma fold_set_keep m is bits j : test_bit m bits j = true ->
  test_bit m (fold_left (set_bit m) is bits) j = true.
Proof.
  revert bits; induction is as [|i is IH]; intros bits H; cbn [fold_left]; [exact H|].
  apply IH, test_set, H.
Qed.

Lemma fold_set_in m is bits j : 2 <= m -> length bits = N.to_nat ((m + 63) / 64) -> In j is ->
  test_bit m (fold_left (set_bit m) is bits) j = true.
Proof.
  intros Hm. revert bits; induction is as [|i is IH]; intros bits Hl Hin; [contradiction|].
  cbn [fold_left]. destruct Hin as [->|Hin].
  - apply fold_set_keep, test_set_same; assumption.
  - apply IH; [rewrite set_bit_length; exact Hl|exact Hin].
Qed.

(** Shape of a filter made by the constructors. *)
Definition bloom_wf (f : bloom) : Prop :=
  2 <= f_m f /\ length (f_bits f) = N.to_nat ((f_m f + 63) / 64).

Lemma newFilter_wf m ks f : newFilter m ks = Some f -> bloom_wf f /\ f_keys f = ks /\ f_m f = m.
Proof.
  unfold newFilter. destruct (N.ltb_spec m 2) as [H|H]; [discriminate|]. intros [= <-].
  unfold bloom_wf; cbn [f_bits f_keys f_m]. rewrite repeat_length. auto.
Qed.

Lemma bloom_add_wf f h : bloom_wf f -> bloom_wf (bloom_add f h).
Proof.
  unfold bloom_wf, bloom_add; cbn [f_bits f_keys f_m]. intros [H1 H2].
  rewrite fold_set_length. auto.
Qed.

Lemma bloom_add_test f h : bloom_wf f -> bloom_test (bloom_add f h) h = true.
Proof.
  intros [H1 H2]. unfold bloom_test, bloom_add, bloom_hash; cbn [f_bits f_keys f_m].
  apply forallb_forall. intros i Hi. now apply fold_set_in.
Qed.

Lemma bloom_add_mono f h x : bloom_test f x = true -> bloom_test (bloom_add f h) x = true.
Proof.
  unfold bloom_test, bloom_add, bloom_hash; cbn [f_bits f_keys f_m].
  rewrite !forallb_forall. intros H i Hi. apply fold_set_keep, H, Hi.
Qed.

Lemma adds_wf hs f : bloom_wf f -> bloom_wf (fold_left bloom_add hs f).
Proof.
  revert f; induction hs as [|h hs IH]; intros f H; cbn [fold_left]; [exact H|].
  apply IH, bloom_add_wf, H.
Qed.

Lemma adds_mono hs f x : bloom_test f x = true -> bloom_test (fold_left bloom_add hs f) x = true.
Proof.
  revert f; induction hs as [|h hs IH]; intros f H; cbn [fold_left]; [exact H|].
  apply IH, bloom_add_mono, H.
Qed.

Lemma adds_test hs f x : bloom_wf f -> In x hs -> bloom_test (fold_left bloom_add hs f) x = true.
Proof.
  revert f; induction hs as [|h hs IH]; intros f Hw Hin; [contradiction|]. cbn [fold_left].
  destruct Hin as [->|Hin].
  - apply adds_mono, bloom_add_test, Hw.
  - apply IH; [apply bloom_add_wf, Hw|exact Hin].
Qed.

(** Serialisation. *)
Definition u64_ok (x : N) : Prop := x < 2 ^ 64.

Lemma concat_le8_length l : length (concat (map (le 8) l)) = (8 * length l)%nat.
Proof.
  induction l as [|x l IH]; cbn [map concat length]; [reflexivity|].
  rewrite app_length, le_length, IH. lia.
Qed.

Lemma read_u64s_concat l rest : Forall u64_ok l ->
  read_u64s (length l) (concat (map (le 8) l) ++ rest) = l.
Proof.
  induction 1 as [|x l Hx Hl IH]; cbn [length read_u64s map concat]; [reflexivity|].
  rewrite <- app_assoc. rewrite slice_head by apply le_length.
  rewrite skipn_app_len by apply le_length. rewrite unle_le8 by exact Hx. now rewrite IH.
Qed.

Lemma bloom_serial f : bloom_wf f -> Forall u64_ok (f_bits f) -> Forall u64_ok (f_keys f) ->
  newFilterFromBytes (bloom_bytes f) (f_m f) (N.of_nat (length (f_keys f))) = Some f.
Proof.
  intros [H1 H2] Hb Hk. unfold newFilterFromBytes.
  destruct (N.ltb_spec (f_m f) 2) as [H|H]; [lia|]. rewrite Nat2N.id. unfold bloom_bytes.
  rewrite skipn_app_len by apply concat_le8_length.
  rewrite read_u64s_concat by exact Hk. rewrite <- H2.
  rewrite <- (app_nil_r (concat (map (le 8) (f_bits f)))).
  rewrite read_u64s_concat by exact Hb. destruct f; reflexivity.
Qed.

Lemma lor_bound a b n : a < 2 ^ n -> b < 2 ^ n -> N.lor a b < 2 ^ n.
Proof.
  intros Ha Hb. destruct (N.eq_dec (N.lor a b) 0) as [E|E].
  - rewrite E. apply N.neq_0_lt_0, N.pow_nonzero. lia.
  - apply N.log2_lt_pow2; [lia|]. rewrite N.log2_lor.
    apply N.max_lub_lt.
    + destruct (N.eq_dec a 0) as [->|Ha0].
      * destruct n; [|rewrite N.log2_nonpos; lia]. change (2 ^ 0) with 1 in *.
        assert (b = 0) by lia. subst. cbn in E. lia.
      * apply N.log2_lt_pow2; lia.
    + destruct (N.eq_dec b 0) as [->|Hb0].
      * destruct n; [|rewrite N.log2_nonpos; lia]. change (2 ^ 0) with 1 in *.
        assert (a = 0) by lia. subst. cbn in E. lia.
      * apply N.log2_lt_pow2; lia.
Qed.

Lemma set_bit_ok m bits i : Forall u64_ok bits -> Forall u64_ok (set_bit m bits i).
Proof.
  intros H. unfold set_bit, update. set (w := N.to_nat _).
  rewrite <- (firstn_skipn w bits) in H. apply Forall_app in H as [Ha Hb].
  apply Forall_app. split; [exact Ha|].
  destruct (skipn w bits) as [|y r] eqn:E; [constructor|].
  inversion Hb as [|? ? Hy Hr]; subst. constructor; [|exact Hr].
  assert (nth w bits 0 = y) as ->.
  { rewrite <- (firstn_skipn w bits), E.
    assert (L : (w < length bits)%nat).
    { destruct (Nat.lt_ge_cases w (length bits)) as [L|L]; [exact L|].
      rewrite skipn_all2 in E by exact L. discriminate. }
    rewrite app_nth2; rewrite firstn_length, Nat.min_l by lia; [|lia].
    rewrite Nat.sub_diag. reflexivity. }
  unfold u64_ok. apply lor_bound; [exact Hy|].
  rewrite N.shiftl_1_l. apply N.pow_lt_mono_r; [lia|].
  change 0x3f with 63. rewrite land_63. apply N.mod_lt. lia.
Qed.

Lemma adds_bits_ok hs f : Forall u64_ok (f_bits f) -> Forall u64_ok (f_bits (fold_left bloom_add hs f)).
Proof.
  revert f; induction hs as [|h hs IH]; intros f H; cbn [fold_left]; [exact H|].
  apply IH. unfold bloom_add; cbn [f_bits]. generalize (bloom_hash f h). intros is.
  revert H. generalize (f_bits f). induction is as [|i is IH2]; intros bits Hb; cbn [fold_left]; [exact Hb|].
  apply IH2, set_bit_ok, Hb.
Qed.

Lemma adds_keys hs f : f_keys (fold_left bloom_add hs f) = f_keys f /\ f_m (fold_left bloom_add hs f) = f_m f.
Proof.
  revert f; induction hs as [|h hs IH]; intros f; cbn [fold_left]; [auto|].
  destruct (IH (bloom_add f h)) as [-> ->]. split; reflexivity.
Qed.

Lemma bloom_no_false_negative m ks before after x f :
  newFilter m ks = Some f -> Forall u64_ok ks ->
  bloom_test (fold_left bloom_add (before ++ x :: after) f) x = true /\
  exists g, newFilterFromBytes (bloom_bytes (fold_left bloom_add (before ++ x :: after) f)) m
              (N.of_nat (length ks)) = Some g /\ bloom_test g x = true.
Proof.
  intros Hf Hk. pose proof (newFilter_wf _ _ _ Hf) as (Hw & Hks & Hm).
  set (hs := before ++ x :: after).
  assert (T : bloom_test (fold_left bloom_add hs f) x = true).
  { apply adds_test; [exact Hw|]. unfold hs. apply in_or_app. right. now left. }
  split; [exact T|].
  exists (fold_left bloom_add hs f). split; [|exact T].
  pose proof (adds_keys hs f) as [K M].
  rewrite <- Hm, <- M. rewrite <- Hks, <- K. apply bloom_serial.
  - apply adds_wf, Hw.
  - apply adds_bits_ok. unfold newFilter in Hf. destruct (m <? 2); [discriminate|]. injection Hf as <-.
    cbn [f_bits]. apply Forall_forall. intros y Hy. apply repeat_spec in Hy. subst. reflexivity.
  - rewrite K, Hks. exact Hk.
Qed.
