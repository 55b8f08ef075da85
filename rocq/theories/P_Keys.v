(** Proofs about security keys. *)
From Verif Require Import M_Bytes M_Hash M_Base32 M_Mac M_Topic M_Keys S_Keys P_Bytes P_Hash P_Base32 P_Mac P_Topic.
From Coq Require Import Lia ZifyBool ZifyNat ZifyN.
Open Scope N_scope.

(** ** The salt *)
Lemma lxor_byte a b : a < 256 -> b < 256 -> N.lxor a b < 256.
Proof.
  intros Ha Hb. apply N.lt_le_trans with (2 ^ 8); [|reflexivity].
  destruct (N.eq_dec (N.lxor a b) 0) as [->|Hne]; [reflexivity|].
  apply N.log2_lt_pow2; [lia|]. eapply N.le_lt_trans; [apply N.log2_lxor|].
  apply N.max_lub_lt; [destruct (N.eq_dec a 0) as [->|]|destruct (N.eq_dec b 0) as [->|]]; try (cbn; lia);
    apply N.log2_lt_pow2; lia.
Qed.

Lemma xor_pairs_twice a b l : xor_pairs a b (xor_pairs a b l) = l.
Proof.
  revert l. fix IH 1. intros [|x [|y r]]; [reflexivity..|]. cbn [xor_pairs].
  rewrite !N.lxor_assoc, !N.lxor_nilpotent, !N.lxor_0_r. do 2 f_equal. apply IH.
Qed.
Lemma xor_pairs_length a b l : length (xor_pairs a b l) = length l.
Proof. revert l. fix IH 1. intros [|x [|y r]]; [reflexivity..|]. cbn [xor_pairs length]. now rewrite IH. Qed.
Lemma xor_pairs_ok a b l : a < 256 -> b < 256 -> bytes_ok l -> bytes_ok (xor_pairs a b l).
Proof.
  intros Ha Hb. revert l. fix IH 1. intros [|x [|y r]] H; [assumption..|]. cbn [xor_pairs].
  pose proof (Forall_inv H) as H1. pose proof (Forall_inv (Forall_inv_tail H)) as H2.
  constructor; [now apply lxor_byte|]. constructor; [now apply lxor_byte|].
  apply IH. exact (Forall_inv_tail (Forall_inv_tail H)).
Qed.
Lemma xor_salt_twice l : xor_salt (xor_salt l) = l.
Proof. destruct l as [|a [|b r]]; [reflexivity..|]. cbn [xor_salt]. now rewrite xor_pairs_twice. Qed.
Lemma xor_salt_length l : length (xor_salt l) = length l.
Proof. destruct l as [|a [|b r]]; [reflexivity..|]. cbn [xor_salt length]. now rewrite xor_pairs_length. Qed.
Lemma xor_salt_ok l : bytes_ok l -> bytes_ok (xor_salt l).
Proof.
  destruct l as [|a [|b r]]; [auto..|]. intros H. cbn [xor_salt].
  pose proof (Forall_inv H) as H1. pose proof (Forall_inv (Forall_inv_tail H)) as H2.
  constructor; [assumption|]. constructor; [assumption|]. apply xor_pairs_ok; [assumption..|].
  exact (Forall_inv_tail (Forall_inv_tail H)).
Qed.

(** ** Levels *)
Definition sfx (p e : bytes) : Prop := exists q, p = q ++ e.
Lemma has_suffix_iff l s : has_suffix l s = true <-> sfx l s.
Proof.
  unfold has_suffix, sfx. destruct (list_eq_dec _ _ _) as [E|E].
  - rewrite Nat.leb_le. split.
    + intros _. exists (firstn (length l - length s) l). rewrite <- E at 2. symmetry. apply firstn_skipn.
    + intros [q ->]. rewrite app_length. lia.
  - split; [discriminate|]. intros [q ->]. exfalso. apply E. rewrite app_length.
    replace (length q + length s - length s)%nat with (length q) by lia. now rewrite skipn_app_len by reflexivity.
Qed.

Definition star_end (l : bytes) : Prop := exists p r, l = p ++ 42 :: r /\ (r = [] \/ exists r', r = 46 :: r').

Lemma star_end_cons c l : c <> 42 -> star_end (c :: l) <-> star_end l.
Proof.
  intros Hc. split.
  - intros (p & r & E & H). destruct p as [|x p]; [cbn in E; congruence|]. exists p, r. cbn in E. split; [congruence|assumption].
  - intros (p & r & E & H). exists (c :: p), r. subst l. split; [reflexivity|assumption].
Qed.

Lemma star_parts l : forall cur, existsb (fun p => has_suffix p star) (fields_loop cDot cur l) = true <->
  (exists c, cur = 42 :: c) /\ (l = [] \/ exists r, l = 46 :: r) \/ star_end l.
Proof.
  assert (R : forall cur, cur <> [] -> has_suffix (rev cur) star = true <-> exists c, cur = 42 :: c).
  { intros cur _. rewrite has_suffix_iff. unfold sfx, star, cStar. split.
    - intros [q E]. apply (f_equal (@rev N)) in E. rewrite rev_involutive, rev_app_distr in E. cbn in E. eauto.
    - intros [c ->]. cbn [rev]. eauto. }
  induction l as [|c r IH]; intros cur; cbn [fields_loop].
  - destruct cur as [|x cur].
    + cbn. split; [discriminate|]. intros [[[c E] _]|(p & r & E & _)]; [discriminate|now destruct p].
    + cbn [existsb]. rewrite Bool.orb_false_r, R by discriminate. split; [intros H; left; auto|].
      intros [[H _]|(p & r & E & _)]; [assumption|now destruct p].
  - unfold cDot. destruct (N.eqb_spec c 46) as [->|Hc].
    + assert (E : star_end (46 :: r) <-> star_end r) by (apply star_end_cons; lia).
      destruct cur as [|x cur].
      * rewrite IH, E. split; [intros [[[c E1] _]|H]; [discriminate|auto]|]. intros [[[c E1] _]|H]; [discriminate|auto].
      * cbn [existsb]. rewrite Bool.orb_true_iff, R, IH, E by discriminate. split.
        -- intros [H|[[[c E1] _]|H]]; [left; split; [assumption|eauto]|discriminate|auto].
        -- intros [[H _]|H]; auto.
    + rewrite IH. split.
      * intros [[[cu E] H]|H].
        -- injection E as -> _. right. exists [], r. auto.
        -- right. destruct (N.eq_dec c 42) as [->|]; [|now apply star_end_cons].
           destruct H as (p & s & E & H). exists (42 :: p), s. subst r. auto.
      * intros [[H [E|[r' E]]]|H]; [discriminate|exfalso; apply Hc; congruence|].
        destruct (N.eq_dec c 42) as [->|]; [|right; now apply star_end_cons in H].
        destruct H as (p & s & E & H). destruct p as [|x p].
        -- left. cbn in E. injection E as E. subst s. eauto.
        -- right. exists p, s. cbn in E. split; [congruence|assumption].
Qed.

Definition wildb (topic : bytes) : bool := has_suffix topic dots || existsb (fun p => has_suffix p star) (fields cDot topic).
Lemma wildb_iff topic : wildb topic = true <-> wild topic.
Proof.
  unfold wildb, wild, fields. rewrite Bool.orb_true_iff, has_suffix_iff, star_parts.
  unfold sfx, star_end. change dots with [46; 46; 46]. split.
  - intros [H|[[[c E] _]|H]]; [auto|discriminate|auto].
  - intros [H|H]; auto.
Qed.
Lemma wildb_false topic : wildb topic = false <-> ~ wild topic.
Proof. rewrite <- wildb_iff. destruct (wildb topic); split; congruence. Qed.

Lemma fields_count l : forall cur, (length (fields_loop cDot cur l) <= count_occ N.eq_dec l 46%N + 1)%nat /\
  (cur = [] -> l <> [] -> True).
Proof.
  induction l as [|c r IH]; intros cur; (split; [|trivial]); cbn [fields_loop].
  - destruct cur; cbn; lia.
  - unfold cDot. destruct (N.eqb_spec c 46) as [->|Hc]; cbn [count_occ].
    + destruct (N.eq_dec 46 46) as [_|]; [|congruence]. pose proof (proj1 (IH [])) as H. unfold cDot in H.
      destruct cur; cbn [length]; lia.
    + destruct (N.eq_dec c 46) as [|_]; [congruence|]. exact (proj1 (IH (c :: cur))).
Qed.
Lemma levels_parts topic : levels_ok topic -> (length (fields cDot topic) <= 23)%nat.
Proof. unfold levels_ok. intros H. pose proof (proj1 (fields_count topic [])) as F. unfold fields. lia. Qed.

(** ** The bit path *)
Lemma path_bits_test parts : forall idx acc n, (idx + N.of_nat (length parts) <= 23) -> 23 <= n ->
  N.testbit (path_bits idx parts acc) n = N.testbit acc n.
Proof.
  induction parts as [|p r IH]; intros idx acc n H Hn; [reflexivity|]. cbn [path_bits].
  cbn [length] in H. rewrite IH by lia. destruct (_ && _); [|reflexivity].
  rewrite N.lor_spec, N.shiftl_1_l, N.pow2_bits_eqb. destruct (N.eqb_spec (22 - idx) n); [lia|]. apply Bool.orb_false_r.
Qed.
Lemma bit_path_test topic n : (length (fields cDot topic) <= 23)%nat -> 23 <= n ->
  N.testbit (bit_path topic (fields cDot topic)) n = if wildb topic then false else n =? 23.
Proof.
  intros H Hn. unfold bit_path. rewrite path_bits_test by lia. unfold wildb.
  destruct (has_suffix topic dots), (existsb _ _); cbn [orb]; try apply N.bits_0.
  rewrite N.pow2_bits_eqb. apply N.eqb_sym.
Qed.
Lemma bit_path_bound topic : (length (fields cDot topic) <= 23)%nat -> bit_path topic (fields cDot topic) < 2 ^ 24.
Proof.
  intros H. set (x := bit_path _ _). destruct (N.eq_dec x 0) as [->|Hne]; [reflexivity|].
  apply N.log2_lt_pow2; [lia|]. destruct (N.lt_ge_cases (N.log2 x) 24) as [|Hge]; [assumption|exfalso].
  pose proof (N.bit_log2 x Hne) as B. subst x. rewrite bit_path_test in B by lia.
  destruct (wildb topic); [discriminate|]. apply N.eqb_eq in B. lia.
Qed.
Lemma bit_path_wild topic : (length (fields cDot topic) <= 23)%nat ->
  (N.land (N.shiftr (bit_path topic (fields cDot topic)) 23) 1 =? 0) = wildb topic /\
  (bit_path topic (fields cDot topic) = 0 -> wildb topic = true).
Proof.
  intros H. pose proof (bit_path_test topic 23 H ltac:(lia)) as B.
  assert (E : N.land (N.shiftr (bit_path topic (fields cDot topic)) 23) 1 = N.b2n (N.testbit (bit_path topic (fields cDot topic)) 23)).
  { change 1 with (N.ones 1). rewrite N.land_ones. change (2 ^ 1) with 2. rewrite <- N.bit0_mod. now rewrite N.shiftr_spec'. }
  split.
  - rewrite E, B. destruct (wildb topic); reflexivity.
  - intros Z. rewrite Z, N.bits_0 in B. destruct (wildb topic); [reflexivity|discriminate].
Qed.

Lemma path_bits_keep parts : forall idx acc n, N.testbit acc n = true -> N.testbit (path_bits idx parts acc) n = true.
Proof.
  induction parts as [|p r IH]; intros idx acc n H; [exact H|]. cbn [path_bits]. apply IH. destruct (_ && _); [|exact H]. now rewrite N.lor_spec, H.
Qed.
Lemma path_bits_zero parts : forall idx acc, path_bits idx parts acc = 0 -> Forall (fun p => has_suffix p star = true \/ has_suffix p dots = true) parts.
Proof.
  induction parts as [|p r IH]; intros idx acc H; [constructor|]. cbn [path_bits] in H. constructor; [|now apply IH in H].
  destruct (has_suffix p star); [now left|]. destruct (has_suffix p dots); [now right|]. cbn [negb andb] in H. exfalso.
  assert (B : N.testbit (path_bits (idx + 1) r (N.lor acc (N.shiftl 1 (22 - idx)))) (22 - idx) = true).
  { apply path_bits_keep. rewrite N.lor_spec, N.shiftl_1_l, N.pow2_bits_true. apply Bool.orb_true_r. }
  rewrite H, N.bits_0 in B. discriminate.
Qed.
Lemma field_last : forall l cur p c r, l = p ++ c :: r -> c <> 46 -> (r = [] \/ exists r', r = 46 :: r') ->
  exists q, In (q ++ [c]) (fields_loop cDot cur l).
Proof.
  induction l as [|x l IH]; intros cur p c r E Hc Hr; [now destruct p|]. destruct p as [|y p].
  - injection E as -> ->. cbn [fields_loop]. unfold cDot. destruct (N.eqb_spec c 46) as [|_]; [congruence|]. exists (rev cur).
    destruct Hr as [->|[r' ->]]; cbn [fields_loop rev]; [now left|]. rewrite N.eqb_refl. now left.
  - injection E as -> E. cbn [fields_loop]. unfold cDot. destruct (N.eqb_spec y 46) as [_|_]; [|exact (IH _ _ _ _ E Hc Hr)].
    destruct cur as [|z cur]; [exact (IH _ _ _ _ E Hc Hr)|]. destruct (IH [] _ _ _ E Hc Hr) as [q Hq]. exists q. now right.
Qed.
Lemma bit_path_stars topic : bit_path topic (fields cDot topic) = 0 -> all_stars topic.
Proof.
  intros H p c r E Hc Hr. unfold bit_path in H. apply path_bits_zero in H. rewrite Forall_forall in H.
  destruct (field_last topic [] p c r E Hc Hr) as [q Hq]. destruct (H _ Hq) as [S|S]; apply has_suffix_iff in S as [q' S].
  - apply app_inj_tail in S as [_ S]. exact S.
  - change dots with ([46; 46] ++ [46]) in S. rewrite app_assoc in S. apply app_inj_tail in S as [_ S]. contradiction.
Qed.

(** ** Keys *)
Lemma unbe_be k v : unbe (be k v) = v mod 256 ^ N.of_nat k.
Proof. unfold unbe, be. rewrite rev_involutive. apply unle_le. Qed.

Lemma hash_be_bound t c : hash_be t c < 2 ^ 32.
Proof. apply hash_new_bound. Qed.

Lemma set_target_some perm contract topic : perm < 256 -> levels_ok topic ->
  exists k, set_target perm contract topic = Some k /\ length k = 8%nat /\ bytes_ok k /\
    key_permissions k = perm /\ key_path k = bit_path topic (fields cDot topic) /\ key_target k = hash_be topic contract.
Proof.
  intros Hp HL. apply levels_parts in HL. unfold set_target.
  destruct (Nat.ltb_spec 23 (length (fields cDot topic))); [lia|]. eexists. split; [reflexivity|].
  set (x := bit_path _ _). set (h := hash_be _ _).
  assert (L3 : length (be 3 x) = 3%nat) by (unfold be; now rewrite rev_length, le_length).
  assert (L4 : length (be 4 h) = 4%nat) by (unfold be; now rewrite rev_length, le_length).
  split; [cbn [length]; rewrite app_length; lia|]. split.
  - constructor; [exact Hp|]. apply bytes_ok_app. split; apply be_ok.
  - split; [reflexivity|]. unfold key_path, key_target.
    change (skipn 1 (perm :: be 3 x ++ be 4 h)) with (be 3 x ++ be 4 h).
    change (skipn 4 (perm :: be 3 x ++ be 4 h)) with (skipn 3 (be 3 x ++ be 4 h)). split.
    + rewrite firstn_app_len by exact L3. rewrite unbe_be. change (256 ^ N.of_nat 3) with (2 ^ 24).
      apply N.mod_small. now apply bit_path_bound.
    + rewrite skipn_app_len by exact L3. rewrite firstn_all2 by lia. rewrite unbe_be.
      change (256 ^ N.of_nat 4) with (2 ^ 32). apply N.mod_small, hash_be_bound.
Qed.

Lemma decode_encode k : length k = 8%nat -> bytes_ok k -> decode_key (key_encode k) = Some k.
Proof.
  intros HL HB. unfold decode_key, key_encode. rewrite encode8_length. cbn [Nat.eqb].
  rewrite decode8_encode8; [now rewrite xor_salt_twice|now apply xor_salt_ok|now rewrite xor_salt_length].
Qed.

Lemma generated contract topic perms : levels_ok topic -> exists text k,
  generate_key contract topic perms = Some text /\ length text = 13%nat /\ Forall base32_char text /\
  decode_key text = Some k /\ key_permissions k = perms mod 256 /\
  key_path k = bit_path topic (fields cDot topic) /\ key_target k = hash_be topic contract.
Proof.
  intros HL. destruct (set_target_some (u8 perms) contract topic) as (k & E & L & B & P & Q & T); [unfold u8; apply N.mod_lt; lia|assumption|].
  exists (key_encode k), k. unfold generate_key. rewrite E. split; [reflexivity|].
  split; [apply encode8_length|]. split; [apply encode8_chars; [now apply xor_salt_ok|now rewrite xor_salt_length]|].
  split; [now apply decode_encode|]. auto.
Qed.

Lemma validate_spec k contract topic topic' : levels_ok topic ->
  key_path k = bit_path topic (fields cDot topic) -> key_target k = hash_be topic contract ->
  snd (validate_topic k contract topic') = wildb topic /\
  (fst (validate_topic k contract topic') = true <->
   hash_be topic' contract = hash_be topic contract \/
   key_path k = 0 /\ hash_be topic contract = hash_be dots contract).
Proof.
  intros HL HP HT. apply levels_parts in HL. destruct (bit_path_wild topic HL) as [W0 W1].
  unfold validate_topic. rewrite HP, HT. destruct (N.eqb_spec (bit_path topic (fields cDot topic)) 0) as [Z|Z].
  - rewrite (W1 Z). destruct (N.eqb_spec (hash_be topic contract) (hash_be dots contract)) as [D|D]; cbn [fst snd].
    + split; [reflexivity|]. split; auto.
    + split; [reflexivity|]. rewrite N.eqb_eq. split; [auto|]. intros [H|[_ H]]; [auto|congruence].
  - cbn [fst snd]. split; [exact W0|]. rewrite N.eqb_eq. split; [auto|]. intros [H|[H _]]; [auto|congruence].
Qed.

(** ** Access letters *)
Lemma access_loop_bits n ty : forall acc,
  N.testbit (access_loop acc ty) n =
  (N.testbit acc n || existsb (fun c => ((c =? 111) && N.testbit 30 n) || ((c =? 97) && N.testbit 28 n) ||
     ((c =? 114) && N.testbit 8 n) || ((c =? 119) && N.testbit 16 n)) ty)%bool.
Proof.
  induction ty as [|c r IH]; intros acc; cbn [access_loop existsb]; [now rewrite Bool.orb_false_r|].
  rewrite IH, Bool.orb_assoc. f_equal. unfold AllowOwner, AllowAdmin, AllowReadWrite, AllowRead, AllowWrite.
  change (N.lor (N.lor 2 4) 24) with 30. change (N.lor 4 24) with 28.
  destruct (N.eqb_spec c 111) as [->|]; [|destruct (N.eqb_spec c 97) as [->|];
    [|destruct (N.eqb_spec c 114) as [->|]; [|destruct (N.eqb_spec c 119) as [->|]]]];
    rewrite ?N.lor_spec; generalize (N.testbit acc n) (N.testbit 30 n) (N.testbit 28 n) (N.testbit 8 n) (N.testbit 16 n);
    intros [] [] [] [] []; reflexivity.
Qed.
Lemma access_read ty : N.testbit (access ty) 3 = true <-> may_read ty.
Proof.
  unfold access, may_read. rewrite access_loop_bits. cbn [N.testbit Pos.testbit AllowNone orb]. rewrite existsb_exists. split.
  - intros (c & H & E). cbn in E. destruct (N.eqb_spec c 111) as [->|]; [auto|]. destruct (N.eqb_spec c 97) as [->|]; [auto|].
    destruct (N.eqb_spec c 114) as [->|]; [auto|]. destruct (c =? 119); discriminate.
  - intros [H|[H|H]]; eexists; (split; [exact H|reflexivity]).
Qed.
Lemma access_write ty : N.testbit (access ty) 4 = true <-> may_write ty.
Proof.
  unfold access, may_write. rewrite access_loop_bits. cbn [N.testbit Pos.testbit AllowNone orb]. rewrite existsb_exists. split.
  - intros (c & H & E). cbn in E. destruct (N.eqb_spec c 111) as [->|]; [auto|]. destruct (N.eqb_spec c 97) as [->|]; [auto|].
    destruct (N.eqb_spec c 114) as [->|]; [discriminate|]. destruct (N.eqb_spec c 119) as [->|]; [auto|discriminate].
  - intros [H|[H|H]]; eexists; (split; [exact H|reflexivity]).
Qed.

Lemma land_pow2 x n : (N.land x (2 ^ n) =? 2 ^ n) = N.testbit x n.
Proof.
  destruct (N.testbit x n) eqn:B.
  - apply N.eqb_eq. apply N.bits_inj. intros i. rewrite N.land_spec, N.pow2_bits_eqb.
    destruct (N.eqb_spec n i) as [->|]; [now rewrite B|apply Bool.andb_false_r].
  - apply N.eqb_neq. intros E. apply (f_equal (fun y => N.testbit y n)) in E. cbv beta in E. rewrite N.land_spec, N.pow2_bits_true, B in E. discriminate.
Qed.
Lemma testbit_low x n : n < 8 -> N.testbit (x mod 256) n = N.testbit x n.
Proof. intros H. change 256 with (2 ^ 8). now rewrite N.mod_pow2_bits_low. Qed.

Lemma key_rights k ty : key_permissions k = access ty mod 256 ->
  (has_permission k AllowRead = true <-> may_read ty) /\ (has_permission k AllowWrite = true <-> may_write ty).
Proof.
  intros H. unfold has_permission. rewrite H. change AllowRead with (2 ^ 3). change AllowWrite with (2 ^ 4).
  rewrite !land_pow2, !testbit_low by lia. split; [apply access_read|apply access_write].
Qed.

(** ** The key request *)
Lemma keygen_spec contract topic ty : levels_ok topic -> exists text k,
  on_keygen contract topic ty = Some text /\ length text = 13%nat /\ decode_key text = Some k /\
  (has_permission k AllowRead = true <-> may_read ty) /\ (has_permission k AllowWrite = true <-> may_write ty) /\
  fst (validate_topic k contract topic) = true /\ (snd (validate_topic k contract topic) = true <-> wild topic).
Proof.
  intros HL. destruct (generated contract topic (access ty) HL) as (text & k & E & L & C & D & P & Q & T).
  exists text, k. split; [exact E|]. split; [exact L|]. split; [exact D|].
  destruct (key_rights k ty P) as [R W]. split; [exact R|]. split; [exact W|].
  destruct (validate_spec k contract topic topic HL Q T) as [V1 V2]. split; [apply V2; now left|].
  rewrite V1. apply wildb_iff.
Qed.

(** ** Requests *)
Lemma base32_noslash text : Forall base32_char text -> Forall (fun c => c <> 47) text.
Proof. intros H. eapply Forall_impl; [|exact H]. unfold base32_char. intros c Hc. cbv beta in Hc. lia. Qed.
Lemma name_chars topic : name_ok topic -> topic <> [] /\ Forall (fun c => c <> 47) topic /\ Forall (fun c => c <> 63) topic.
Proof.
  intros (H1 & H2 & H3). split; [assumption|]. split; apply Forall_forall; intros x Hx ->; contradiction.
Qed.

Lemma parse_request text topic : Forall base32_char text -> text <> [] -> name_ok topic ->
  parse_skey (request text topic) = Some (mkST text topic (length topic) false).
Proof.
  intros HT HN Hn. destruct (name_chars topic Hn) as (N1 & N2 & N3). unfold parse_skey, request.
  change cSlash with 47. change (text ++ 47 :: topic) with (text ++ 47 :: topic).
  rewrite fields_two by (auto using base32_noslash). rewrite (fields_one 47 topic) by assumption.
  change cQuest with 63. now rewrite fields_one by assumption.
Qed.
Lemma parse_request_opt text topic opts : Forall base32_char text -> text <> [] -> name_ok topic -> ~ In 47 opts ->
  parse_skey (request_opt text topic opts) = Some (mkST text (topic ++ 63 :: opts) (length topic) false).
Proof.
  intros HT HN Hn Ho. destruct (name_chars topic Hn) as (N1 & N2 & N3). unfold parse_skey, request_opt.
  change cSlash with 47. rewrite fields_two by (auto using base32_noslash). rewrite (fields_one 47 (topic ++ 63 :: opts)).
  - change cQuest with 63. now rewrite fields_two by assumption.
  - destruct topic; discriminate.
  - apply Forall_app. split; [assumption|]. constructor; [lia|]. apply Forall_forall. intros x Hx ->. contradiction.
Qed.

Lemma st_name_whole k topic : st_name (mkST k topic (length topic) false) = topic.
Proof. unfold st_name. cbn. apply firstn_all. Qed.
Lemma st_name_opt k topic opts : st_name (mkST k (topic ++ 63 :: opts) (length topic) false) = topic.
Proof. unfold st_name. cbn [st_size st_topic]. now rewrite firstn_app_len by reflexivity. Qed.

Lemma not_unitdb text : length text = 13%nat -> text <> kUnitdb.
Proof. intros H ->. discriminate. Qed.

(** The requests made with a generated key; [own]: for another topic [topic']. *)
Lemma secure_generated contract topic ty : levels_ok topic -> exists text, on_keygen contract topic ty = Some text /\
  length text = 13%nat /\ Forall base32_char text /\
  forall t, st_key t = text ->
    (may_read ty -> st_name t = topic -> on_secure contract t = inr (wildb topic)) /\
    (~ may_read ty -> on_secure contract t = inl ErrUnauthorized) /\
    (forall b, on_secure contract t = inr b -> b = wildb topic /\
      (hash_be (st_name t) contract = hash_be topic contract \/ (wild topic /\ all_stars topic) /\ hash_be topic contract = hash_be dots contract)).
Proof.
  intros HL. destruct (generated contract topic (access ty) HL) as (text & k & E & L & C & D & P & Q & T).
  exists text. split; [exact E|]. split; [exact L|]. split; [exact C|]. intros t Ht.
  destruct (key_rights k ty P) as [R _]. destruct (validate_spec k contract topic (st_name t) HL Q T) as [V1 V2].
  unfold on_secure. rewrite Ht, D. destruct (validate_topic k contract (st_name t)) as [ok w]. cbn [fst snd] in V1, V2. subst w.
  split; [|split].
  - intros Hr Hn. rewrite (proj2 R Hr). cbn [negb]. assert (ok = true) as -> by (apply V2; left; now rewrite Hn). reflexivity.
  - intros Hr. destruct (has_permission k AllowRead); [exfalso; tauto|reflexivity].
  - intros b. destruct (negb _); [discriminate|]. destruct ok; [|discriminate]. intros Eb. injection Eb as <-.
    split; [reflexivity|]. destruct V2 as [V2 _]. destruct (V2 eq_refl) as [V|[V1 V]]; [auto|]. right. split; [|assumption].
    split; [|apply bit_path_stars; now rewrite <- Q].
    apply wildb_iff. apply (bit_path_wild topic); [now apply levels_parts|]. now rewrite <- Q.
Qed.

Lemma subscribe_generated contract topic ty : levels_ok topic -> name_ok topic -> exists text, on_keygen contract topic ty = Some text /\
  (may_read ty -> exists t, on_subscribe false contract (request text topic) = VAllowed t /\ st_name t = topic) /\
  (may_read ty -> forall opts, ~ In 47 opts -> exists t, on_subscribe false contract (request_opt text topic opts) = VAllowed t /\ st_name t = topic) /\
  (~ may_read ty -> on_subscribe false contract (request text topic) = VRefused ErrUnauthorized).
Proof.
  intros HL HN. destruct (secure_generated contract topic ty HL) as (text & E & L & C & S). exists text. split; [exact E|].
  assert (Hne : text <> []) by (intros ->; discriminate). unfold on_subscribe. rewrite parse_request by assumption. cbn [st_invalid].
  destruct (S (mkST text topic (length topic) false) eq_refl) as (S1 & S2 & _). split; [|split].
  - intros Hr. rewrite (S1 Hr (st_name_whole _ _)). eexists. split; [reflexivity|apply st_name_whole].
  - intros Hr opts Ho. rewrite parse_request_opt by assumption. cbn [st_invalid].
    destruct (S (mkST text (topic ++ 63 :: opts) (length topic) false) eq_refl) as (S1' & _ & _).
    rewrite (S1' Hr (st_name_opt _ _ _)). eexists. split; [reflexivity|apply st_name_opt].
  - intros Hr. now rewrite (S2 Hr).
Qed.

Lemma publish_generated contract topic ty : levels_ok topic -> name_ok topic -> may_read ty ->
  exists text, on_keygen contract topic ty = Some text /\
  (~ wild topic -> exists t, on_publish false contract (request text topic) = VAllowed t /\ st_name t = topic) /\
  (wild topic -> on_publish false contract (request text topic) = VRefused ErrForbidden).
Proof.
  intros HL HN Hr. destruct (secure_generated contract topic ty HL) as (text & E & L & C & S). exists text. split; [exact E|].
  assert (Hne : text <> []) by (intros ->; discriminate). unfold on_publish. rewrite parse_request by assumption. cbn [st_invalid st_key].
  destruct (list_eq_dec N.eq_dec text kUnitdb) as [U|_]; [now apply not_unitdb in U|].
  destruct (S (mkST text topic (length topic) false) eq_refl) as (S1 & S2 & _). rewrite (S1 Hr (st_name_whole _ _)). split.
  - intros H. apply wildb_false in H. rewrite H. eexists. split; [reflexivity|apply st_name_whole].
  - intros H. apply wildb_iff in H. now rewrite H.
Qed.

(** What a generated key opens. *)
Lemma scope_generated contract topic ty text topic' : levels_ok topic -> name_ok topic' ->
  on_keygen contract topic ty = Some text ->
  (exists t, on_subscribe false contract (request text topic') = VAllowed t) ->
  may_read ty /\ (hash_be topic' contract = hash_be topic contract \/ (wild topic /\ all_stars topic) /\ hash_be topic contract = hash_be dots contract).
Proof.
  intros HL HN E [t H]. destruct (secure_generated contract topic ty HL) as (text0 & E0 & L & C & S).
  rewrite E in E0. injection E0 as <-. assert (Hne : text <> []) by (intros ->; discriminate).
  unfold on_subscribe in H. rewrite parse_request in H by assumption. cbn [st_invalid] in H.
  destruct (S (mkST text topic' (length topic') false) eq_refl) as (S1 & S2 & S3). rewrite st_name_whole in S3.
  destruct (on_secure contract _) as [e|b]; [discriminate|]. split.
  - destruct (existsb (fun c => (c =? 111) || (c =? 97) || (c =? 114)) ty) eqn:X.
    + apply existsb_exists in X as (c & Hc & X). unfold may_read. destruct (N.eqb_spec c 111) as [->|]; [auto|].
      destruct (N.eqb_spec c 97) as [->|]; [auto|]. destruct (N.eqb_spec c 114) as [->|]; [auto|discriminate].
    + exfalso. enough (F : ~ may_read ty) by (specialize (S2 F); discriminate).
      intros F. rewrite <- Bool.not_true_iff_false in X. apply X. apply existsb_exists.
      destruct F as [F|[F|F]]; eexists; (split; [exact F|reflexivity]).
  - apply (S3 b eq_refl).
Qed.
Lemma scope_publish contract topic ty text topic' : levels_ok topic -> name_ok topic' ->
  on_keygen contract topic ty = Some text ->
  (exists t, on_publish false contract (request text topic') = VAllowed t) ->
  may_read ty /\ ~ wild topic /\ hash_be topic' contract = hash_be topic contract.
Proof.
  intros HL HN E [t H]. pose proof (scope_generated contract topic ty text topic' HL HN E) as G.
  destruct (secure_generated contract topic ty HL) as (text0 & E0 & L & C & S).
  rewrite E in E0. injection E0 as <-. assert (Hne : text <> []) by (intros ->; discriminate).
  unfold on_publish in H. unfold on_subscribe in G. rewrite parse_request in H, G by assumption. cbn [st_invalid st_key] in H, G.
  destruct (list_eq_dec N.eq_dec text kUnitdb) as [U|_]; [discriminate|].
  destruct (S (mkST text topic' (length topic') false) eq_refl) as (S1 & S2 & S3). rewrite st_name_whole in S3.
  destruct (on_secure contract _) as [e|b]; [discriminate|]. destruct (S3 b eq_refl) as [-> S4].
  destruct G as [G1 G2]; [eauto|]. destruct (wildb topic) eqn:W; [discriminate|]. apply wildb_false in W.
  split; [assumption|]. split; [assumption|]. destruct G2 as [G2|[[G2 _] _]]; [assumption|contradiction].
Qed.

(** Keys of short topics do not depend on the contract. *)
Lemma shuffle_short text c : (length text <= 2)%nat -> c <> 0 ->
  shuffle_be text c = match text with [a; b] => [b; a] | _ => text end.
Proof.
  intros H Hc. unfold shuffle_be. destruct (N.eqb_spec c 0); [contradiction|].
  destruct text as [|a [|b [|x r]]]; cbn [length] in H; [reflexivity..| |lia].
  cbn [length Nat.sub shuffle_loop]. change (N.of_nat 1) with 1. rewrite N.mod_1_r. reflexivity.
Qed.
Lemma short_keys c1 c2 topic ty : (length topic <= 2)%nat -> c1 <> 0 -> c2 <> 0 ->
  on_keygen c1 topic ty = on_keygen c2 topic ty.
Proof.
  intros H H1 H2. unfold on_keygen, generate_key, set_target, hash_be. now rewrite !shuffle_short by assumption.
Qed.
