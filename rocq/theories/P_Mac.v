From Verif Require Import M_Bytes P_Bytes M_Hash M_Mac.
From Coq Require Import Lia ZifyBool ZifyNat ZifyN.
Open Scope N_scope.

Lemma Some_inj {A} (x y : A) : Some x = Some y -> x = y.
Proof. congruence. Qed.

Lemma mac_roundtrip m src c : aead_ok (m_parent m) ->
  mac_encrypt m src = Some c -> fst (mac_decrypt m c) = Some src.
Proof.
  intros (H1 & H2 & H3). unfold mac_encrypt, EpochSize, MessageOffset.
  destruct (Nat.ltb_spec (length src) 4) as [Hl|Hl]; [discriminate|]. intros E.
  assert (D : length (firstn 4 src ++ mac_signature (hash_new src)) = 8%nat).
  { rewrite app_length, firstn_length, Nat.min_l by lia. reflexivity. }
  remember (firstn 4 src ++ mac_signature (hash_new src)) as dst eqn:Ed.
  remember (skipn 4 src) as tl4 eqn:Et.
  rewrite (firstn_all2 dst) in E by lia. injection E as <-.
  remember (seal (m_parent m) (m_salt m ++ dst) tl4) as body eqn:Eb.
  unfold mac_decrypt, mac_overhead, MessageOffset, EpochSize.
  replace (Nat.ltb (length (dst ++ body)) 20) with false.
  2:{ symmetry. apply Nat.ltb_ge. rewrite app_length, Eb, H2, D. lia. }
  rewrite (firstn_app_len dst body 8 D), (skipn_app_len dst body 8 D). rewrite Eb, H1. cbn [fst].
  f_equal. rewrite <- (firstn_skipn 4 src), <- Et. f_equal. rewrite Ed, <- app_assoc.
  apply firstn_app_len. rewrite firstn_length. lia.
Qed.

Lemma mac_encrypt_total m src : (4 <= length src)%nat -> exists c, mac_encrypt m src = Some c.
Proof.
  intros H. unfold mac_encrypt, EpochSize. destruct (Nat.ltb_spec (length src) 4); [lia|]. eauto.
Qed.

Lemma mac_encrypt_panics m src : (length src < 4)%nat -> mac_encrypt m src = None.
Proof.
  intros H. unfold mac_encrypt, EpochSize. destruct (Nat.ltb_spec (length src) 4); [reflexivity|lia].
Qed.

Lemma mac_encrypt_length m src c : aead_ok (m_parent m) -> mac_encrypt m src = Some c ->
  length c = (length src + 20)%nat.
Proof.
  intros (_ & H2 & _). unfold mac_encrypt, EpochSize, MessageOffset.
  destruct (Nat.ltb_spec (length src) 4) as [Hl|Hl]; [discriminate|].
  intros E. apply Some_inj in E. rewrite <- E.
  rewrite !app_length, H2, firstn_length, skipn_length. cbn [mac_signature length]. lia.
Qed.

(** The caller's slice after a successful decryption. *)
Lemma mac_decrypt_overwrites m src c : aead_ok (m_parent m) ->
  mac_encrypt m src = Some c -> firstn (length src) (snd (mac_decrypt m c)) = src.
Proof.
  intros HA E. pose proof (mac_roundtrip m src c HA E) as R.
  unfold mac_decrypt in *. destruct (Nat.ltb (length c) mac_overhead); [discriminate R|].
  destruct (unseal _ _ _); [|discriminate R]. cbn [fst snd] in *. apply Some_inj in R. rewrite R.
  apply firstn_app_len. reflexivity.
Qed.

(** A concrete cipher satisfying the hypotheses (for the examples): append a
    16 byte tag. *)
Definition toy_aead : aead :=
  mkAead (fun _ p => p ++ repeat 7 16)
         (fun _ c => if Nat.ltb (length c) 16 then None else Some (firstn (length c - 16) c)).
Lemma toy_aead_ok : aead_ok toy_aead.
Proof.
  split; [|split]; cbn [seal unseal toy_aead].
  - intros _ p. rewrite app_length, repeat_length.
    destruct (Nat.ltb_spec (length p + 16) 16); [lia|].
    rewrite firstn_app_len; [reflexivity|lia].
  - intros _ p. rewrite app_length, repeat_length. reflexivity.
  - intros _ c p. destruct (Nat.ltb_spec (length c) 16); [discriminate|]. intros [= <-].
    rewrite firstn_length. lia.
Qed.

Lemma mac_roundtrip_total m src : aead_ok (m_parent m) -> (4 <= length src)%nat ->
  exists c, mac_encrypt m src = Some c /\ length c = (length src + 20)%nat /\
            fst (mac_decrypt m c) = Some src.
Proof.
  intros HA HL. destruct (mac_encrypt_total m src HL) as [c E]. exists c.
  split; [exact E|]. split; [now apply mac_encrypt_length with m|now apply mac_roundtrip].
Qed.
