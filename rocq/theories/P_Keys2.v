(** Proofs about client identifiers. *)
From Verif Require Import M_Bytes M_Hash M_Base32 M_Mac M_Topic M_Keys S_Keys P_Bytes P_Hash P_Base32 P_Mac P_Keys.
From Coq Require Import Lia ZifyBool ZifyNat ZifyN.
Open Scope N_scope.

Lemma id_split id : id_ok id -> exists a b c d e f g h i j k l, id = [a;b;c;d;e;f;g;h;i;j;k;l].
Proof. intros [H _]. do 12 (destruct id as [|? id]; [discriminate H|]). destruct id; [repeat eexists|discriminate H]. Qed.

Lemma be_list4 v : exists a b c d, be 4 v = [a;b;c;d] /\ unbe [a;b;c;d] = v mod 2 ^ 32.
Proof. do 4 eexists. split; [reflexivity|]. exact (unbe_be 4 v). Qed.
Lemma be_list2 v : exists a b, be 2 v = [a;b] /\ unbe [a;b] = v mod 2 ^ 16.
Proof. do 2 eexists. split; [reflexivity|]. exact (unbe_be 2 v). Qed.

Lemma put_ok id i v : id_ok id -> bytes_ok v -> (i + length v <= 12)%nat -> id_ok (put id i v).
Proof.
  intros [L B] V H. unfold put. split.
  - rewrite !app_length, firstn_length, skipn_length. lia.
  - rewrite !bytes_ok_app. split; [now apply bytes_ok_firstn|]. split; [assumption|].
    unfold bytes_ok. rewrite <- (firstn_skipn (i + length v) id) in B. now apply bytes_ok_app in B.
Qed.
Lemma be_length k v : length (be k v) = k.
Proof. unfold be. now rewrite rev_length, le_length. Qed.
Lemma zero_byte : byte_ok 0. Proof. reflexivity. Qed.

Lemma set_epoch_ok id v : id_ok id -> id_ok (set_epoch id v).
Proof. intros H. apply put_ok; [assumption|apply be_ok|rewrite be_length; lia]. Qed.
Lemma set_primary_ok id v : id_ok id -> id_ok (set_primary id v).
Proof. intros H. apply put_ok; [assumption|constructor; [apply zero_byte|apply be_ok]|cbn [length]; rewrite be_length; lia]. Qed.
Lemma u8_ok v : byte_ok (u8 v). Proof. unfold byte_ok, u8. apply N.mod_lt. lia. Qed.
Lemma set_permissions_ok id v : id_ok id -> id_ok (set_permissions id v).
Proof. intros H. apply put_ok; [assumption|constructor; [apply u8_ok|constructor]|cbn; lia]. Qed.
Lemma set_contract_ok id v : id_ok id -> id_ok (set_contract id v).
Proof. intros H. apply put_ok; [assumption|apply be_ok|rewrite be_length; lia]. Qed.
Lemma zeros_ok : id_ok zeros.
Proof. split; [reflexivity|]. apply bytes_okb_spec. reflexivity. Qed.

Lemma quad {A B C D} (a a' : A) (b b' : B) (c c' : C) (d d' : D) : (a, b, c, d) = (a', b', c', d') -> a = a' /\ b = b' /\ c = c' /\ d = d'.
Proof. intros H. injection H. auto. Qed.

Lemma fields_epoch id v : id_ok id -> fields_of (set_epoch id v) = (v mod 2 ^ 32, id_primary id, id_permissions id, id_contract id).
Proof.
  intros H. destruct (id_split id H) as (a&b&c&d&e&f&g&h&i&j&k&l&->). destruct (be_list4 v) as (p&q&r&s&E&U).
  unfold fields_of, set_epoch. rewrite E, <- U. reflexivity.
Qed.
Lemma fields_primary id v : id_ok id -> fields_of (set_primary id v) = (id_epoch id, v mod 2 ^ 16, id_permissions id, id_contract id).
Proof.
  intros H. destruct (id_split id H) as (a&b&c&d&e&f&g&h&i&j&k&l&->). destruct (be_list2 v) as (p&q&E&U).
  unfold fields_of, set_primary. rewrite E, <- U. reflexivity.
Qed.
Lemma fields_permissions id v : id_ok id -> fields_of (set_permissions id v) = (id_epoch id, id_primary id, v mod 2 ^ 8, id_contract id).
Proof. intros H. destruct (id_split id H) as (a&b&c&d&e&f&g&h&i&j&k&l&->). reflexivity. Qed.
Lemma fields_contract id v : id_ok id -> fields_of (set_contract id v) = (id_epoch id, id_primary id, id_permissions id, v mod 2 ^ 32).
Proof.
  intros H. destruct (id_split id H) as (a&b&c&d&e&f&g&h&i&j&k&l&->). destruct (be_list4 v) as (p&q&r&s&E&U).
  unfold fields_of, set_contract. rewrite E, <- U. reflexivity.
Qed.

Lemma set_get id v : id_ok id ->
  fields_of (set_epoch id v) = (v mod 2 ^ 32, id_primary id, id_permissions id, id_contract id) /\
  fields_of (set_primary id v) = (id_epoch id, v mod 2 ^ 16, id_permissions id, id_contract id) /\
  fields_of (set_permissions id v) = (id_epoch id, id_primary id, v mod 2 ^ 8, id_contract id) /\
  fields_of (set_contract id v) = (id_epoch id, id_primary id, id_permissions id, v mod 2 ^ 32).
Proof. auto using fields_epoch, fields_primary, fields_permissions, fields_contract. Qed.

Lemma new_client_ok e c m : id_ok (new_client_id e c m).
Proof. apply set_contract_ok, set_permissions_ok, set_primary_ok, set_epoch_ok, zeros_ok. Qed.
Lemma new_client_fields e c m : fields_of (new_client_id e c m) = (e mod 2 ^ 32, m mod 2 ^ 16, 1, c mod 2 ^ 32).
Proof.
  unfold new_client_id. pose proof zeros_ok as H0. pose proof (set_epoch_ok _ e H0) as H1.
  pose proof (set_primary_ok _ m H1) as H2. pose proof (set_permissions_ok _ 1 H2) as H3.
  pose proof (fields_epoch _ e H0) as F1. pose proof (fields_primary _ m H1) as F2.
  pose proof (fields_permissions _ 1 H2) as F3. pose proof (fields_contract _ c H3) as F4.
  unfold fields_of in *. apply quad in F1 as (A1 & A2 & A3 & A4). apply quad in F2 as (B1 & B2 & B3 & B4). apply quad in F3 as (C1 & C2 & C3 & C4).
  rewrite F4. rewrite C1, C2, C3, B1, B2, A1. reflexivity.
Qed.
Lemma unbe_lt4 id : id_ok id -> id_contract id < 2 ^ 32.
Proof.
  intros [L B]. unfold id_contract, unbe. eapply N.lt_le_trans; [apply unle_bound|].
  - apply bytes_ok_rev. apply bytes_ok_firstn. unfold bytes_ok. rewrite <- (firstn_skipn 8 id) in B. now apply bytes_ok_app in B.
  - rewrite rev_length, firstn_length, skipn_length, L. reflexivity.
Qed.
Lemma secondary_spec e c e2 id : id_ok id ->
  id_ok (new_secondary_id e c e2 id) /\ is_primary (new_secondary_id e c e2 id) = false /\
  id_contract (new_secondary_id e c e2 id) = id_contract id /\ id_epoch (new_secondary_id e c e2 id) = e2 mod 2 ^ 32.
Proof.
  intros H. unfold new_secondary_id. pose proof (new_client_ok e c 1) as H0. pose proof (set_epoch_ok _ e2 H0) as H1.
  pose proof (set_permissions_ok _ 0 H1) as H2.
  pose proof (fields_epoch _ e2 H0) as F1. pose proof (fields_permissions _ 0 H1) as F2. pose proof (fields_contract _ (id_contract id) H2) as F3.
  unfold fields_of in *. apply quad in F1 as (A1 & A2 & A3 & A4). apply quad in F2 as (B1 & B2 & B3 & B4). apply quad in F3 as (C1 & C2 & C3 & C4).
  split; [now apply set_contract_ok|]. unfold is_primary. rewrite C3, B3, C4, C1, B1, A1.
  split; [reflexivity|]. split; [apply N.mod_small; now apply unbe_lt4|reflexivity].
Qed.
Lemma cached_spec e c k : k < 2 ^ 32 -> id_ok (cached_id e c k) /\ is_primary (cached_id e c k) = false /\ id_contract (cached_id e c k) = k.
Proof.
  intros Hk. unfold cached_id. pose proof (new_client_ok e c 1) as H0. pose proof (set_permissions_ok _ 0 H0) as H1.
  pose proof (fields_permissions _ 0 H0) as F2. pose proof (fields_contract _ k H1) as F3.
  unfold fields_of in *. apply quad in F2 as (B1 & B2 & B3 & B4). apply quad in F3 as (C1 & C2 & C3 & C4).
  split; [now apply set_contract_ok|]. unfold is_primary. rewrite C3, B3, C4. split; [reflexivity|]. now apply N.mod_small.
Qed.

(** ** The text of an identifier *)
Lemma decode32_app t more : length t = 52%nat -> decode32 (t ++ more) = decode32 t.
Proof.
  intros H. unfold decode32. cbv zeta.
  assert (E : forall i, (i < 52)%nat -> dec_char (nth i (t ++ more) 0) = dec_char (nth i t 0))
    by (intros i Hi; now rewrite app_nth1 by lia).
  rewrite !E by lia. reflexivity.
Qed.

Lemma mac_encrypt_ok m src c : seal_bytes (m_parent m) -> bytes_ok src -> mac_encrypt m src = Some c -> bytes_ok c.
Proof.
  intros SB HB. unfold mac_encrypt. destruct (Nat.ltb _ _); [discriminate|]. intros E. apply Some_inj in E. subst c.
  rewrite !bytes_ok_app. split; [split; [now apply bytes_ok_firstn|]|apply SB; rewrite <- (firstn_skipn EpochSize src) in HB; now apply bytes_ok_app in HB].
  unfold mac_signature. repeat (apply Forall_cons; [apply u8_ok|]). constructor.
Qed.

Lemma id_text m id : mac_fine m -> id_ok id -> exists text, id_encode m id = Some text /\ length text = 52%nat /\
  forall more, id_decode m (text ++ more) = Some id.
Proof.
  intros [HA HB] [L B]. unfold id_encode.
  assert (L4 : (4 <= length (xor_salt id))%nat) by (rewrite xor_salt_length; lia).
  destruct (mac_roundtrip_total m (xor_salt id) HA L4) as (c & E & Lc & D). rewrite E.
  exists (encode32 c). split; [reflexivity|]. split; [apply encode32_length|]. intros more.
  unfold id_decode. rewrite app_length, encode32_length. destruct (Nat.ltb_spec (52 + length more) 52); [lia|].
  rewrite decode32_app by apply encode32_length.
  assert (Bc : bytes_ok c) by (eapply mac_encrypt_ok; [exact HB| |exact E]; now apply xor_salt_ok).
  rewrite decode32_encode32; [|exact Bc|rewrite Lc, xor_salt_length; lia]. rewrite D.
  unfold rawLen. rewrite firstn_all2 by (rewrite xor_salt_length; lia). now rewrite xor_salt_twice.
Qed.

(** ** Connections *)
Lemma accept m cch e c id text : mac_fine m -> id_ok id -> id_encode m id = Some text ->
  cache_load cch (text_signature text) = None ->
  exists cch', on_connect m cch e c text = CAccepted id cch' /\
    (is_primary id = true -> cch' = cch) /\
    (is_primary id = false -> cache_load cch' (text_signature text) = Some (id_contract id)).
Proof.
  intros HM HI E C. destruct (id_text m id HM HI) as (t & E' & L & D). rewrite E in E'. apply Some_inj in E'. subst t.
  unfold on_connect. rewrite L. change (Nat.ltb mac_overhead 52) with true. cbv iota. rewrite C.
  specialize (D []). rewrite app_nil_r in D. rewrite D. destruct (is_primary id) eqn:P.
  - eexists. split; [reflexivity|]. split; [reflexivity|discriminate].
  - rewrite E. eexists. split; [reflexivity|]. split; [discriminate|]. intros _.
    unfold load_or_store. rewrite C. cbn [cache_load]. now rewrite N.eqb_refl.
Qed.

Lemma request_secondary m e c e2 id : mac_fine m -> id_ok id -> is_primary id = true ->
  exists text id', on_client_id m e c e2 id = Some text /\ id_decode m text = Some id' /\
    is_primary id' = false /\ id_contract id' = id_contract id /\ forall e' c' e2', on_client_id m e' c' e2' id' = None.
Proof.
  intros HM HI HP. destruct (secondary_spec e c e2 id HI) as (S1 & S2 & S3 & _).
  destruct (id_text m _ HM S1) as (t & E & L & D). exists t, (new_secondary_id e c e2 id).
  unfold on_client_id. rewrite HP. split; [exact E|]. split; [now rewrite <- (app_nil_r t)|].
  split; [exact S2|]. split; [exact S3|]. intros. now rewrite S2.
Qed.

(** A text of 21 characters with four characters of a cached identifier. *)
Lemma forged m cch e c id text : mac_fine m -> id_ok id -> is_primary id = false -> id_encode m id = Some text ->
  cache_load cch (text_signature text) = None ->
  exists cch', on_connect m cch e c text = CAccepted id cch' /\
  forall fake e' c', (20 < length fake)%nat -> firstn 4 (skipn 4 fake) = firstn 4 (skipn 4 text) ->
    exists id', on_connect m cch' e' c' fake = CAccepted id' cch' /\ id_contract id' = id_contract id.
Proof.
  intros HM HI HP E C. destruct (accept m cch e c id text HM HI E C) as (cch' & A & _ & A2). exists cch'. split; [exact A|].
  intros fake e' c' HL HS. unfold on_connect. destruct (Nat.ltb_spec mac_overhead (length fake)) as [_|X]; [|unfold mac_overhead in X; lia].
  unfold text_signature in *. rewrite HS, (A2 HP). eexists. split; [reflexivity|].
  apply cached_spec. now apply unbe_lt4.
Qed.
Lemma forged_text m text fill : (8 <= length text)%nat -> (length fill = 13)%nat ->
  let fake := firstn 8 text ++ fill in
  length fake = 21%nat /\ firstn 4 (skipn 4 fake) = firstn 4 (skipn 4 text) /\ id_decode m fake = None.
Proof.
  intros H F fake. assert (L : length fake = 21%nat) by (unfold fake; rewrite app_length, firstn_length; lia).
  split; [exact L|]. split.
  - unfold fake. do 8 (destruct text as [|? text]; [cbn in H; lia|]). reflexivity.
  - unfold id_decode. rewrite L. reflexivity.
Qed.

Definition toy_mac : mac := mkMac toy_aead [1; 2; 3; 4].
Lemma toy_fine : mac_fine toy_mac.
Proof.
  split; [exact toy_aead_ok|]. intros n p H. cbn [m_parent toy_mac seal toy_aead]. apply bytes_ok_app. split; [assumption|].
  apply bytes_okb_spec. reflexivity.
Qed.

Lemma bad_key contract key topic : key <> [] -> ~ In 47 key -> name_ok topic -> length key <> 13%nat ->
  on_subscribe false contract (request key topic) = VRefused ErrBadRequest /\
  (key <> kUnitdb -> on_publish false contract (request key topic) = VRefused ErrBadRequest).
Proof.
  intros Hk Hs Hn Hl. apply name_chars in Hn as (N1 & N2 & N3).
  assert (Ek : Forall (fun c => c <> 47) key) by (rewrite Forall_forall; intros x Hx ->; contradiction).
  assert (P : parse_skey (request key topic) = Some (mkST key topic (length topic) false)).
  { unfold parse_skey, request. change cSlash with 47. rewrite P_Topic.fields_two by assumption. rewrite (P_Topic.fields_one 47 topic) by assumption.
    change cQuest with 63. now rewrite P_Topic.fields_one by assumption. }
  assert (D : decode_key key = None) by (unfold decode_key; destruct (Nat.eqb_spec (length key) 13); [contradiction|reflexivity]).
  unfold on_subscribe, on_publish. rewrite P. cbn [st_invalid st_key]. unfold on_secure. cbn [st_key]. rewrite D. split; [reflexivity|].
  intros U. destruct (list_eq_dec N.eq_dec key kUnitdb); [contradiction|reflexivity].
Qed.
Lemma only_primary m e c e2 id : id_permissions id <> 1 -> on_client_id m e c e2 id = None.
Proof. intros H. unfold on_client_id, is_primary. destruct (N.eqb_spec (id_permissions id) 1); [contradiction|reflexivity]. Qed.
Lemma refuse m cch e c text : cache_load cch (text_signature text) = None ->
  (length text < 52)%nat \/ fst (mac_decrypt m (decode32 text)) = None ->
  exists id, on_connect m cch e c text = CRefused id /\ fields_of id = (e mod 2 ^ 32, 1, 1, c mod 2 ^ 32).
Proof.
  intros C H. exists (new_client_id e c 1). split; [|apply new_client_fields]. unfold on_connect. rewrite C.
  assert (E : id_decode m text = None).
  { unfold id_decode. destruct (Nat.ltb_spec (length text) 52); [reflexivity|]. destruct H as [H|H]; [lia|]. now rewrite H. }
  destruct (Nat.ltb mac_overhead (length text)); now rewrite E.
Qed.
