(** Property theorems C11, C12, C13, C14. *)
From Verif Require Import M_Bytes P_Bytes M_Hash P_Hash M_Bloom P_Bloom M_Base32 P_Base32 M_Mac P_Mac.
From Coq Require Import Permutation.
Open Scope N_scope.

(** C11: the unrolled hash is the plain fold over all bytes in order. *)
Theorem C11_hash_fold : forall b,
  hash_new b = fold_left (fun h c => (N.lxor h c * 461845907) mod 4294967296) b 3432918353 /\
  hash_new b < 4294967296.
Proof. exact (fun b => conj (hash_new_fold b) (hash_new_bound b)). Qed.
Print Assumptions C11_hash_fold.

(** The salted hash is the plain hash of the same bytes in another order; salt
    zero leaves the order alone. *)
Theorem C11_hash_salt : forall b salt,
  (exists r, Permutation r b /\
     hash_salt b salt = fold_left (fun h c => (N.lxor h c * 461845907) mod 4294967296) r 3432918353) /\
  hash_salt b 0 = hash_new b.
Proof. exact (fun b salt => conj (hash_salt_spec b salt) (hash_salt_zero b)). Qed.
Print Assumptions C11_hash_salt.

Example C11_example :
  hash_new [117;110;105;116;56;46;116;101;115] = 123716979 /\ hash_salt [97;98;99] 3 <> hash_new [97;98;99].
Proof. split; [vm_compute; reflexivity | vm_compute; discriminate]. Qed.

(** C12: a hash that was added is reported, whatever was added before and
    after, directly and after serialisation. *)
Theorem C12_no_false_negative : forall m ks before after x f,
  newFilter m ks = Some f -> Forall (fun k => k < 2 ^ 64) ks ->
  bloom_test (fold_left bloom_add (before ++ x :: after) f) x = true /\
  exists g, newFilterFromBytes (bloom_bytes (fold_left bloom_add (before ++ x :: after) f)) m
              (N.of_nat (length ks)) = Some g /\ bloom_test g x = true.
Proof. exact bloom_no_false_negative. Qed.
Print Assumptions C12_no_false_negative.

(** The filter is not trivially true: a fresh one rejects, and one addition
    does not admit everything. *)
Example C12_example :
  exists f, newFilter 100 [3; 70; 1000] = Some f /\ bloom_test f 5 = false /\
            bloom_test (bloom_add f 5) 5 = true /\ bloom_test (bloom_add f 5) 6 = false.
Proof. eexists; repeat split; vm_compute; reflexivity. Qed.

(** C13: text forms decode to the bytes they came from, have the stated
    length, use letters of the alphabet only, and are never shared. *)
Theorem C13_base8 : forall id, bytes_ok id -> length id = 8%nat ->
  decode8 (encode8 id) = id /\ length (encode8 id) = 13%nat /\
  Forall base32_char (encode8 id) /\
  (forall id', bytes_ok id' -> length id' = 8%nat -> encode8 id' = encode8 id -> id' = id).
Proof.
  exact (fun id H L => conj (decode8_encode8 id H L) (conj (encode8_length id)
    (conj (encode8_chars id H L) (fun id' H' L' E => encode8_injective id' id H' H L' L E)))).
Qed.
Print Assumptions C13_base8.

Theorem C13_base32 : forall id, bytes_ok id -> length id = 32%nat ->
  decode32 (encode32 id) = id /\ length (encode32 id) = 52%nat /\
  Forall base32_char (encode32 id) /\
  (forall id', bytes_ok id' -> length id' = 32%nat -> encode32 id' = encode32 id -> id' = id).
Proof.
  exact (fun id H L => conj (decode32_encode32 id H L) (conj (encode32_length id)
    (conj (encode32_chars id H L) (fun id' H' L' E => encode32_injective id' id H' H L' L E)))).
Qed.
Print Assumptions C13_base32.

Example C13_example : decode8 (encode8 [255;0;255;1;254;2;253;3]) = [255;0;255;1;254;2;253;3] /\
  encode8 [255;0;255;1;254;2;253;3] <> encode8 [255;0;255;1;254;2;253;4].
Proof. split; [reflexivity|vm_compute; discriminate]. Qed.

(** C14, full statement: for every payload src and every key, encryption
    succeeds and decrypting the result gives src.  Encryption crashes on every
    input below 4 bytes; [1;0;b] is the snappy form of the one byte payload b,
    which is what DB.PutEntry hands to it. *)
Theorem C14_refuted : forall m src, (length src < 4)%nat -> mac_encrypt m src = None.
Proof. exact mac_encrypt_panics. Qed.
Print Assumptions C14_refuted.

Example C14_refuted_one_byte_payload : forall m b, mac_encrypt m [1;0;b] = None.
Proof. reflexivity. Qed.

(** Missing in the partial theorem: inputs below 4 bytes. *)
Theorem C14_roundtrip_partial : forall m src, aead_ok (m_parent m) -> (4 <= length src)%nat ->
  exists c, mac_encrypt m src = Some c /\ length c = (length src + 20)%nat /\
            fst (mac_decrypt m c) = Some src.
Proof. exact mac_roundtrip_total. Qed.
Print Assumptions C14_roundtrip_partial.

Example C14_example :
  let m := mkMac toy_aead [1;2;3;4] in
  aead_ok (m_parent m) /\ (exists c, mac_encrypt m [9;8;7;6;5] = Some c /\
    fst (mac_decrypt m c) = Some [9;8;7;6;5] /\ snd (mac_decrypt m c) <> c).
Proof.
  split; [exact toy_aead_ok|]. eexists; repeat split; vm_compute; try reflexivity. discriminate.
Qed.
