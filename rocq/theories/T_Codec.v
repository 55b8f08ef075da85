(** Property theorems C01, C02, C03, C04, C05, C09, C10. *)
From Verif Require Import M_Bytes P_Bytes M_Entry M_DBInfo M_MsgId M_IndexBlock M_WinBlock
  S_Index P_Codec P_Index P_Float.
From Coq Require Import Lia.
Open Scope N_scope.

(** C01: decoding gives the five values back (also when the message bytes
    follow, as in the in-memory store), the record is exactly 26 bytes long,
    and encodings are shared by equal entries only. *)
Theorem C01_entry_roundtrip : forall e rest, entry_ok e ->
  entry_unmarshal (entry_marshal e ++ rest) = Some e /\ length (entry_marshal e) = 26%nat.
Proof. exact (fun e rest H => conj (entry_roundtrip e rest H) (entry_marshal_length e)). Qed.
Print Assumptions C01_entry_roundtrip.

Theorem C01_entry_injective : forall e1 e2, entry_ok e1 -> entry_ok e2 ->
  entry_marshal e1 = entry_marshal e2 -> e1 = e2.
Proof. exact entry_injective. Qed.
Print Assumptions C01_entry_injective.

(** Every 26 byte string is the encoding of exactly the entry it decodes to. *)
Theorem C01_entry_onto : forall d, bytes_ok d -> length d = 26%nat ->
  exists e, entry_ok e /\ entry_unmarshal d = Some e /\ entry_marshal e = d.
Proof. exact entry_surjective. Qed.
Print Assumptions C01_entry_onto.

Example C01_example :
  let e := mkEntry 258 7 70000 4294967295 18446744073709551615 in
  entry_ok e /\ entry_marshal e =
   [2;1;0;0;0;0;0;0; 7;0; 112;17;1;0; 255;255;255;255; 255;255;255;255;255;255;255;255].
Proof. split; [unfold entry_ok; cbn; lia|reflexivity]. Qed.

(** C02, full statement: for every option [opt], every flag and counters,
    [open_header opt (Some (write_info enc seq count))] returns the same
    encryption flag and counters, and an unset option on a new database leaves
    the flag unset.  The flag part is false of the code. *)
Theorem C02_refuted :
  (exists i, open_header false None = OpenOk i /\ i_encryption i = 1) /\
  (exists i, open_header false (Some (write_info 0 5 3)) = OpenOk i /\ i_encryption i <> 0).
Proof.
  exact (conj (ex_intro _ _ (conj open_info_fresh eq_refl))
              (ex_intro _ _ (conj (open_header_written false 0 5 3 eq_refl eq_refl eq_refl)
                                  (fun H => N.neq_succ_0 0 H)))).
Qed.
Print Assumptions C02_refuted.

(** Missing in the partial theorem: the encryption flag. *)
Theorem C02_header_partial :
  (forall opt enc seq count, enc < 256 -> seq < 2 ^ 64 -> count < 2 ^ 64 ->
     exists i, open_header opt (Some (write_info enc seq count)) = OpenOk i /\
               i_sequence i = seq /\ i_count i = count /\ i_version i = 1 /\
               i_signature i = signature) /\
  (forall opt b, (32 <= length b)%nat -> firstn 7 b <> signature ->
     open_header opt (Some b) = OpenCorrupted) /\
  (forall opt b i, open_header opt (Some b) = OpenOk i -> firstn 7 b = signature).
Proof.
  exact (conj (fun opt enc seq count He Hs Hc =>
                 ex_intro _ _ (conj (open_header_written opt enc seq count He Hs Hc)
                   (conj eq_refl (conj eq_refl (conj eq_refl eq_refl)))))
        (conj open_header_rejects open_header_accepts_only)).
Qed.
Print Assumptions C02_header_partial.

Example C02_example :
  open_header false (Some (write_info 1 300 2)) = OpenOk (mkInfo signature 1 1 300 2) /\
  open_header false (Some (repeat 0 32)) = OpenCorrupted.
Proof. split; vm_compute; reflexivity. Qed.

(** C03 *)
Theorem C03_block_roundtrip : forall k b rest, block_of_run k b ->
  iblock_unmarshal (iblock_marshal b ++ rest) = Some b /\ length (iblock_marshal b) = blockBytes.
Proof. exact (fun k b rest H => conj (iblock_roundtrip k b rest H) (iblock_marshal_length b (proj1 H))). Qed.
Print Assumptions C03_block_roundtrip.

Theorem C03_lookup : forall k b b' rest seq e, block_of_run k b -> distinct_keys b ->
  iblock_unmarshal (iblock_marshal b ++ rest) = Some b' ->
  seq <> 0 -> In e (b_entries b) -> x_seq e = seq ->
  scan_entries (b_entries b') seq = if (x_msgOffset e =? -1)%Z then RDeleted else RFound e.
Proof. exact block_lookup. Qed.
Print Assumptions C03_lookup.

Theorem C03_lookup_absent : forall k b b' rest seq, block_of_run k b ->
  iblock_unmarshal (iblock_marshal b ++ rest) = Some b' ->
  (forall e, In e (b_entries b) -> x_seq e <> seq) -> scan_entries (b_entries b') seq = RInvalid.
Proof. exact block_lookup_absent. Qed.
Print Assumptions C03_lookup_absent.

Example C03_example :
  let b := mkIB ([mkIE 511 3 10 4096; mkIE 512 0 20 (-1); mkIE 765 0 7 99]%Z ++ repeat ie_zero 252) 3 in
  block_of_run 2 b /\ distinct_keys b /\
  scan_entries (b_entries b) 765 = RFound (mkIE 765 0 7 99) /\ scan_entries (b_entries b) 512 = RDeleted.
Proof. exact C03_example_lemma. Qed.

(** C04, full statement: for all 1 <= a, b <= 2^63 the two properties below.
    False because the offset is computed in 32 bits. *)
Theorem C04_refuted :
  (exists seq, 1 <= seq <= 2 ^ 63 /\ (blockOffset (blockIndex seq) < 0)%Z) /\
  (exists a b, 1 <= a <= 2 ^ 63 /\ 1 <= b <= 2 ^ 63 /\ blockIndex a <> blockIndex b /\
               blockOffset (blockIndex a) = blockOffset (blockIndex b)).
Proof. exact C04_refutation. Qed.
Print Assumptions C04_refuted.

(** Missing: sequence numbers above 255*2^19 = 133693440 for the offsets. *)
Theorem C04_position_partial : forall a b, 1 <= a <= 255 * 2 ^ 19 -> 1 <= b <= 255 * 2 ^ 19 ->
  (blockIndex a = blockIndex b <->
     exists k, 255 * k < a <= 255 * k + 255 /\ 255 * k < b <= 255 * k + 255) /\
  (0 <= blockOffset (blockIndex a))%Z /\
  (blockOffset (blockIndex a) = blockOffset (blockIndex b) <-> blockIndex a = blockIndex b) /\
  (blockIndex a <> blockIndex b ->
     4096 <= Z.abs (blockOffset (blockIndex a) - blockOffset (blockIndex b)))%Z.
Proof. exact C04_positions. Qed.
Print Assumptions C04_position_partial.

(** The run characterisation holds for all 64 bit sequence numbers. *)
Theorem C04_same_block : forall a b, 1 <= a < 2 ^ 64 -> 1 <= b < 2 ^ 64 ->
  blockIndex a = blockIndex b <->
  exists k, 255 * k < a <= 255 * k + 255 /\ 255 * k < b <= 255 * k + 255.
Proof. exact blockIndex_same. Qed.
Print Assumptions C04_same_block.

(** The float64 division of the code computes the integer quotient for every
    sequence number whose block number fits int32. *)
Theorem C04_float_division : forall seq, 1 <= seq <= 255 * 2 ^ 31 ->
  blockIndex_float (Z.of_N seq - 1) = blockIndex seq.
Proof. exact blockIndex_float_eq. Qed.
Print Assumptions C04_float_division.

Example C04_example : blockOffset (blockIndex 133693440) = 2147479552%Z /\ blockIndex 511 = 2%Z.
Proof. split; vm_compute; reflexivity. Qed.

(** C05 *)
Theorem C05_window_roundtrip : forall b rest, wblock_ok b ->
  wblock_unmarshal (wblock_marshal b ++ rest) = Some b /\ length (wblock_marshal b) = blockBytes.
Proof.
  exact (fun b rest H => conj (wblock_roundtrip b rest H)
                              (wblock_marshal_length b (proj1 (proj2 (proj2 H))))).
Qed.
Print Assumptions C05_window_roundtrip.

Example C05_example :
  wblock_ok (mkWB 12345678901234 (mkWE 7 100 :: mkWE 9 0 :: repeat we_zero 333) 8192 1600000000 2).
Proof. exact C05_example_lemma. Qed.

(** C09 *)
Theorem C09_id_fields : forall now seq c,
  (Offset <= now < Offset + 2 ^ 32)%Z -> seq < 2 ^ 64 -> c < 2 ^ 32 ->
  let id := id_setContract (newID now seq) c in
  length id = 16%nat /\ id_sequence id = seq /\ id_contract id = c /\ uid_time id = now.
Proof. exact C09_fields. Qed.
Print Assumptions C09_id_fields.

Theorem C09_id_distinct : forall now1 now2 s1 s2 c1 c2, s1 < 2 ^ 64 -> s2 < 2 ^ 64 -> s1 <> s2 ->
  id_setContract (newID now1 s1) c1 <> id_setContract (newID now2 s2) c2.
Proof. exact C09_distinct. Qed.
Print Assumptions C09_id_distinct.

Example C09_example :
  id_setContract (newID 1600000000 515) 77 = [143;26;93;253; 77;0;0;0; 3;2;0;0;0;0;0;0].
Proof. vm_compute. reflexivity. Qed.

(** C10 *)
Theorem C10_cutoff : forall id c cutoff,
  evalPrefix id c cutoff = true <->
  id_contract id = c /\ ((cutoff <= 0)%Z \/ (cutoff <= uid_time id)%Z).
Proof. exact evalPrefix_spec. Qed.
Print Assumptions C10_cutoff.

(** In terms of what the identifier was made from: the 8 byte prefix stored
    with the message is enough to decide. *)
Theorem C10_cutoff_of_new_id : forall now seq c q cutoff,
  (Offset <= now < Offset + 2 ^ 32)%Z -> seq < 2 ^ 64 -> c < 2 ^ 32 ->
  evalPrefix (id_prefix (id_setContract (newID now seq) c)) q cutoff = true <->
  c = q /\ ((cutoff <= 0)%Z \/ (cutoff <= now)%Z).
Proof. exact C10_new. Qed.
Print Assumptions C10_cutoff_of_new_id.

Example C10_example :
  evalPrefix (id_setContract (newID 1600000000 1) 9) 9 1600000000 = true /\
  evalPrefix (id_setContract (newID 1600000000 1) 9) 9 1600000001 = false.
Proof. split; vm_compute; reflexivity. Qed.
