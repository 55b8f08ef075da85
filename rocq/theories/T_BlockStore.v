(** Property theorems about index and data files: C18, C49, C50 (file part). *)
From Verif Require Import M_Bytes M_File M_IndexBlock M_Lease M_BlockRange S_BlockRange M_BlockStore S_BlockStore
  P_BlockRange P_BlockStore4.
From Coq Require Import Permutation Sorted.
Open Scope Z_scope.

(** C18: the ranges made of a sorted set of block numbers stand for exactly
    these numbers, each once. *)
Theorem C18_ranges : forall idx, Forall int32_ok idx -> StronglySorted Z.lt idx ->
  exists parts, blockRange idx = Some parts /\
    Permutation (concat (map expand parts)) idx /\ Forall good_part parts.
Proof. exact blockRange_ok. Qed.
Print Assumptions C18_ranges.

Example C18_example : blockRange [2; 3; 5; 7; 8; 9] = Some [[3]; [2]; [5]; [7; 9]].
Proof. reflexivity. Qed.

(** C18: writing the pending blocks puts each changed block at its place and
    leaves every byte of the other blocks. *)
Theorem C18_written : forall w m upper, store w m -> seq_ok upper ->
  exists w', bw_commit w upper = Some w' /\
    (forall k b, In (k, b) (w_blocks w) -> w_dirty b = true ->
       read_at (w_index w') (4096 * k) blockBytes = Some (iblock_marshal (w_blk b))) /\
    (forall i, (forall b, In (Z.of_nat i / 4096, b) (w_blocks w) -> w_dirty b = false) ->
       nth i (w_index w') 0%N = nth i (w_index w) 0%N) /\
    (length (w_index w) <= length (w_index w'))%nat.
Proof. exact store_write. Qed.
Print Assumptions C18_written.

(** C49: entries found in the files stay what they are however many others
    are appended and written. *)
Theorem C49_frame : forall w m u w1 s x w2 u2 w3,
  store w m -> seq_ok u -> bw_commit w u = Some w1 -> seq_ok s ->
  readEntry (w_index w1) s = Some (RFound x) -> later w1 w2 -> seq_ok u2 -> bw_commit w2 u2 = Some w3 ->
  readEntry (w_index w3) s = Some (RFound x).
Proof. exact store_later. Qed.
Print Assumptions C49_frame.

(** C49: after any history the files hold exactly the appended entries, and
    the bytes of those whose space was not given back. *)
Theorem C49_content : forall w m upper, store w m -> seq_ok upper ->
  exists w', bw_commit w upper = Some w' /\ forall s, seq_ok s ->
    match m s with
    | None => readEntry (w_index w') s = Some RInvalid \/ readEntry (w_index w') s = None
    | Some (e, c, rel) => exists off, 0 <= off /\
        readEntry (w_index w') s = Some (RFound (mkIE s (x_topicSize e) (x_valueSize e) off)) /\
        (rel = false -> read_at (w_data w') off (length c) = Some c)
    end.
Proof. exact store_read. Qed.
Print Assumptions C49_content.

(** C49: an append fails only for a sequence number that was appended before. *)
Theorem C49_append : forall w m e cache,
  store w m -> entry_req e cache -> w_offset w + Z.of_nat (length cache) < 2 ^ 63 ->
  match m (x_seq e) with
  | Some _ => bw_append w e cache = WErr w EExist
  | None => exists w', bw_append w e cache = WOk w'
  end.
Proof. exact store_append. Qed.
Print Assumptions C49_append.

(** C50, file part: a message stored as id, topic and value is read back from
    the data file as these.  Topics above 65526 bytes are left out: the sum of
    topic size and id size is a uint16 in the code. *)
Theorem C50_file_partial : forall w m upper s id topic value,
  store w m -> seq_ok upper -> seq_ok s ->
  length id = 9%nat -> (N.of_nat (length topic) < 2 ^ 16 - 9)%N ->
  m s = Some (mkIE s (N.of_nat (length topic)) (N.of_nat (length value)) 0, id ++ topic ++ value, false) ->
  exists w' e, bw_commit w upper = Some w' /\ readEntry (w_index w') s = Some (RFound e) /\
    readMessage (w_data w') e = Some (id, value) /\ readTopic (w_data w') e = Some topic.
Proof. exact store_message. Qed.
Print Assumptions C50_file_partial.

(** Two messages in different index blocks, from a new store. *)
Example C49_example : exists w m, ex_w = Some w /\ store w m /\
  m 1%N = Some (mkIE 1 2 3 0, [1;1;1;1;1;1;1;1;0]%N ++ [7;8]%N ++ [65;66;67]%N, false) /\
  m 300%N = Some (mkIE 300 0 1 0, [2;2;2;2;2;2;2;2;0]%N ++ [] ++ [90]%N, false).
Proof. exact ex_store. Qed.
