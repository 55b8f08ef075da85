(** Histories of the block store, and what was put into it. *)
From Verif Require Import M_Bytes M_IndexBlock M_Lease M_File M_BlockStore.
Open Scope Z_scope.

(** Sequence numbers whose index block lies below 2^31 bytes, leaving out the
    last such block. *)
Definition seq_ok (s : N) : Prop := (1 <= s <= 255 * 524287)%N.

(** What the sync code hands to [append]: the sizes in the entry are the sizes
    of the message bytes (id of 9 bytes, topic, value). *)
Definition entry_req (e : ientry) (cache : bytes) : Prop :=
  seq_ok (x_seq e) /\ (x_topicSize e < 2 ^ 16)%N /\ (x_valueSize e < 2 ^ 32)%N /\
  (N.of_nat (length cache) < 2 ^ 32)%N /\
  N.of_nat (length cache) = (9 + x_topicSize e + x_valueSize e)%N.

(** Ghost state: for each sequence number the entry and bytes that were
    appended, and whether its space was given back since. *)
Definition ghost := N -> option (ientry * bytes * bool).
Definition put (m : ghost) (s : N) (v : ientry * bytes * bool) : ghost :=
  fun t => if (t =? s)%N then Some v else m t.

(** The free list is shared between the database and its writers. *)
Definition with_lease (w : bwriter) (l : lease) : bwriter :=
  mkBW (w_index w) (w_data w) (w_blocks w) (w_blockIdx w) (w_buffer w) (w_offset w) l
       (w_indexOffset w) (w_dataOffset w) (w_dataLeases w) (w_indexLeases w).

(** Writers that can arise: a new store; appends, of which repeated ones
    answer EExist; writing out; opening the written files again; giving back
    the space of a message that was written out, once. *)
Inductive store : bwriter -> ghost -> Prop :=
| st_new find min w : (forall k, (find k < nShards)%nat) ->
    newBlockWriter [] [] (newLease find min) = Some w -> store w (fun _ => None)
| st_append w m e cache w' : store w m -> entry_req e cache ->
    w_offset w + Z.of_nat (length cache) < 2 ^ 63 ->
    bw_append w e cache = WOk w' -> store w' (put m (x_seq e) (e, cache, false))
| st_again w m e cache w' : store w m -> entry_req e cache ->
    w_offset w + Z.of_nat (length cache) < 2 ^ 63 ->
    bw_append w e cache = WErr w' EExist -> store w' m
| st_commit w m upper w' : store w m -> seq_ok upper ->
    bw_commit w upper = Some w' -> store w' m
| st_open w m upper w1 w' : store w m -> seq_ok upper -> bw_commit w upper = Some w1 ->
    newBlockWriter (w_index w1) (w_data w1) (w_lease w1) = Some w' -> store w' m
| st_free w m upper w1 s e cache x l : store w m -> seq_ok upper -> bw_commit w upper = Some w1 ->
    seq_ok s -> m s = Some (e, cache, false) -> readEntry (w_index w1) s = Some (RFound x) ->
    freeBlock (w_lease w1) (x_msgOffset x) (mSize x) = Some l ->
    store (with_lease w1 l) (put m s (e, cache, true)).

(** Further appends and writes. *)
Inductive later : bwriter -> bwriter -> Prop :=
| l_refl w : later w w
| l_append w e cache w1 w' : entry_req e cache -> w_offset w + Z.of_nat (length cache) < 2 ^ 63 ->
    (bw_append w e cache = WOk w1 \/ bw_append w e cache = WErr w1 EExist) -> later w1 w' -> later w w'
| l_commit w upper w1 w' : seq_ok upper -> bw_commit w upper = Some w1 -> later w1 w' -> later w w'.
