(** Model of block_writer.go and block_reader.go over file contents. *)
From Verif Require Import M_Bytes M_File M_IndexBlock M_Lease M_BlockRange.
Open Scope Z_scope.

(** block.go:37-44 with the two transient flags. *)
Record wblock := mkWB { w_blk : iblock; w_dirty : bool; w_leased : bool }.

(** A Go zero value [_IndexBlock]. *)
Definition iblock_zero : iblock := mkIB (repeat ie_zero entriesPerIndexBlock) 0.
Definition wblock_zero : wblock := mkWB iblock_zero false false.

(** block_writer.go:24-38 [_BlockWriter], with the contents of its two files.
    The map [indexBlocks] is an association list. *)
Record bwriter := mkBW {
  w_index : bytes;                  (* index file *)
  w_data : bytes;                   (* data file *)
  w_blocks : list (Z * wblock);     (* indexBlocks *)
  w_blockIdx : Z;
  w_buffer : bytes;
  w_offset : Z;                     (* where the next buffered message goes *)
  w_lease : lease;
  w_indexOffset : Z;                (* file sizes to truncate to on abort *)
  w_dataOffset : Z;
  w_dataLeases : list (Z * N);
  w_indexLeases : list N
}.

Fixpoint blk_find (m : list (Z * wblock)) (k : Z) : option wblock :=
  match m with
  | [] => None
  | (k', b) :: r => if k =? k' then Some b else blk_find r k
  end.
Fixpoint blk_set (m : list (Z * wblock)) (k : Z) (b : wblock) : list (Z * wblock) :=
  match m with
  | [] => [(k, b)]
  | (k', b') :: r => if k =? k' then (k, b) :: r else (k', b') :: blk_set r k b
  end.

(** block_reader.go:44-54 [readIndexBlock]; [None] is a read error. *)
Definition readIndexBlock (index : bytes) (off : Z) : option iblock :=
  match read_at index off blockBytes with
  | None => None
  | Some d => iblock_unmarshal d
  end.

(** block_writer.go:40-72 [newBlockWriter] *)
Definition newBlockWriter (index data : bytes) (l : lease) : option bwriter :=
  let sz := fsize index in
  let idx := if 0 <? sz then i32 (sz / 4096) else -1 in
  let blocks :=
    if ((0 <? sz) && (i32 (idx * 4096) <? sz))%bool
    then match readIndexBlock index (blockOffset idx) with
         | None => None
         | Some b => Some [(idx, mkWB b false false)]
         end
    else Some [] in
  match blocks with
  | None => None
  | Some bs => Some (mkBW index data bs idx [] (fsize data) l sz (fsize data) [] [])
  end.

(** block_writer.go:74-80 [extend] (file.go:147-155): grows the index file up
    to, not including, the block of [upperSeq]; the growth passes through
    uint32. *)
Definition bw_extend (w : bwriter) (upperSeq : N) : bwriter :=
  let off := blockOffset (blockIndex upperSeq) in
  if off <=? fsize (w_index w) then w
  else mkBW (truncate (w_index w)
               (Z.to_nat (fsize (w_index w) + Z.of_N (to_unsigned 32 (off - fsize (w_index w))))))
            (w_data w) (w_blocks w) (w_blockIdx w) (w_buffer w) (w_offset w) (w_lease w)
            (w_indexOffset w) (w_dataOffset w) (w_dataLeases w) (w_indexLeases w).

Inductive werr := EExist | EInvalid | EIO | EValidation.
Inductive wresult := WOk (w : bwriter) | WErr (w : bwriter) (e : werr) | WPanic.

(** block.go:62-68 [validation] *)
Definition block_valid (b : iblock) (bIdx : Z) : bool :=
  match b_entries b with
  | e :: _ => blockIndex (x_seq e) =? bIdx
  | [] => false
  end.

Definition has_seq (l : list ientry) (seq : N) : bool := existsb (fun s => (x_seq s =? seq)%N) l.

(** Lines 145-164 of [append]: bytes go to a free range if [allocate] gives one,
    else to the buffer that [write] adds at the end of the data file. *)
Definition place (w : bwriter) (cache : bytes) : option (lease * bytes * bytes * Z * Z * list (Z * N)) :=
  match allocate (w_lease w) (u32 (N.of_nat (length cache))) with
  | (_, APanic) => None
  | (l', AOff off) =>
      if off =? -1
      then Some (l', w_data w, w_buffer w ++ cache, w_offset w + Z.of_nat (length cache),
                 w_offset w, w_dataLeases w)
      else match write_at (w_data w) off cache with
           | None => None
           | Some d => Some (l', d, w_buffer w, w_offset w, off,
                             (off, u32 (N.of_nat (length cache))) :: w_dataLeases w)
           end
  | (l', ANone) =>
      Some (l', w_data w, w_buffer w ++ cache, w_offset w + Z.of_nat (length cache),
            w_offset w, w_dataLeases w)
  end.

(** block_writer.go:113-181 [append].  [e] is the entry without offset,
    [cache] its message bytes.  Line 128 looks at the first [entryIdx] slots;
    an [entryIdx] above 255 (corrupt file) indexes out of range. *)
Definition bw_append (w : bwriter) (e : ientry) (cache : bytes) : wresult :=
  if (x_seq e =? 0)%N then WPanic
  else
  let bIdx := blockIndex (x_seq e) in
  let loaded :=
    match blk_find (w_blocks w) bIdx with
    | Some b => Some b
    | None =>
        if bIdx <? w_blockIdx w
        then match readIndexBlock (w_index w) (blockOffset bIdx) with
             | None => None
             | Some b => Some (mkWB b false true)
             end
        else Some wblock_zero
    end in
  match loaded with
  | None => WErr w EIO
  | Some b =>
      let n := N.to_nat (b_entryIdx (w_blk b)) in
      if has_seq (firstn n (b_entries (w_blk b))) (x_seq e) then WErr w EExist
      else if Nat.ltb entriesPerIndexBlock n then WPanic
      else if Nat.eqb (length cache) 0 then WErr w EInvalid
      else
      match place w cache with
      | None => WPanic            (* allocation of zero bytes, or a write error *)
      | Some (l', data', buf', offset', off, dl') =>
          if Nat.leb entriesPerIndexBlock n then WPanic   (* entries[255] *)
          else
          let e' := mkIE (x_seq e) (x_topicSize e) (x_valueSize e) off in
          let blk' := mkIB (M_Hash.update (b_entries (w_blk b)) n e')
                           (u16 (b_entryIdx (w_blk b) + 1)) in
          let il' := if w_leased b then x_seq e :: w_indexLeases w else w_indexLeases w in
          let w1 := mkBW (w_index w) data' (w_blocks w) (w_blockIdx w) buf' offset' l'
                         (w_indexOffset w) (w_dataOffset w) dl' il' in
          if block_valid blk' bIdx
          then WOk (mkBW (w_index w) data' (blk_set (w_blocks w) bIdx (mkWB blk' true (w_leased b)))
                         (w_blockIdx w) buf' offset' l' (w_indexOffset w) (w_dataOffset w) dl' il')
          else WErr w1 EValidation
      end
  end.

Definition set_index (w : bwriter) (idx : bytes) : bwriter :=
  mkBW idx (w_data w) (w_blocks w) (w_blockIdx w) (w_buffer w) (w_offset w) (w_lease w)
       (w_indexOffset w) (w_dataOffset w) (w_dataLeases w) (w_indexLeases w).
Definition set_blocks (w : bwriter) (m : list (Z * wblock)) : bwriter :=
  mkBW (w_index w) (w_data w) m (w_blockIdx w) (w_buffer w) (w_offset w) (w_lease w)
       (w_indexOffset w) (w_dataOffset w) (w_dataLeases w) (w_indexLeases w).

(** One block to its place: lines 197-205 and 226-236. *)
Definition write_block (w : bwriter) (k : Z) : option bwriter :=
  let b := match blk_find (w_blocks w) k with Some b => b | None => wblock_zero end in
  if block_valid (w_blk b) k
  then match write_at (w_index w) (blockOffset k) (iblock_marshal (w_blk b)) with
       | None => None
       | Some idx => Some (set_blocks (set_index w idx)
                             (blk_set (w_blocks w) k (mkWB (w_blk b) false (w_leased b))))
       end
  else None.

(** Lines 239-248: marshal blocks [k], [k+1], ... ([n] of them) into one
    buffer, clearing their flags. *)
Fixpoint gather (n : nat) (k : Z) (w : bwriter) : option (bytes * bwriter) :=
  match n with
  | O => Some ([], w)
  | S n' =>
      let b := match blk_find (w_blocks w) k with Some b => b | None => wblock_zero end in
      if block_valid (w_blk b) k
      then match gather n' (k + 1) (set_blocks w (blk_set (w_blocks w) k
                                                    (mkWB (w_blk b) false (w_leased b)))) with
           | None => None
           | Some (d, w') => Some (iblock_marshal (w_blk b) ++ d, w')
           end
      else None
  end.

(** Lines 222-255: one element of the block ranges. *)
Definition write_part (w : bwriter) (part : list Z) : option bwriter :=
  match part with
  | [] => None                                  (* blocks[0] out of range *)
  | [k] => write_block w k
  | a :: z :: _ =>
      match gather (Z.to_nat (z - a + 1)) a w with
      | None => None
      | Some (d, w') => match write_at (w_index w') (blockOffset a) d with
                        | None => None
                        | Some idx => Some (set_index w' idx)
                        end
      end
  end.

Fixpoint fold_opt {A} (f : bwriter -> A -> option bwriter) (l : list A) (w : bwriter) : option bwriter :=
  match l with
  | [] => Some w
  | x :: r => match f w x with None => None | Some w' => fold_opt f r w' end
  end.

(** sort.Slice on int32 keys (line 217). *)
Fixpoint insert_Z (x : Z) (l : list Z) : list Z :=
  match l with
  | [] => [x]
  | y :: r => if x <=? y then x :: y :: r else y :: insert_Z x r
  end.
Definition sort_Z (l : list Z) : list Z := fold_right insert_Z [] l.

(** block_writer.go:183-258 [write].  Map iteration order only changes the
    order of writes to different blocks; the model takes the list order. *)
Definition bw_write (w : bwriter) : option bwriter :=
  let w := mkBW (w_index w) (file_append (w_data w) (w_buffer w)) (w_blocks w) (w_blockIdx w) []
                (w_offset w) (w_lease w) (w_indexOffset w) (w_dataOffset w)
                (w_dataLeases w) (w_indexLeases w) in
  let leased := map fst (filter (fun kb => (w_leased (snd kb) && w_dirty (snd kb))%bool) (w_blocks w)) in
  match fold_opt write_block leased w with
  | None => None
  | Some w =>
      let rest := map fst (filter (fun kb => (negb (w_leased (snd kb)) && w_dirty (snd kb))%bool)
                                  (w_blocks w)) in
      match blockRange (sort_Z rest) with
      | None => None
      | Some parts => fold_opt write_part parts w
      end
  end.

(** The loop of block_writer.go:94-100 and its index. *)
Fixpoint find_index (i : nat) (l : list ientry) (seq : N) : option (nat * ientry) :=
  match l with
  | [] => None
  | e :: r => if (x_seq e =? seq)%N then Some (i, e) else find_index (S i) r seq
  end.

(** block_writer.go:302-311 [reset], run after every [sync] (db_sync.go:89-103).
    [currSize] is the size of the file (file.go:135-145). *)
Definition bw_reset (w : bwriter) : bwriter :=
  mkBW (w_index w) (w_data w) (w_blocks w) (i32 (fsize (w_index w) / 4096)) [] (w_offset w) (w_lease w)
       (fsize (w_index w)) (fsize (w_data w)) (w_dataLeases w) (w_indexLeases w).

(** The part of db_sync.go:171-204 [sync] that touches index and data files
    when nothing fails; the deferred [abort] then only runs [reset]. *)
Definition bw_commit (w : bwriter) (upperSeq : N) : option bwriter :=
  match bw_write (bw_extend w upperSeq) with
  | None => None
  | Some w' => Some (bw_reset w')
  end.

(** block_writer.go:82-111 [del].  The writer is thrown away by its caller
    (db_internal.go:328-336) without [write], so only the returned entry and
    the block left in the map matter.  [None] is a read error. *)
Definition bw_del (w : bwriter) (seq : N) : option (bwriter * ientry) :=
  let bIdx := blockIndex seq in
  if w_blockIdx w <? bIdx then Some (w, ie_zero)
  else match readIndexBlock (w_index w) (blockOffset bIdx) with
  | None => None
  | Some b =>
      let n := N.to_nat (b_entryIdx b) in
      match find_index 0 (firstn n (b_entries b)) seq with
      | None => Some (w, ie_zero)
      | Some (i, e) =>
          let e' := mkIE (x_seq e) (x_topicSize e) (x_valueSize e) (-1) in
          Some (set_blocks w (blk_set (w_blocks w) bIdx
                  (mkWB (mkIB (M_Hash.update (b_entries b) i e') (b_entryIdx b)) true false)), e')
      end
  end.

(** block_reader.go:56-79 [readEntry]; [None] is a read error (EOF). *)
Definition readEntry (index : bytes) (seq : N) : option read_result :=
  match readIndexBlock index (blockOffset (blockIndex seq)) with
  | None => None
  | Some b => Some (scan_entries (b_entries b) seq)
  end.

(** block_reader.go:81-90 [readMessage] for an entry without cache: the message
    bytes, then the id and value parts.  [topicSize + idSize] is uint16. *)
Definition readMessage (data : bytes) (e : ientry) : option (bytes * bytes) :=
  match read_at data (x_msgOffset e) (N.to_nat (mSize e)) with
  | None => None
  | Some m => Some (firstn idSize m, skipn (N.to_nat (u16 (x_topicSize e + N.of_nat idSize))) m)
  end.

(** block_reader.go:92-97 [readTopic] for an entry without cache. *)
Definition readTopic (data : bytes) (e : ientry) : option bytes :=
  read_at data (x_msgOffset e + Z.of_nat idSize) (N.to_nat (x_topicSize e)).
