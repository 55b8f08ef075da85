(** Model of the time window: entries kept in memory (time_window.go), blocks
    in the window file (time_window_writer.go, time_window_reader.go), and the
    lookup over both. *)
From Verif Require Import M_Bytes M_File M_Hash M_BlockRange M_MemDB M_Query M_BlockStore M_WinBlock.
Open Scope Z_scope.

(** * Entries in memory *)

(** time_window.go:122-130: map from time and topic hash to entries, oldest
    first.  The 27 shards of lines 134-159 are one map here: the shard is a
    function of the topic hash and every use names a hash. *)
Notation twkey := (Z * N)%type.
Notation twmap := (list (twkey * list wentry)).
Definition tk_eqb (a b : twkey) : bool := ((fst a =? fst b) && (snd a =? snd b)%N)%bool.

(** time_window.go:168-187 [add]; it always answers true. *)
Definition tw_add (m : twmap) (t : Z) (h : N) (e : wentry) : twmap :=
  match afind tk_eqb m (t, h) with
  | Some l => aset tk_eqb m (t, h) (l ++ [e])
  | None => aset tk_eqb m (t, h) [e]
  end.

(** time_window.go:188-202: the keys there are when a sync begins. *)
Definition tw_keys (m : twmap) : list twkey := map fst m.
(** time_window.go:203-216: those of one time are taken out; [None] is
    errBadRequest. *)
Definition tw_release (keys : list twkey) (m : twmap) (t : Z) : option twmap :=
  let ks := filter (fun k : twkey => fst k =? t) keys in
  match ks with
  | [] => None
  | _ => Some (fold_left (adel tk_eqb) ks m)
  end.

(** The entries of one topic, by time.  A Go map is walked in any order: the
    functions below take the lists in the order of the walk. *)
Definition tw_lists (m : twmap) (h : N) : list (list wentry) :=
  map snd (filter (fun x : twkey * list wentry => (snd (fst x) =? h)%N) m).

(** time_window.go:63-65; [now] in nanoseconds. *)
Definition we_live (now : Z) (e : wentry) : bool := negb (is_expired (w_expiresAt e) now).

(** time_window.go:239-250: the last [l] entries, newest first, without the
    expired ones.  [addExpiry] never returns an error (expiry_window.go:129-148),
    so expiryCount stays 0; what it adds is for the background expirer. *)
Definition newest_live (now l : Z) (es : list wentry) : list wentry :=
  filter (we_live now) (firstn (Z.to_nat l) (rev es)).

(** time_window.go:229-252.  [l] carries over from one list to the next. *)
Fixpoint ilookup_loop (now limit l : Z) (ls : list (list wentry)) (acc : list wentry) : list wentry :=
  match ls with
  | [] => acc
  | es :: r =>
      match es with
      | [] => ilookup_loop now limit l r acc
      | _ =>
          let l := limit - l in
          let l := if Z.of_nat (length es) <? l then Z.of_nat (length es) else l in
          ilookup_loop now limit l r (acc ++ newest_live now l es)
      end
  end.
(** time_window.go:220-254 [ilookup] *)
Definition tw_ilookup (now limit : Z) (ls : list (list wentry)) : list wentry := ilookup_loop now limit 0 ls [].

(** * The window file *)

Definition winBlockOffset (idx : Z) : Z := i32 (4096 * idx).

(** time_window_reader.go:45-55 [readWindowBlock]; [None] is an error. *)
Definition readWindowBlock (f : bytes) (off : Z) : option wblock :=
  match read_at f off blockBytes with
  | None => None
  | Some d => wblock_unmarshal d
  end.

(** Blocks held by a writer, with the flags of time_window.go:43-47. *)
Record wslot := mkWS { ws_blk : wblock; ws_dirty : bool; ws_leased : bool }.
Definition ws_zero : wslot := mkWS wb_zero false false.

(** time_window_writer.go:26-35, with the contents of the file. *)
Record winwriter := mkWW {
  ww_file : bytes;
  ww_idx : Z;                       (* windowIdx, int32 *)
  ww_blocks : list (Z * wslot);     (* winBlocks *)
  ww_leases : list (Z * list N);    (* winLeases *)
  ww_offset : Z
}.

(** time_window_writer.go:37-50 [newWindowWriter] *)
Definition newWindowWriter (f : bytes) : winwriter :=
  mkWW f (if 0 <? fsize f then i32 (fsize f / 4096) else -1) [] [] (fsize f).

Definition lease_add (m : list (Z * list N)) (k : Z) (seq : N) : list (Z * list N) :=
  aset Z.eqb m k (match afind Z.eqb m k with Some l => l | None => [] end ++ [seq]).

(** time_window_writer.go:106-126: the loop over the entries; [wIdx] and [b]
    are the current block.  The clock is read once.  [None] is a panic:
    an entry count above 335, as a damaged file may have. *)
Fixpoint append_loop (now : Z) (w : winwriter) (wIdx : Z) (b : wslot) (es : list wentry)
  : option (winwriter * Z * wslot) :=
  match es with
  | [] => Some (w, wIdx, b)
  | e :: r =>
      if (w_seq e =? 0)%N then append_loop now w wIdx b r
      else
      let '(w, wIdx, b) :=
        if (wb_entryIdx (ws_blk b) =? N.of_nat entriesPerWindowBlock)%N
        then let k := ws_blk b in
             let full := mkWB (wb_topicHash k) (wb_entries k) (wb_next k) (unix now) (wb_entryIdx k) in
             let idx := i32 (ww_idx w + 1) in
             (mkWW (ww_file w) idx (aset Z.eqb (ww_blocks w) wIdx (mkWS full (ws_dirty b) (ws_leased b)))
                   (ww_leases w) (ww_offset w),
              idx,
              mkWS (mkWB (wb_topicHash k) (repeat we_zero entriesPerWindowBlock) (winBlockOffset wIdx) 0 0)
                   false false)
        else (w, wIdx, b) in
      let w := if ws_leased b
               then mkWW (ww_file w) (ww_idx w) (ww_blocks w) (lease_add (ww_leases w) wIdx (w_seq e)) (ww_offset w)
               else w in
      let k := ws_blk b in
      if Nat.leb entriesPerWindowBlock (N.to_nat (wb_entryIdx k)) then None
      else append_loop now w wIdx
             (mkWS (mkWB (wb_topicHash k) (M_Hash.update (wb_entries k) (N.to_nat (wb_entryIdx k)) e) (wb_next k)
                         (wb_cutoffTime k) (u16 (wb_entryIdx k + 1)))
                   true (ws_leased b)) r
  end.

(** time_window_writer.go:83-130 [append]: the writer and the offset of the
    block written last.  A block of another topic is taken over (the answer of
    [validation], line 101, is dropped). *)
Inductive aresult := AppOk (w : winwriter) (off : Z) | AppErr (w : winwriter) | AppPanic.
Definition ww_append (now : Z) (w : winwriter) (h : N) (off : Z) (es : list wentry) : aresult :=
  let idx := if off =? 0 then i32 (ww_idx w + 1) else ww_idx w in
  let wIdx := if off =? 0 then idx else i32 (Z.quot off 4096) in
  let w := mkWW (ww_file w) idx (ww_blocks w) (ww_leases w) (ww_offset w) in
  let loaded := match afind Z.eqb (ww_blocks w) wIdx with
                | Some b => Some b
                | None => if ((0 <? off) && (wIdx <=? idx))%bool
                          then match readWindowBlock (ww_file w) off with
                               | None => None
                               | Some b => Some (mkWS b false true)
                               end
                          else Some ws_zero
                end in
  match loaded with
  | None => AppErr w
  | Some b =>
      let k := ws_blk b in
      let b := mkWS (mkWB h (wb_entries k) (wb_next k) (wb_cutoffTime k) (wb_entryIdx k)) (ws_dirty b) (ws_leased b) in
      match append_loop now w wIdx b es with
      | None => AppPanic
      | Some (w, wIdx, b) =>
          AppOk (mkWW (ww_file w) (ww_idx w) (aset Z.eqb (ww_blocks w) wIdx b) (ww_leases w) (ww_offset w))
                (winBlockOffset wIdx)
      end
  end.

Definition ww_block (w : winwriter) (k : Z) : wslot :=
  match afind Z.eqb (ww_blocks w) k with Some b => b | None => ws_zero end.

(** time_window_writer.go:137-142 and 164-172: one block to its place. *)
Definition ww_put1 (w : winwriter) (k : Z) : option winwriter :=
  let b := ww_block w k in
  match write_at (ww_file w) (winBlockOffset k) (wblock_marshal (ws_blk b)) with
  | None => None
  | Some f => Some (mkWW f (ww_idx w) (aset Z.eqb (ww_blocks w) k (mkWS (ws_blk b) false (ws_leased b)))
                         (ww_leases w) (ww_offset w))
  end.

(** time_window_writer.go:177-187: blocks [k], [k+1], ... in one buffer. *)
Fixpoint ww_gather (n : nat) (k : Z) (w : winwriter) : bytes * winwriter :=
  match n with
  | O => ([], w)
  | S n' =>
      let b := ww_block w k in
      let (d, w') := ww_gather n' (k + 1)
                       (mkWW (ww_file w) (ww_idx w) (aset Z.eqb (ww_blocks w) k (mkWS (ws_blk b) false (ws_leased b)))
                             (ww_leases w) (ww_offset w)) in
      (wblock_marshal (ws_blk b) ++ d, w')
  end.

(** time_window_writer.go:162-192: one element of the ranges. *)
Definition ww_put (w : winwriter) (part : list Z) : option winwriter :=
  match part with
  | [] => None
  | [k] => ww_put1 w k
  | a :: z :: _ =>
      let (d, w') := ww_gather (Z.to_nat (z - a + 1)) a w in
      match write_at (ww_file w') (winBlockOffset a) d with
      | None => None
      | Some f => Some (mkWW f (ww_idx w') (ww_blocks w') (ww_leases w') (ww_offset w'))
      end
  end.

Fixpoint ww_fold {A} (f : winwriter -> A -> option winwriter) (l : list A) (w : winwriter) : option winwriter :=
  match l with
  | [] => Some w
  | x :: r => match f w x with None => None | Some w' => ww_fold f r w' end
  end.

(** time_window_writer.go:132-194 [write].  The map is walked in list order:
    the order changes only the order of writes to different blocks.  The shared
    buffer is empty when [write] begins (see [reset]) and every range takes the
    part it added itself (lines 184, 191). *)
Definition ww_write (w : winwriter) : option winwriter :=
  let leased := map fst (filter (fun kb => (ws_leased (snd kb) && ws_dirty (snd kb))%bool) (ww_blocks w)) in
  match ww_fold ww_put1 leased w with
  | None => None
  | Some w =>
      let rest := map fst (filter (fun kb => (negb (ws_leased (snd kb)) && ws_dirty (snd kb))%bool) (ww_blocks w)) in
      match blockRange (sort_Z rest) with
      | None => None
      | Some parts => ww_fold ww_put parts w
      end
  end.

(** time_window_writer.go:207-212 [reset] *)
Definition ww_reset (w : winwriter) : winwriter :=
  mkWW (ww_file w) (ww_idx w) (ww_blocks w) (ww_leases w) (fsize (ww_file w)).

(** time_window_writer.go:52-80 [del] of one entry, in the writer only; the
    loop stops at 254, the size of an index block, not of a window block. *)
Fixpoint we_index (l : list wentry) (seq : N) (i : nat) : option nat :=
  match l with
  | [] => None
  | e :: r => if (w_seq e =? seq)%N then Some i else we_index r seq (S i)
  end.
Definition we_shift (l : list wentry) (i : nat) : list wentry :=
  if Nat.leb 254 i then M_Hash.update l i we_zero
  else firstn i l ++ firstn (254 - i) (skipn (S i) l) ++ we_zero :: skipn 255 l.
Definition ww_del (w : winwriter) (seq : N) (k : Z) : option winwriter :=
  match readWindowBlock (ww_file w) (winBlockOffset k) with
  | None => None
  | Some b =>
      match we_index (firstn (N.to_nat (wb_entryIdx b)) (wb_entries b)) seq 0 with
      | None => Some w
      | Some i =>
          Some (mkWW (ww_file w) (ww_idx w)
                     (aset Z.eqb (ww_blocks w) k
                        (mkWS (mkWB (wb_topicHash b) (we_shift (wb_entries b) i) (wb_next b) (wb_cutoffTime b)
                                    (wb_entryIdx b - 1)) true false))
                     (ww_leases w) (ww_offset w))
      end
  end.
(** time_window_writer.go:196-218 [rollback], [abort]; the error is dropped. *)
Definition ww_abort (w : winwriter) : winwriter :=
  let w := mkWW (truncate (ww_file w) (Z.to_nat (ww_offset w))) (ww_idx w) (ww_blocks w) (ww_leases w) (ww_offset w) in
  match ww_fold (fun w ks => ww_fold (fun w s => ww_del w s (fst ks)) (snd ks) w) (ww_leases w) w with
  | Some w' => w'
  | None => w
  end.

(** * Lookup *)

(** time_window.go:67-69 [cutoff] *)
Definition wb_old (b : wblock) (cutoff : Z) : bool :=
  (negb (wb_cutoffTime b =? 0) && (wb_cutoffTime b <? cutoff))%bool.

(** The entries in use, oldest first; [None]: the slice panics. *)
Definition wb_used (b : wblock) : option (list wentry) :=
  if Nat.ltb entriesPerWindowBlock (N.to_nat (wb_entryIdx b)) then None
  else Some (firstn (N.to_nat (wb_entryIdx b)) (wb_entries b)).

(** time_window.go:284-324: what one block does to the answer and the limit;
    the third part says whether to stop.  [limit] is a Go variable shared by
    the calls. *)
Definition look_block (now : Z) (h : N) (cutoff : Z) (b : wblock) (limit : Z) (acc : list wentry)
  : option (list wentry * Z * bool) :=
  if negb (wb_topicHash b =? h)%N then Some (acc, limit, true)
  else match wb_used b with
  | None => None
  | Some es =>
      let all limit acc := Some (acc ++ newest_live now (Z.of_nat (length es)) es, limit, wb_old b cutoff) in
      if limit - Z.of_nat (length es) <? Z.of_nat (length acc)
      then let limit := limit - Z.of_nat (length acc) in
           let acc := acc ++ newest_live now limit es in
           if limit <=? Z.of_nat (length acc) then Some (acc, limit, true) else all limit acc
      else all limit acc
  end.

(** time_window.go:267-282: the chain of blocks.  [None]: a panic, or a chain
    longer than [fuel]. *)
Fixpoint look_chain (fuel : nat) (now : Z) (f : bytes) (h : N) (cutoff off limit : Z) (acc : list wentry)
  : option (list wentry) :=
  match fuel with
  | O => None
  | S fuel =>
      match readWindowBlock f off with
      | None => Some acc
      | Some b =>
          match look_block now h cutoff b limit acc with
          | None => None
          | Some (acc, limit, true) => Some acc
          | Some (acc, limit, false) =>
              if wb_next b =? 0 then Some acc else look_chain fuel now f h cutoff (wb_next b) limit acc
          end
      end
  end.

(** time_window.go:257-330 [lookup]; [ls] are the lists of the topic in memory
    in the order of the walk.  A chain without a loop has no more blocks than
    the file. *)
Definition tw_lookup (now : Z) (ls : list (list wentry)) (f : bytes) (h : N) (off cutoff limit : Z)
  : option (list wentry) :=
  let acc := tw_ilookup now limit ls in
  if limit <=? Z.of_nat (length acc) then Some acc
  else look_chain (S (length f / 4096)) now f h cutoff off limit acc.

(** * Reading the file when the database is opened *)

(** time_window_reader.go:58-80 [blockIterator]: the blocks that are handed on
    (first sequence number, topic hash, offset); [false] at the end if a read
    failed other than at the end of the file, which this model does not have. *)
Fixpoint iter_blocks (n : nat) (idx : Z) (f : bytes) : list (N * N * Z) :=
  match n with
  | O => []
  | S n' =>
      match readWindowBlock f (winBlockOffset idx) with
      | None => []
      | Some b =>
          let rest := iter_blocks n' (idx + 1) f in
          if ((wb_entryIdx b =? 0)%N || negb (wb_next b =? 0))%bool then rest
          else (w_seq (nth 0 (wb_entries b) we_zero), wb_topicHash b, winBlockOffset idx) :: rest
      end
  end.
(** time_window_reader.go:31-43: up to and including the block after the last. *)
Definition blockIterator (f : bytes) : list (N * N * Z) :=
  if 0 <? fsize f then iter_blocks (S (Z.to_nat (i32 (fsize f / 4096)))) 0 f else [].
