(** Model of memdb: the in-memory store with its write-ahead log, for one
    caller at a time (the locks of the code are left out). *)
From Verif Require Import M_Bytes M_Bloom M_Wal.
Open Scope Z_scope.

(** Go maps as association lists. *)
Fixpoint afind {K V} (eqb : K -> K -> bool) (m : list (K * V)) (k : K) : option V :=
  match m with
  | [] => None
  | (k', v) :: r => if eqb k' k then Some v else afind eqb r k
  end.
Definition adel {K V} (eqb : K -> K -> bool) (m : list (K * V)) (k : K) : list (K * V) :=
  filter (fun e => negb (eqb (fst e) k)) m.
Definition aset {K V} (eqb : K -> K -> bool) (m : list (K * V)) (k : K) (v : V) : list (K * V) :=
  (k, v) :: adel eqb m k.

(** memdb/block.go:41-66 [_Key], [iKey]: deleted flag and key. *)
Notation ikey := (bool * N)%type.
Definition ik_eqb (a b : ikey) : bool := (Bool.eqb (fst a) (fst b) && (snd a =? snd b)%N)%bool.

(** memdb/block.go:48-57 [_Block].  [mb_buf] says which buffer of the pool the
    block uses: buffers are shared memory. *)
Record mblock := mkMB {
  mb_count : Z;
  mb_buf : nat;
  mb_recs : list (ikey * Z);
  mb_refs : list Z;
  mb_last : Z
}.

(** memdb/block.go:29-37 [_TimeFilter] *)
Record tfilter := mkTF { tf_recs : list (Z * option bloom); tf_gen : bloom }.

(** memdb/db.go:34-45, db_internal.go:55-82, tiny_log.go:34-41, 85-95,
    time_mark.go:24-34.  [m_blocks] is the heap of blocks, [m_bufs] that of
    buffers; the maps hold positions in it. *)
Record mdb := mkMDB {
  m_blocks : list mblock;
  m_bufs : list bytes;
  m_pool : list nat;                     (* buffers given back to the pool *)
  m_live : list (Z * nat);               (* timeBlocks *)
  m_filters : list tfilter;              (* timeFilters *)
  m_qrec : Z;                            (* queryManager.timeRcord *)
  m_qfilters : list (list (Z * option bloom));
  m_qblocks : list (Z * nat);
  m_cur : Z;                             (* timeID of the current tiny log *)
  m_curid : Z;                           (* its id *)
  m_queue : list (Z * Z);                (* tiny logs to commit: id, timeID *)
  m_marks : list (Z * Z);                (* timeMark.records *)
  m_released : list Z;                   (* timeMark.releasedRecords *)
  m_wal : dir;
  m_closed : bool
}.

(** memdb/options.go and db_internal.go:123-126: [c_bkey] is FindBlock. *)
Record mcfg := mkMC { c_bkey : N -> nat; c_dur : Z; c_logint : Z }.

Definition nFilters : nat := 27.

Definition set_block (s : mdb) (p : nat) (b : mblock) : mdb :=
  mkMDB (M_Hash.update (m_blocks s) p b) (m_bufs s) (m_pool s) (m_live s) (m_filters s) (m_qrec s)
        (m_qfilters s) (m_qblocks s) (m_cur s) (m_curid s) (m_queue s) (m_marks s) (m_released s)
        (m_wal s) (m_closed s).
Definition set_buf (s : mdb) (i : nat) (d : bytes) : mdb :=
  mkMDB (m_blocks s) (M_Hash.update (m_bufs s) i d) (m_pool s) (m_live s) (m_filters s) (m_qrec s)
        (m_qfilters s) (m_qblocks s) (m_cur s) (m_curid s) (m_queue s) (m_marks s) (m_released s)
        (m_wal s) (m_closed s).
Definition set_filters (s : mdb) (f : list tfilter) : mdb :=
  mkMDB (m_blocks s) (m_bufs s) (m_pool s) (m_live s) f (m_qrec s) (m_qfilters s) (m_qblocks s)
        (m_cur s) (m_curid s) (m_queue s) (m_marks s) (m_released s) (m_wal s) (m_closed s).
Definition set_query (s : mdb) (qr : Z) (qf : list (list (Z * option bloom))) (qb : list (Z * nat)) : mdb :=
  mkMDB (m_blocks s) (m_bufs s) (m_pool s) (m_live s) (m_filters s) qr qf qb
        (m_cur s) (m_curid s) (m_queue s) (m_marks s) (m_released s) (m_wal s) (m_closed s).
Definition set_log (s : mdb) (cur id : Z) (q : list (Z * Z)) : mdb :=
  mkMDB (m_blocks s) (m_bufs s) (m_pool s) (m_live s) (m_filters s) (m_qrec s) (m_qfilters s)
        (m_qblocks s) cur id q (m_marks s) (m_released s) (m_wal s) (m_closed s).
Definition set_marks (s : mdb) (mk : list (Z * Z)) (rl : list Z) : mdb :=
  mkMDB (m_blocks s) (m_bufs s) (m_pool s) (m_live s) (m_filters s) (m_qrec s) (m_qfilters s)
        (m_qblocks s) (m_cur s) (m_curid s) (m_queue s) mk rl (m_wal s) (m_closed s).
Definition set_wal (s : mdb) (d : dir) : mdb :=
  mkMDB (m_blocks s) (m_bufs s) (m_pool s) (m_live s) (m_filters s) (m_qrec s) (m_qfilters s)
        (m_qblocks s) (m_cur s) (m_curid s) (m_queue s) (m_marks s) (m_released s) d (m_closed s).
Definition set_live (s : mdb) (l : list (Z * nat)) (pool : list nat) : mdb :=
  mkMDB (m_blocks s) (m_bufs s) pool l (m_filters s) (m_qrec s) (m_qfilters s)
        (m_qblocks s) (m_cur s) (m_curid s) (m_queue s) (m_marks s) (m_released s) (m_wal s) (m_closed s).
Definition set_heap (s : mdb) (bs : list mblock) (bufs : list bytes) : mdb :=
  mkMDB bs bufs (m_pool s) (m_live s) (m_filters s) (m_qrec s) (m_qfilters s)
        (m_qblocks s) (m_cur s) (m_curid s) (m_queue s) (m_marks s) (m_released s) (m_wal s) (m_closed s).

Definition live (s : mdb) (t : Z) : option nat := afind Z.eqb (m_live s) t.
Definition rec_off (s : mdb) (p : nat) (k : ikey) : option Z :=
  match nth_error (m_blocks s) p with None => None | Some b => afind ik_eqb (mb_recs b) k end.

(** memdb/block.go:82-110: the bytes of one record. *)
Definition mrecord (k : ikey) (data : bytes) : bytes :=
  le 4 (u32 (N.of_nat (length data + 13))) ++ (if fst k then 1%N else 0%N) :: le 8 (snd k) ++ data.

(** memdb/block.go:82-110 [put].  Growing the buffer always succeeds here. *)
Definition block_put (s : mdb) (p : nat) (k : ikey) (data : bytes) : option mdb :=
  match nth_error (m_blocks s) p with
  | None => None
  | Some b =>
      match nth_error (m_bufs s) (mb_buf b) with
      | None => None
      | Some d =>
          let b' := mkMB (if fst k then mb_count b else mb_count b + 1) (mb_buf b)
                         (aset ik_eqb (mb_recs b) k (Z.of_nat (length d))) (mb_refs b) (mb_last b) in
          Some (set_block (set_buf s (mb_buf b) (d ++ mrecord k data)) p b')
      end
  end.

(** memdb/block.go:68-80 [get]; bpool.Buffer.Slice is taken to fail when the
    end is past the buffer. *)
Inductive gres := GOk (v : bytes) | GNotExist | GErr | GClosed | GPanic | GLoop.
Definition buf_get (d : bytes) (off : Z) : gres :=
  if Z.of_nat (length d) <? off + 4 then GErr
  else let n := Z.of_N (unle (slice d (Z.to_nat off) 4)) in
       if Z.of_nat (length d) <? off + n then GErr
       else if n <? 13 then GPanic
       else GOk (slice d (Z.to_nat off + 13) (Z.to_nat n - 13)).
Definition block_get (s : mdb) (p : nat) (off : Z) : gres :=
  match nth_error (m_blocks s) p with
  | None => GPanic
  | Some b => match nth_error (m_bufs s) (mb_buf b) with
              | None => GPanic
              | Some d => buf_get d off
              end
  end.

(** memdb/block.go:112-127 [delete]: the flag byte in the buffer is set. *)
Definition block_delete (s : mdb) (p : nat) (key : N) : option mdb :=
  match nth_error (m_blocks s) p with
  | None => None
  | Some b =>
      match nth_error (m_bufs s) (mb_buf b) with
      | None => None
      | Some d =>
          let off := match afind ik_eqb (mb_recs b) (false, key) with
                     | Some o => Z.to_nat o
                     | None => 0%nat
                     end in
          let d' := firstn (off + 4) d ++ (1%N :: le 8 key) ++ skipn (off + 13) d in
          let b' := mkMB (mb_count b - 1) (mb_buf b) (adel ik_eqb (mb_recs b) (false, key))
                         (mb_refs b) (mb_last b) in
          Some (set_block (set_buf s (mb_buf b) d') p b')
      end
  end.

(** memdb/db_internal.go:132-141 [addTimeBlock].  The pool hands out an empty
    buffer: a new one, or [pick], one that was given back. *)
Definition addTimeBlock (s : mdb) (t : Z) (pick : option nat) : mdb :=
  match live s t with
  | Some _ => s
  | None =>
      let new := (length (m_bufs s), m_pool s, m_bufs s ++ [[]]) in
      let '(i, pool, bufs) :=
        match pick with
        | Some i => if existsb (Nat.eqb i) (m_pool s)
                    then (i, filter (fun j => negb (Nat.eqb i j)) (m_pool s), M_Hash.update (m_bufs s) i [])
                    else new
        | None => new
        end in
      let p := length (m_blocks s) in
      set_live (set_heap s (m_blocks s ++ [mkMB 0 i [] [] 0]) bufs) (aset Z.eqb (m_live s) t p) pool
  end.

(** memdb/time_mark.go:41-66 [add], [release] *)
Definition mark_add (s : mdb) (t : Z) : mdb := set_marks s (aset Z.eqb (m_marks s) t 1) (m_released s).
Definition mark_release (s : mdb) (t : Z) : mdb :=
  match afind Z.eqb (m_marks s) t with
  | None => s
  | Some r => if 0 <? r - 1 then set_marks s (aset Z.eqb (m_marks s) t (r - 1)) (m_released s)
              else set_marks s (adel Z.eqb (m_marks s) t)
                             (t :: filter (fun u => negb (u =? t)) (m_released s))
  end.
(** memdb/time_mark.go:96-101 [timeUnref] *)
Definition mark_unref (s : mdb) (t : Z) : mdb :=
  set_marks s (m_marks s) (filter (fun u => negb (u =? t)) (m_released s)).

Fixpoint insert_asc (x : Z) (l : list Z) : list Z :=
  match l with
  | [] => [x]
  | y :: r => if x <=? y then x :: y :: r else y :: insert_asc x r
  end.
Definition sort_asc (l : list Z) : list Z := fold_right insert_asc [] l.
Definition sort_desc (l : list Z) : list Z := rev (sort_asc l).

(** memdb/time_mark.go:68-94 [timeRefs], [allRefs] *)
Definition timeRefs (s : mdb) : list Z :=
  sort_asc (filter (fun t => ((0 <? t) && (t <? m_cur s))%bool) (m_released s)).
Definition allRefs (s : mdb) : list Z := sort_asc (m_released s).

(** memdb/db.go:269-275: the keys of a block that are not deleted. *)
Definition block_keys (s : mdb) (t : Z) : list N :=
  match live s t with
  | None => []
  | Some p => match nth_error (m_blocks s) p with
              | None => []
              | Some b => flat_map (fun e : ikey * Z => if fst (fst e) then [] else [snd (fst e)]) (mb_recs b)
              end
  end.

(** memdb/db_internal.go:314-338 [releaseLog]; the pool empties the buffer. *)
Definition releaseLog (s : mdb) (t : Z) : option mdb :=
  match live s t with
  | None => None
  | Some p =>
      match nth_error (m_blocks s) p with
      | None => None
      | Some b =>
          let s := set_wal s (fold_left del_log (mb_refs b) (m_wal s)) in
          let s := mark_unref s t in
          let s := set_buf s (mb_buf b) [] in
          Some (set_live s (adel Z.eqb (m_live s) t) (mb_buf b :: m_pool s))
      end
  end.

(** filter/filter.go:39-60: a copy of the filter as a block, and its test. *)
Definition snapshot (f : bloom) : option bloom := newFilterBlock (bloom_bytes f).
Definition fl_test (f : option bloom) (key : N) : bool :=
  match f with None => false | Some f => bloom_test f key end.

(** memdb/db_internal.go:154-173 [addTimeFilter] *)
Definition addTimeFilter (c : mcfg) (s : mdb) (t : Z) (key : N) : mdb :=
  match nth_error (m_filters s) (c_bkey c key) with
  | None => s
  | Some r =>
      let recs := match afind Z.eqb (tf_recs r) t with
                  | Some _ => tf_recs r
                  | None => aset Z.eqb (tf_recs r) t (snapshot (tf_gen r))
                  end in
      set_filters s (M_Hash.update (m_filters s) (c_bkey c key) (mkTF recs (bloom_add (tf_gen r) key)))
  end.

Inductive mres := MOk | MNotExist | MForbidden | MClosed | MPanic.

(** memdb/db.go:367-391 [Put] and batch.go:59-80: into the block of time [t].
    A key and value go in as they are; [None] of [block_put] does not occur. *)
Definition put_in (c : mcfg) (s : mdb) (t : Z) (key : N) (data : bytes) : mdb * mres :=
  if m_closed s then (s, MClosed)
  else match live s t with
       | None => (s, MForbidden)
       | Some p => match block_put s p (false, key) data with
                   | None => (s, MPanic)
                   | Some s' => (addTimeFilter c s' t key, MOk)
                   end
       end.
Definition mem_put (c : mcfg) (s : mdb) (key : N) (data : bytes) : mdb * mres :=
  put_in c s (m_cur s) key data.

(** memdb/db.go:145-176 [Lookup] *)
Definition mem_lookup (s : mdb) (t : Z) (key : N) : gres :=
  if m_closed s then GClosed
  else match live s t with
       | None => GNotExist
       | Some p => match rec_off s p (false, key) with
                   | None => GNotExist
                   | Some off => block_get s p off
                   end
       end.

(** The loop of memdb/db_internal.go:208-234, of db.go:315-331 and of
    recovery.go:47-61: the newest live block that has the key, unless a filter
    says before that it is in no older one. *)
Fixpoint find_block (s : mdb) (key : N) (recs : list (Z * option bloom)) (ids : list Z) : option (Z * nat) :=
  match ids with
  | [] => None
  | t :: r =>
      match live s t with
      | None => find_block s key recs r
      | Some p =>
          match rec_off s p (false, key) with
          | Some _ => Some (t, p)
          | None => match afind Z.eqb recs t with
                    | None => None              (* nil filter; [ids] are the keys of [recs] *)
                    | Some f => if fl_test f key then find_block s key recs r else None
                    end
          end
      end
  end.
Definition newest (c : mcfg) (s : mdb) (key : N) : option (Z * nat) :=
  match nth_error (m_filters s) (c_bkey c key) with
  | None => None
  | Some r => find_block s key (tf_recs r) (sort_desc (map fst (tf_recs r)))
  end.

Definition qrecs (c : mcfg) (s : mdb) (key : N) : list (Z * option bloom) :=
  match nth_error (m_qfilters s) (c_bkey c key) with Some l => l | None => [] end.

(** memdb/db_internal.go:185-237 [seek]; [None] is errEntryDoesNotExist. *)
Definition seek (c : mcfg) (s : mdb) (key : N) : option mdb :=
  match newest c s key, nth_error (m_filters s) (c_bkey c key) with
  | Some (t, p), Some r =>
      Some (set_query s (m_qrec s)
              (M_Hash.update (m_qfilters s) (c_bkey c key) (aset Z.eqb (qrecs c s key) t (snapshot (tf_gen r))))
              (aset Z.eqb (m_qblocks s) t p))
  | _, _ => None
  end.

(** The loop of memdb/db.go:229-250 over the blocks kept for queries. *)
Fixpoint query_scan (s : mdb) (key : N) (recs : list (Z * option bloom)) (ids : list Z) : option (Z * nat) :=
  match ids with
  | [] => None
  | t :: r =>
      match afind Z.eqb (m_qblocks s) t with
      | None => query_scan s key recs r
      | Some p =>
          match rec_off s p (false, key) with
          | Some _ => Some (t, p)
          | None => match afind Z.eqb recs t with
                    | None => None
                    | Some f => if fl_test f key then query_scan s key recs r else None
                    end
          end
      end
  end.

Definition read_rec (s : mdb) (p : nat) (key : N) : gres :=
  match rec_off s p (false, key) with None => GPanic | Some off => block_get s p off end.

(** memdb/db.go:196-250: the part of [Get] after the query plan; [None] when
    the function goes on to call itself. *)
Definition get_cached (c : mcfg) (s : mdb) (key : N) : option (mdb * gres) :=
  let scan := match query_scan s key (qrecs c s key) (sort_desc (map fst (qrecs c s key))) with
              | Some (t, p) => Some (set_query s t (m_qfilters s) (m_qblocks s), read_rec s p key)
              | None => None
              end in
  match afind Z.eqb (m_qblocks s) (m_qrec s) with
  | Some p => match rec_off s p (false, key) with
              | Some off => Some (s, block_get s p off)
              | None => scan
              end
  | None => scan
  end.

(** memdb/db.go:179-256 [Get]; [fuel] bounds the calls to itself. *)
Fixpoint mem_get_n (fuel : nat) (c : mcfg) (s : mdb) (key : N) : mdb * gres :=
  match fuel with
  | O => (s, GLoop)
  | S fuel =>
      if m_closed s then (s, GClosed)
      else
      let planned := match qrecs c s key with [] => seek c s key | _ => Some s end in
      match planned with
      | None => (s, GNotExist)
      | Some s =>
          match get_cached c s key with
          | Some r => r
          | None => mem_get_n fuel c
                      (set_query s (m_qrec s) (M_Hash.update (m_qfilters s) (c_bkey c key) []) (m_qblocks s)) key
          end
      end
  end.
Definition mem_get (c : mcfg) (s : mdb) (key : N) : mdb * gres := mem_get_n 2 c s key.

(** memdb/db_internal.go:240-256 [move] *)
Definition move (s : mdb) (t : Z) (key : N) : mdb * mres :=
  match live s (m_cur s) with
  | None => (s, MForbidden)
  | Some p => match block_put s p (true, key) (le 8 (to_unsigned 64 t)) with
              | None => (s, MPanic)
              | Some s' => (s', MOk)
              end
  end.

(** memdb/db.go:340-350: the tombstones left in an empty block.  The offset of
    a record is used as a time. *)
Definition drop_tombs (s : mdb) (p : nat) : mdb :=
  match nth_error (m_blocks s) p with
  | None => s
  | Some b =>
      let s := fold_left (fun s e => match live s (snd e) with
                                     | Some _ => fst (move s (snd e) (snd (fst e)))
                                     | None => s
                                     end) (mb_recs b) s in
      match nth_error (m_blocks s) p with
      | None => s
      | Some b' => set_block s p (mkMB (mb_count b') (mb_buf b') [] (mb_refs b') (mb_last b'))
      end
  end.

(** memdb/db.go:291-364 [Delete] *)
Definition mem_delete (c : mcfg) (s : mdb) (key : N) : mdb * mres :=
  if m_closed s then (s, MClosed)
  else match newest c s key with
  | None => (s, MNotExist)
  | Some (t, p) =>
      match block_delete s p key with
      | None => (s, MPanic)
      | Some s =>
          let empty := match nth_error (m_blocks s) p with
                       | Some b => mb_count b =? 0
                       | None => false
                       end in
          let s := if empty then drop_tombs s p else s in
          if (empty && (t <? m_cur s))%bool
          then match releaseLog s t with
               | Some s' => (s', MOk)
               | None => (s, MNotExist)
               end
          else move s t key
      end
  end.

(** memdb/db.go:421-423 [Free] *)
Definition mem_free (s : mdb) (t : Z) : mdb * mres :=
  match releaseLog s t with Some s' => (s', MOk) | None => (s, MNotExist) end.

(** memdb/db.go:426-438 [Size] *)
Definition mem_size (s : mdb) : Z :=
  fold_right (fun e a => match nth_error (m_blocks s) (snd e) with
                         | Some b => mb_count b + a
                         | None => a
                         end) 0 (m_live s).

Definition trunc (ns d : Z) : Z := ns - ns mod d.

(** memdb/tiny_log.go:122-128 [newTinyLog]; [now] in nanoseconds. *)
Definition newTinyLog (c : mcfg) (s : mdb) (now : Z) (pick : option nat) : mdb :=
  let t := trunc now (c_dur c) in
  let s := mark_add (addTimeBlock s t pick) t in
  set_log s t now (m_queue s).

(** memdb/tiny_log.go:235-238: the current log is queued and a new one begun. *)
Definition mem_tick (c : mcfg) (s : mdb) (now : Z) (pick : option nat) : mdb :=
  newTinyLog c (set_log s (m_cur s) (m_curid s) (m_queue s ++ [(m_curid s, m_cur s)])) now pick.

(** memdb/db_internal.go:259-297 [tinyWrite] of the log [id] for block [t]. *)
Definition tinyWrite (s : mdb) (id t : Z) : mdb :=
  match live s t with
  | None => s
  | Some p =>
      match nth_error (m_blocks s) p with
      | None => s
      | Some b =>
          match nth_error (m_bufs s) (mb_buf b) with
          | None => s
          | Some d =>
              let log := skipn (Z.to_nat (mb_last b)) d in
              match log with
              | [] => s
              | _ =>
                  let s := set_wal s (writeLog (m_wal s) (lw_append newWriter log) id) in
                  set_block s p (mkMB (mb_count b) (mb_buf b) (mb_recs b) (mb_refs b ++ [id])
                                      (Z.of_nat (length d)))
              end
          end
      end
  end.

(** memdb/db_internal.go:300-312 [tinyCommit] of the oldest queued log. *)
Definition mem_commit (s : mdb) : mdb :=
  match m_queue s with
  | [] => s
  | (id, t) :: q => mark_release (tinyWrite (set_log s (m_cur s) (m_curid s) q) id t) t
  end.
(** memdb/tiny_log.go:258-263: a log that finds the queue full is dropped. *)
Definition mem_drop (s : mdb) : mdb :=
  match m_queue s with
  | [] => s
  | _ :: q => set_log s (m_cur s) (m_curid s) q
  end.

(** memdb/batch.go:39-43: a batch has its own block, named by the time in
    nanoseconds. *)
Definition batch_new (s : mdb) (now : Z) (pick : option nat) : mdb := addTimeBlock s now pick.
(** memdb/batch.go:46-51 [batch] on a store that may be closed: the map of time
    blocks is then nil (memdb/db.go:115-119), and [None] is the panic of
    assigning to it (memdb/db_internal.go:132-141). *)
Definition mem_newbatch (s : mdb) (now : Z) (pick : option nat) : option mdb :=
  if m_closed s then None else Some (batch_new s now pick).
(** memdb/batch.go:59-80 [Put] *)
Definition batch_put (c : mcfg) (s : mdb) (t : Z) (key : N) (data : bytes) : mdb * mres :=
  put_in c s t key data.
(** memdb/batch.go:83-93 [Write]: written to the log, then a new block. *)
Definition batch_write (s : mdb) (t now : Z) (pick : option nat) : mdb :=
  addTimeBlock (tinyWrite s t t) now pick.
(** memdb/batch.go:109-112: the end of [Commit], for the blocks written. *)
Definition batch_commit (s : mdb) (group : list Z) : mdb :=
  fold_left (fun s t => mark_release (mark_add s t) t) group s.
(** memdb/batch.go:120-130 [Abort] *)
Fixpoint batch_abort (s : mdb) (group : list Z) : mdb :=
  match group with
  | [] => s
  | t :: r => match releaseLog s t with None => s | Some s' => batch_abort s' r end
  end.

(** memdb/db_internal.go:84-102: closing commits the queued logs and the
    current one. *)
Fixpoint commit_n (n : nat) (s : mdb) : mdb :=
  match n with O => s | S n' => commit_n n' (mem_commit s) end.
Definition mem_close (s : mdb) : mdb :=
  let s := set_log s (m_cur s) (m_curid s) (m_queue s ++ [(m_curid s, m_cur s)]) in
  let s := commit_n (length (m_queue s)) s in
  mkMDB (m_blocks s) (m_bufs s) (m_pool s) [] (m_filters s) (m_qrec s) (m_qfilters s)
        (m_qblocks s) (m_cur s) (m_curid s) (m_queue s) (m_marks s) (m_released s) (m_wal s) true.

(** memdb/recovery.go:105-123: the records of one log; [None] is a panic. *)
Fixpoint parse_log (fuel : nat) (d : bytes) : option (list (ikey * bytes)) :=
  match fuel with
  | O => None
  | S fuel =>
      match d with
      | [] => Some []
      | _ =>
          let n := N.to_nat (unle (firstn 4 d)) in
          if (Nat.ltb (length d) 4 || Nat.ltb (length d) n || Nat.ltb n 13)%bool then None
          else match parse_log fuel (skipn n d) with
               | None => None
               | Some r => Some (((N.eqb (nth 4 d 0%N) 1, unle (slice d 5 8)), slice d 13 (n - 13)) :: r)
               end
      end
  end.

(** memdb/recovery.go:91-123: the entries to put, and per time the keys to
    delete; [None] is a panic on a short value. *)
Fixpoint split_log (l : list (ikey * bytes)) (log : list (N * bytes)) (dels : list (Z * list N))
  : option (list (N * bytes) * list (Z * list N)) :=
  match l with
  | [] => Some (log, dels)
  | ((true, k), v) :: r =>
      if Nat.ltb (length v) 8 then None
      else let t := to_signed 64 (unle (firstn 8 v)) in
           let old := match afind Z.eqb dels t with Some ks => ks | None => [] end in
           split_log r log (aset Z.eqb dels t (old ++ [k]))
  | ((false, k), v) :: r => split_log r (aset N.eqb log k v) dels
  end.

(** memdb/recovery.go:124-151: the entries of one log go to block [t]. *)
Definition recover_put (c : mcfg) (s : mdb) (t id : Z) (log : list (N * bytes)) : option mdb :=
  let s := addTimeBlock (mark_add s t) t None in
  match live s t with
  | None => None
  | Some p =>
      let s := fold_left (fun s e => match s with
                                     | None => None
                                     | Some s => match block_put s p (false, fst e) (snd e) with
                                                 | None => None
                                                 | Some s' => Some (addTimeFilter c s' t (fst e))
                                                 end
                                     end) log (Some s) in
      match s with
      | None => None
      | Some s => match nth_error (m_blocks s) p with
                  | None => None
                  | Some b => Some (mark_release
                                (set_block s p (mkMB (mb_count b) (mb_buf b) (mb_recs b) (mb_refs b ++ [id])
                                                     (mb_last b))) t)
                  end
      end
  end.

(** memdb/recovery.go:96-152: all records of one log; the entries pile up. *)
Fixpoint recover_log (c : mcfg) (s : mdb) (t id : Z) (rs : list bytes) (log : list (N * bytes))
         (dels : list (Z * list N)) : option (mdb * list (Z * list N)) :=
  match rs with
  | [] => Some (s, dels)
  | r :: rs =>
      match parse_log (S (length r)) r with
      | None => None
      | Some es => match split_log es log dels with
                   | None => None
                   | Some (log, dels) => match recover_put c s t id log with
                                         | None => None
                                         | Some s => recover_log c s t id rs log dels
                                         end
                   end
      end
  end.
(** memdb/recovery.go:92-154: logs in the order of the directory, until an
    error, which is dropped. *)
Fixpoint recover_logs (c : mcfg) (s : mdb) (l : list (Z * (list bytes * endstate))) (dels : list (Z * list N))
  : option (mdb * list (Z * list N)) :=
  match l with
  | [] => Some (s, dels)
  | (id, (rs, e)) :: l =>
      match recover_log c s (trunc id (c_logint c)) id rs [] dels with
      | None => None
      | Some (s, dels) => match e with
                          | EndOk => recover_logs c s l dels
                          | EndErr => Some (s, dels)
                          | EndPanic => None
                          end
      end
  end.

(** memdb/recovery.go:62-73, 167-175: a record is forgotten; an empty block
    leaves the map. *)
Definition forget (s : mdb) (t : Z) (p : nat) (key : N) : mdb :=
  match nth_error (m_blocks s) p with
  | None => s
  | Some b =>
      let b' := mkMB (mb_count b - 1) (mb_buf b) (adel ik_eqb (mb_recs b) (false, key)) (mb_refs b) (mb_last b) in
      let s := set_block s p b' in
      match mb_recs b' with
      | [] => set_live (set_buf s (mb_buf b) []) (adel Z.eqb (m_live s) t) (mb_buf b :: m_pool s)
      | _ => s
      end
  end.
(** memdb/recovery.go:156-182: the deletes. *)
Definition recover_dels (c : mcfg) (s : mdb) (d : Z * list N) : mdb :=
  match live s (fst d) with
  | Some p => fold_left (fun s k => match rec_off s p (false, k) with
                                    | None => s
                                    | Some _ => forget s (fst d) p k
                                    end) (snd d) s
  | None => fold_left (fun s k => match newest c s k with
                                  | None => s
                                  | Some (t, p) => forget s t p k
                                  end) (snd d) s
  end.

(** memdb/db.go:48-107 [Open] of a log directory.  [gens] are the filters made
    with random keys, [now] the time. *)
Definition mem_empty (gens : list bloom) (d : dir) : mdb :=
  mkMDB [] [] [] [] (map (fun g => mkTF [] g) gens) 0 (map (fun _ => []) gens) [] 0 0 [] [] [] d false.
Definition mem_open (c : mcfg) (gens : list bloom) (d : dir) (now : Z) : option mdb :=
  match recover_logs c (mem_empty gens d) (replay d) [] with
  | None => None
  | Some (s, dels) => Some (newTinyLog c (fold_left (recover_dels c) dels s) now None)
  end.
