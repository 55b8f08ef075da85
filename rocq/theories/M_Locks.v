(* The locks taken by the calls of the in-memory store (memdb) and of the
   database, and the goroutines that contend for them.

   A goroutine is the list of its lock operations, in order; the data they
   protect are not part of this file.  Branches that depend on the data are
   arguments of the lists below (which block, how many time records, whether
   the record is new, ...), so that every path of the code is one of the lists.

   sync.RWMutex is modelled by [step]: any number of readers or one writer; a
   writer first keeps other writers out and announces itself, which also keeps
   out new readers, and then waits for the readers to leave
   (documentation of sync.RWMutex: "a blocked Lock call excludes new readers
   from acquiring the lock").  A sync.Mutex and the one place channel
   syncLockC (/repo/db.go:157, db.go:460-463, db_sync.go:308-311,
   recovery.go:165-168) are locks only ever taken in write mode.

   Not modelled: the locks of the buffer pool and of the metrics (their own
   packages, nothing is called while they are held); the per time filter blocks
   and the filters of the query manager, which are only ever read locked
   (/repo/memdb/db.go:221-225, 243-245); the send of a tiny log to the write
   queue while the log manager is locked (/repo/memdb/tiny_log.go:179-183,
   235-238), because its receiver (tiny_log.go:244-269) takes no lock and never
   waits for one; the waiting of Close for goroutines and of a batch for its
   tiny log, which hold no lock the goroutines need. *)

From Coq Require Import List Arith Bool.
Import ListNotations.

(* The locks: of the database first, then of memdb.
   /repo/db.go:145-158 (mutex, trie, timeWindow, syncLockC, freeList, filter),
   trie.go:60-66 and 100-107, time_window.go:60-80, expiry_window.go:30-55,
   file.go:104-110, leasing.go:40-60;
   memdb: db.go:35-60 (mu, timeFilters), block.go (a block), tiny_log.go:34-35
   and 81 (tiny log, log manager), time_mark.go:30-34, time_lock.go:27-33,
   wal/wal.go:40-60, wal/file.go:33-37, filter/bloom.go:20-30. *)
Inductive lock : Type :=
| Sync                     (* db.internal.syncLockC *)
| Mu (k : nat)             (* db.internal.mutex, shard k *)
| TrieMu (k : nat)         (* trie.mutex, shard k *)
| Trie                     (* trie *)
| Twb                      (* timeWindowBucket *)
| Wbs                      (* windowBlocks *)
| Wb (k : nat)             (* windowBlocks.window[k].mu *)
| ExpS                     (* expiryWindows *)
| Files                    (* fileSet.mu *)
| Lease (k : nat)          (* freeList.blocks[k] *)
| FBloom                   (* the bloom filter of the database *)
| Time (k : nat)           (* timeLock.locks[k] *)
| Block (k : nat)          (* a time block *)
| Log                      (* logManager.mu *)
| Tiny (k : nat)           (* a tiny log *)
| Filter (k : nat)         (* timeFilters[k] *)
| Wal                      (* wal.mu *)
| Store                    (* the file store of the wal *)
| Db                       (* db.mu of memdb *)
| Mark                     (* timeMark *)
| Bloom (k : nat)          (* timeFilters[k].filter *)
| Exp (k : nat).           (* expiryWindows.expiry[k].mu *)

Definition lock_eq_dec (a b : lock) : {a = b} + {a <> b}.
Proof. decide equality; apply Nat.eq_dec. Defined.

Inductive mode : Type := R | W.

Definition mode_eq_dec (a b : mode) : {a = b} + {a <> b}.
Proof. decide equality. Defined.

(* One lock operation: RLock/Lock and RUnlock/Unlock. *)
Inductive act : Type :=
| Acq (l : lock) (m : mode)
| Rel (l : lock) (m : mode).

Definition item_eq_dec (a b : lock * mode) : {a = b} + {a <> b}.
Proof. decide equality; [apply mode_eq_dec | apply lock_eq_dec]. Defined.

(* ---- goroutines ---- *)

(* What a goroutine has still to do, the locks it holds, and whether it has
   announced itself as the next writer of the lock it is about to take. *)
Record thread : Type := Th { th_prog : list act; th_held : list (lock * mode); th_ann : bool }.

Definition start (p : list act) : thread := Th p [] false.

Definition holds (l : lock) (m : mode) (t : thread) : bool :=
  existsb (fun h => if item_eq_dec h (l, m) then true else false) (th_held t).

(* The writer that keeps other writers and new readers out of lock [l]. *)
Definition announced (l : lock) (t : thread) : bool :=
  th_ann t && match th_prog t with
              | Acq l' W :: _ => if lock_eq_dec l' l then true else false
              | _ => false
              end.

Fixpoint drop_one (x : lock * mode) (h : list (lock * mode)) : list (lock * mode) :=
  match h with
  | [] => []
  | y :: h' => if item_eq_dec y x then h' else y :: drop_one x h'
  end.

(* One step of a goroutine [t] among the goroutines [ts] (all of them, [t]
   included); None: it waits, or has ended. *)
Definition thread_step (ts : list thread) (t : thread) : option thread :=
  match th_prog t with
  | [] => None
  | Rel l m :: p => Some (Th p (drop_one (l, m) (th_held t)) false)
  | Acq l R :: p =>
      if existsb (holds l W) ts || existsb (announced l) ts then None
      else Some (Th p ((l, R) :: th_held t) false)
  | Acq l W :: p =>
      if th_ann t then
        if existsb (holds l W) ts || existsb (holds l R) ts then None
        else Some (Th p ((l, W) :: th_held t) false)
      else
        if existsb (holds l W) ts || existsb (announced l) ts then None
        else Some (Th (Acq l W :: p) (th_held t) true)
  end.

Fixpoint set_nth {A : Type} (i : nat) (x : A) (xs : list A) : list A :=
  match xs, i with
  | [], _ => []
  | _ :: r, O => x :: r
  | y :: r, S j => y :: set_nth j x r
  end.

(* Goroutine number [i] makes a step. *)
Definition step (ts : list thread) (i : nat) : option (list thread) :=
  match nth_error ts i with
  | None => None
  | Some t => match thread_step ts t with
              | None => None
              | Some t' => Some (set_nth i t' ts)
              end
  end.

(* The goroutines named in a schedule make one step each, in that order. *)
Fixpoint run (ts : list thread) (is : list nat) : option (list thread) :=
  match is with
  | [] => Some ts
  | i :: r => match step ts i with Some ts' => run ts' r | None => None end
  end.

(* ---- what the calls of memdb lock ---- *)

(* A lock held around some operations: Lock(); ...; Unlock(), or deferred. *)
Definition br (l : lock) (m : mode) (p : list act) : list act :=
  Acq l m :: p ++ [Rel l m].

(* /repo/memdb/tiny_log.go:43-53: ID and timeID of a tiny log. *)
Definition tiny_id (t : nat) : list act := br (Tiny t) R [].

(* /repo/memdb/tiny_log.go:160-164 and db_internal.go:119-121. *)
Definition mem_timeID (t : nat) : list act := br Log R (tiny_id t).

(* /repo/memdb/db_internal.go:153-173: addTimeFilter; [fresh]: the time is new
   for the filter. *)
Definition add_filter (f : nat) (fresh : bool) : list act :=
  br Db R []
  ++ br (Filter f) W ((if fresh then br Db W (br (Bloom f) R []) else [])
                      ++ br (Bloom f) W []).

(* /repo/memdb/db.go:367-392: Put; None: no block for the current time. *)
Definition mem_put (t : nat) (found : option (nat * nat * bool)) : list act :=
  mem_timeID t ++ br Db R []
  ++ match found with
     | None => []
     | Some (b, f, fresh) => br (Block b) W (add_filter f fresh)
     end.

(* /repo/memdb/db.go:145-173: Lookup. *)
Definition mem_lookup (b : option nat) : list act :=
  br Db R [] ++ match b with None => [] | Some b => br (Block b) R [] end.

(* /repo/memdb/db_internal.go:185-236: seek; the times of the filter [f] tried
   before the loop ends: their block if there still is one, and whether the key
   is in it (then the loop ends). *)
Fixpoint seek_loop (f : nat) (tries : list (option nat * bool)) : list act :=
  match tries with
  | [] => []
  | (None, _) :: r => br Db R [] ++ seek_loop f r
  | (Some b, true) :: _ => br Db R [] ++ br (Block b) R [] ++ br (Bloom f) R []
  | (Some b, false) :: r => br Db R [] ++ br (Block b) R [] ++ br (Filter f) R [] ++ seek_loop f r
  end.

Definition mem_seek (f : nat) (tries : list (option nat * bool)) : list act :=
  br Db R [] ++ br (Filter f) R [] ++ seek_loop f tries.

(* /repo/memdb/db.go:178-256: one round of Get (the last line calls Get again).
   [sk]: seek runs first, and the round ends when it finds nothing; [cur]: the
   block of the current record, and whether the key is in it, which ends the round;
   [blocks]: the blocks of the query manager tried. *)
Definition get_rest (cur : option (nat * bool)) (blocks : list (nat * bool)) : list act :=
  let more := br Db R []
              ++ flat_map (fun y : nat * bool => br (Block (fst y)) R []
                                                 ++ if snd y then br (Block (fst y)) R [] else []) blocks in
  match cur with
  | None => more
  | Some (b, hit) => br (Block b) R [] ++ if hit then br (Block b) R [] else more
  end.

Definition get_round (x : option (nat * list (option nat * bool)) * option (nat * bool) * list (nat * bool))
  : list act :=
  let '(sk, cur, blocks) := x in
  br Db R []
  ++ match sk with
     | None => get_rest cur blocks
     | Some (f, tries) => mem_seek f tries ++ if existsb snd tries then get_rest cur blocks else []
     end.

Definition mem_get (rounds : list (option (nat * list (option nat * bool)) * option (nat * bool) * list (nat * bool)))
  : list act := flat_map get_round rounds.

(* /repo/memdb/db.go:255-285 and recovery.go:187-213: BlockIterator and All with
   the calls made by the callback, [fs], for each block. *)
Definition iterate (t : nat) (blocks : list (option nat * list act)) : list act :=
  mem_timeID t ++ br Mark R []
  ++ flat_map (fun x : option nat * list act => br Db R [] ++ match fst x with
                                      | None => []
                                      | Some b => br (Block b) R [] ++ snd x
                                      end) blocks.

(* /repo/memdb/db_internal.go:313-339 (Free, db.go:421-423): releaseLog of a
   block written in [refs] logs; wal/wal.go:121-134. *)
Definition release_log (b : option nat) (refs : nat) : list act :=
  br Db R []
  ++ match b with
     | None => []
     | Some b => br (Block b) R (flat_map (fun _ => br Wal R (br Store W [])) (seq 0 refs)
                                 ++ br Db W (br Mark W []))
     end.

(* /repo/memdb/db_internal.go:239-256: move. *)
Definition mem_move (t : nat) (b : option nat) : list act :=
  mem_timeID t ++ br Db R [] ++ match b with None => [] | Some b => br (Block b) W [] end.

(* /repo/memdb/db.go:290-364: Delete.  [tries]: the blocks without the key that
   are passed; [hit]: the time lock, the block with the key, and what follows:
   the number of delete records looked at when the block is empty (line 342), and
   either the release of the block or the move.  Line 345 finds no block, because
   the value of a record is an offset in the block and not a time. *)
Definition mem_delete (f t : nat) (tries : list (option nat))
    (hit : option (nat * nat * option nat * (nat + option nat))) : list act :=
  br Db R [] ++ br (Filter f) R []
  ++ flat_map (fun x : option nat => br Db R [] ++ match x with
                                      | None => []
                                      | Some b => br (Block b) R [] ++ br (Filter f) R []
                                      end) tries
  ++ match hit with
     | None => []
     | Some (tl, b, empty, next) =>
         br Db R [] ++ br (Block b) R [] ++ br Db R []
         ++ br (Time tl) R
              (br (Block b) W match empty with
                              | None => []
                              | Some n => flat_map (fun _ => br Db R []) (seq 0 n) ++ mem_timeID t
                              end
               ++ match next with
                  | inl refs => release_log (Some b) refs
                  | inr nb => mem_move t nb
                  end)
     end.

(* /repo/memdb/db_internal.go:258-299: tinyWrite of tiny log [t] under time lock
   [tl]; the block, and whether there is something to write.  The log is written
   by another goroutine for which tinyWrite waits (wal/writer.go:98-127). *)
Definition tiny_write (tl t : nat) (b : option (nat * bool)) : list act :=
  tiny_id t ++ br Db W []
  ++ br (Time tl) W
       (tiny_id t ++ br Db R []
        ++ match b with
           | None => []
           | Some (b, false) => br (Block b) R []
           | Some (b, true) =>
               br (Block b) R [] ++ tiny_id t ++ br Wal W (br Store W [])
               ++ br (Block b) W (tiny_id t)
           end).

(* /repo/memdb/db_internal.go:302-311: tinyCommit. *)
Definition tiny_commit (tl t : nat) (b : option (nat * bool)) (managed : bool) : list act :=
  tiny_write tl t b ++ if managed then [] else tiny_id t ++ br Mark W [].

(* /repo/memdb/tiny_log.go:213-240 and 117-123: a tick of the write loop; [full]:
   the pool is nearly full and the size of the current block is looked up, with
   the block if there is one. *)
Definition tick (t : nat) (full : option (option nat)) (write : bool) : list act :=
  match full with
  | None => []
  | Some b => mem_timeID t ++ br Db R [] ++ match b with None => [] | Some b => br (Block b) R [] end
  end
  ++ if write then br Log W (br Db W [] ++ br Mark W []) else [].

(* /repo/memdb/batch.go:39-43, 57-77, 80-90, 95-115, 118-128: a batch. *)
Definition batch_new : list act := br Db W [].

Definition batch_put (t : nat) (found : option (nat * nat * bool)) : list act :=
  tiny_id t ++ br Db R []
  ++ match found with
     | None => []
     | Some (b, f, fresh) => br (Block b) W (tiny_id t ++ add_filter f fresh)
     end.

Definition batch_write (t : nat) : list act := tiny_id t ++ batch_new.

Definition batch_commit (t : nat) (group : nat) : list act :=
  batch_write t ++ flat_map (fun _ => br Mark W [] ++ br Mark W []) (seq 0 group).

Definition batch_abort (group : list (option nat * nat)) : list act :=
  flat_map (fun x : option nat * nat => release_log (fst x) (snd x)) group.

(* /repo/memdb/db.go:125-142 and 426-438: Keys and Size read lock the blocks
   while they hold the lock of the store. *)
Definition mem_keys (blocks : list nat) : list act :=
  br Db R (flat_map (fun b => br (Block b) R []) blocks).

Definition mem_size (blocks : list nat) : list act :=
  br Db R (flat_map (fun b => br (Block b) R []) blocks).

(* The calls of memdb, and its two loops. *)
Inductive memcall : Type :=
| MPut (t : nat) (found : option (nat * nat * bool))
| MGet (rounds : list (option (nat * list (option nat * bool)) * option (nat * bool) * list (nat * bool)))
| MLookup (b : option nat)
| MDelete (f t : nat) (tries : list (option nat))
    (hit : option (nat * nat * option nat * (nat + option nat)))
| MIterate (t : nat) (blocks : list (option nat))
| MFree (b : option nat) (refs : nat)
| MTick (t : nat) (full : option (option nat)) (write : bool)
| MCommit (tl t : nat) (b : option (nat * bool)) (managed : bool)
| MBatch
| MBatchPut (t : nat) (found : option (nat * nat * bool))
| MBatchWrite (t : nat)
| MBatchCommit (t : nat) (group : nat)
| MBatchAbort (group : list (option nat * nat))
| MKeys (blocks : list nat)
| MSize (blocks : list nat).

Definition mem_locks (c : memcall) : list act :=
  match c with
  | MPut t f => mem_put t f
  | MGet rs => mem_get rs
  | MLookup b => mem_lookup b
  | MDelete f t tries hit => mem_delete f t tries hit
  | MIterate t bs => iterate t (map (fun b => (b, [])) bs)
  | MFree b refs => release_log b refs
  | MTick t full w => tick t full w
  | MCommit tl t b managed => tiny_commit tl t b managed
  | MBatch => batch_new
  | MBatchPut t f => batch_put t f
  | MBatchWrite t => batch_write t
  | MBatchCommit t g => batch_commit t g
  | MBatchAbort g => batch_abort g
  | MKeys bs => mem_keys bs
  | MSize bs => mem_size bs
  end.

(* ---- what the calls of the database lock ---- *)

(* /repo/trie.go:117-152: add; None: the topic is there; else for each part
   whether it is new. *)
Definition trie_add (m : nat) (parts : option (list bool)) : list act :=
  br (TrieMu m) W
     match parts with
     | None => []
     | Some ps => flat_map (fun fresh : bool => br Trie R [] ++ if fresh then br Trie W [] else []) ps
                  ++ br Trie W []
     end.

(* /repo/time_window.go:168-186. *)
Definition window_add (w : nat) : list act :=
  br Twb R (br Wbs R []) ++ br (Wb w) W [].

(* /repo/expiry_window.go:128-148 and 73-77. *)
Definition add_expiry (k : nat) : list act := br ExpS R [] ++ br (Exp k) W [].

(* /repo/db.go:344-387 with setEntry (db_internal.go:256-298). *)
Definition db_put (t : nat) (found : option (nat * nat * bool)) (w : nat)
    (topic : option (nat * option (list bool))) : list act :=
  br Trie R [] ++ mem_put t found ++ window_add w
  ++ match topic with None => [] | Some (m, ps) => trie_add m ps end.

(* /repo/time_window.go:219-327 with 154-159: lookup of one topic; the expired
   entries found in memory and, if the file is read, in the file. *)
Definition window_lookup (x : nat * list nat * option (list nat)) : list act :=
  let '(w, mem, file) := x in
  br Wbs R [] ++ br (Wb w) R (flat_map add_expiry mem)
  ++ match file with None => [] | Some es => br Files W [] ++ flat_map add_expiry es end.

(* /repo/db.go:222-310: Get. *)
Definition db_get (k : nat) (topics : list (nat * list nat * option (list nat)))
    (entries : list (list (option (nat * list (option nat * bool)) * option (nat * bool) * list (nat * bool))))
  : list act :=
  br (Mu k) R (br Trie R [] ++ flat_map window_lookup topics ++ flat_map mem_get entries).

(* /repo/db_internal.go:315-343: Delete (db.go:396-424); [disk]: the filter has
   the key and the entry is deleted from the files; [synced]: syncWrites. *)
Definition db_delete (f t : nat) (tries : list (option nat))
    (hit : option (nat * nat * option nat * (nat + option nat)))
    (disk : option nat) (synced : bool) : list act :=
  mem_delete f t tries hit
  ++ match disk with
     | None => []
     | Some l => br Files W [] ++ br Files W [] ++ br (Lease l) W []
                 ++ if synced then br Files R [] else []
     end.

(* What Sync does for one time block (/repo/db_sync.go:215-297): the entries
   looked up, with the shards of the lease used for them; the topics of the
   entries; the writing of the files with the shards of the lease; the window
   entries released; the block released. *)
Definition sync_block (b : nat) (entries : nat) (leases : list nat) (topics : nat)
    (released : list nat) (refs : nat) : list act :=
  flat_map (fun _ => mem_lookup (Some b) ++ br FBloom W []) (seq 0 entries)
  ++ flat_map (fun _ => br Trie R [] ++ br Trie W []) (seq 0 topics)
  ++ flat_map (fun l => br (Lease l) W []) leases
  ++ br Files R []
  ++ flat_map (fun w => br Wbs R [] ++ br (Wb w) W []) released
  ++ release_log (Some b) refs.

(* /repo/db.go:452-471, db_sync.go:50-73, 212-301: Sync; None: nothing new. *)
Definition db_sync (work : option (nat * nat * list (option nat * list act))) : list act :=
  br Sync W
     match work with
     | None => []
     | Some (t, shards, blocks) =>
         br Files W [] ++ br Files W [] ++ br Files W []
         ++ flat_map (fun w => br (Wb w) R []) (seq 0 shards)
         ++ iterate t blocks
         ++ br Files R []
     end.

(* /repo/expiry_window.go:84-125: the shards are locked one after the other and
   all unlocked when getExpiredEntries returns. *)
Fixpoint lock_all (from n : nat) : list act :=
  match n with
  | O => []
  | S n' => br (Exp from) W (lock_all (S from) n')
  end.

(* /repo/db_sync.go:304-329: expireEntries. *)
Definition db_expire (shards : nat) (leases : list nat) : list act :=
  br Sync W (lock_all 0 shards ++ flat_map (fun l => br (Lease l) W []) leases).

(* /repo/db_internal.go:122-150 and db.go:213-219: Close takes the lock of Sync
   and never gives it back. *)
Definition db_close : list act := Acq Sync W :: br Files W [].

(* The blocks of a Sync: their number and what is done for each. *)
Record syncblock : Type := SB {
  sb_block : option nat; sb_entries : nat; sb_leases : list nat; sb_topics : nat;
  sb_released : list nat; sb_refs : nat
}.

Definition sync_blocks (bs : list syncblock) : list (option nat * list act) :=
  map (fun x => (sb_block x,
                 match sb_block x with
                 | None => []
                 | Some b => sync_block b (sb_entries x) (sb_leases x) (sb_topics x)
                                        (sb_released x) (sb_refs x)
                 end)) bs.

Inductive dbcall : Type :=
| DPut (t : nat) (found : option (nat * nat * bool)) (w : nat)
    (topic : option (nat * option (list bool)))
| DGet (k : nat) (topics : list (nat * list nat * option (list nat)))
    (entries : list (list (option (nat * list (option nat * bool)) * option (nat * bool) * list (nat * bool))))
| DDelete (f t : nat) (tries : list (option nat))
    (hit : option (nat * nat * option nat * (nat + option nat)))
    (disk : option nat) (synced : bool)
| DSync (work : option (nat * nat * list syncblock))
| DExpire (shards : nat) (leases : list nat)
| DClose
| DMem (c : memcall).      (* the loops of memdb, and the calls made by a batch *)

Definition db_locks (c : dbcall) : list act :=
  match c with
  | DPut t f w topic => db_put t f w topic
  | DGet k ts es => db_get k ts es
  | DDelete f t tries hit disk synced => db_delete f t tries hit disk synced
  | DSync None => db_sync None
  | DSync (Some (t, n, bs)) => db_sync (Some (t, n, sync_blocks bs))
  | DExpire n ls => db_expire n ls
  | DClose => db_close
  | DMem c => mem_locks c
  end.
