(* The maps that the calls of memdb and of the database read and write, between the
   lock operations of M_Locks.  Go maps must not be written while another goroutine
   reads or writes them: the runtime ends the process then ("fatal error: concurrent
   map read and map write"), which cannot be recovered from.

   Each call is the list of its lock operations, as in M_Locks, with the uses of the
   maps at their places; [erase] (below) gives back the list of M_Locks.  Arguments
   are those of M_Locks.

   Goroutines wait for locks as in M_Locks.

   Simplified: the children of all nodes of the trie are taken for one map, and so are
   the time records of all filters of the query manager; where the code writes a map or
   not depending on its contents, it writes.  Not modelled: maps of one goroutine
   (those of the writers of Sync and of a recovery), of the metrics, of the server;
   the closing of memdb, after which its calls fail. *)

From Coq Require Import List Arith Bool.
Import ListNotations.
From Verif Require Import M_Locks.

Inductive gmap : Type :=
| TB                (* memdb: timeBlocks, /repo/memdb/db.go:43 *)
| TF                (* memdb: timeFilters, db.go:44 *)
| TR (f : nat)      (* memdb: timeFilters[f].timeRecords, block.go:31 *)
| BR (b : nat)      (* memdb: records of a block, block.go:52 *)
| QF                (* memdb: queryManager.timeFilters, query.go:21 *)
| QR                (* memdb: queryManager.timeFilters[.].timeRecords *)
| QB                (* memdb: queryManager.timeBlocks, query.go:22 *)
| MK                (* memdb: records and releasedRecords of timeMark, time_mark.go:32-33 *)
| SM                (* summary of the trie, /repo/trie.go:79 *)
| CH                (* children of the nodes of the trie, trie.go:62 *)
| WE (k : nat)      (* windowBlocks.window[k].entries, time_window.go:129 *)
| EX (k : nat)      (* expiryWindows.expiry[k].windows, expiry_window.go:36 *)
| FM                (* fileMap, file.go:104 *)
| FC (k : nat).     (* freeList.blocks[k].cache, leasing.go:51 *)

Definition gmap_eq_dec (a b : gmap) : {a = b} + {a <> b}.
Proof. decide equality; apply Nat.eq_dec. Defined.

(* A lock operation, or the use of a map: a read, or a write. *)
Inductive mact : Type :=
| L (a : act)
| Rd (m : gmap)
| Wr (m : gmap).

Fixpoint erase (p : list mact) : list act :=
  match p with
  | [] => []
  | L a :: r => a :: erase r
  | _ :: r => erase r
  end.

(* ---- goroutines ---- *)

Record gthread : Type := Gt { gt_prog : list mact; gt_held : list (lock * mode); gt_ann : bool }.

Definition gstart (p : list mact) : gthread := Gt p [] false.

Definition gholds (l : lock) (m : mode) (t : gthread) : bool :=
  existsb (fun h => if item_eq_dec h (l, m) then true else false) (gt_held t).

(* As [announced] of M_Locks. *)
Definition gannounced (l : lock) (t : gthread) : bool :=
  gt_ann t && match gt_prog t with
              | L (Acq l' W) :: _ => if lock_eq_dec l' l then true else false
              | _ => false
              end.

(* As [thread_step] of M_Locks; the use of a map waits for nothing. *)
Definition gthread_step (ts : list gthread) (t : gthread) : option gthread :=
  match gt_prog t with
  | [] => None
  | L (Rel l m) :: p => Some (Gt p (drop_one (l, m) (gt_held t)) false)
  | L (Acq l R) :: p =>
      if existsb (gholds l W) ts || existsb (gannounced l) ts then None
      else Some (Gt p ((l, R) :: gt_held t) false)
  | L (Acq l W) :: p =>
      if gt_ann t then
        if existsb (gholds l W) ts || existsb (gholds l R) ts then None
        else Some (Gt p ((l, W) :: gt_held t) false)
      else
        if existsb (gholds l W) ts || existsb (gannounced l) ts then None
        else Some (Gt (L (Acq l W) :: p) (gt_held t) true)
  | _ :: p => Some (Gt p (gt_held t) false)
  end.

Definition gstep (ts : list gthread) (i : nat) : option (list gthread) :=
  match nth_error ts i with
  | None => None
  | Some t => match gthread_step ts t with
              | None => None
              | Some t' => Some (set_nth i t' ts)
              end
  end.

Fixpoint grun (ts : list gthread) (is : list nat) : option (list gthread) :=
  match is with
  | [] => Some ts
  | i :: r => match gstep ts i with Some ts' => grun ts' r | None => None end
  end.

(* ---- the calls of memdb ---- *)

Definition gbr (l : lock) (m : mode) (p : list mact) : list mact := L (Acq l m) :: p ++ [L (Rel l m)].

(* Operations without any map. *)
Definition plain (p : list act) : list mact := map L p.

(* /repo/memdb/db_internal.go:153-173 *)
Definition g_add_filter (f : nat) (fresh : bool) : list mact :=
  gbr Db R [Rd TF]
  ++ gbr (Filter f) W (Rd (TR f) :: (if fresh then gbr Db W (gbr (Bloom f) R [] ++ [Wr (TR f)]) else [])
                       ++ gbr (Bloom f) W []).

(* /repo/memdb/db.go:367-392, block.go:105 *)
Definition g_put (t : nat) (found : option (nat * nat * bool)) : list mact :=
  plain (mem_timeID t) ++ gbr Db R [Rd TB]
  ++ match found with
     | None => []
     | Some (b, f, fresh) => gbr (Block b) W (Wr (BR b) :: g_add_filter f fresh)
     end.

(* /repo/memdb/db.go:145-173 *)
Definition g_lookup (b : option nat) : list mact :=
  gbr Db R [Rd TB] ++ match b with None => [] | Some b => gbr (Block b) R [Rd (BR b)] end.

(* /repo/memdb/db_internal.go:204-233 *)
Fixpoint g_seek_loop (f : nat) (tries : list (option nat * bool)) : list mact :=
  match tries with
  | [] => []
  | (None, _) :: r => gbr Db R [Rd TB] ++ g_seek_loop f r
  | (Some b, true) :: _ => gbr Db R [Rd TB] ++ gbr (Block b) R [Rd (BR b)] ++ Rd QF :: gbr (Bloom f) R [] ++ [Wr QR; Wr QB]
  | (Some b, false) :: r =>
      gbr Db R [Rd TB] ++ gbr (Block b) R [Rd (BR b)] ++ gbr (Filter f) R [Rd (TR f)] ++ g_seek_loop f r
  end.

Definition g_seek (f : nat) (tries : list (option nat * bool)) : list mact :=
  gbr Db R [Rd TF] ++ gbr (Filter f) R [Rd (TR f)] ++ g_seek_loop f tries.

(* /repo/memdb/db.go:178-256 *)
Definition g_get_rest (cur : option (nat * bool)) (blocks : list (nat * bool)) : list mact :=
  let more := gbr Db R [Rd QF] ++ [Rd QR]
              ++ flat_map (fun y : nat * bool => Rd QB :: gbr (Block (fst y)) R [Rd (BR (fst y))]
                                                 ++ if snd y then gbr (Block (fst y)) R [] else [Rd QR]) blocks
              ++ if existsb snd blocks then [] else [Wr QF] in
  Rd QB :: match cur with
           | None => more
           | Some (b, hit) => gbr (Block b) R [Rd (BR b)] ++ if hit then gbr (Block b) R [] else more
           end.

Definition g_get_round (x : option (nat * list (option nat * bool)) * option (nat * bool) * list (nat * bool))
  : list mact :=
  let '(sk, cur, blocks) := x in
  gbr Db R [] ++ Rd QF :: Rd QR ::
  match sk with
  | None => g_get_rest cur blocks
  | Some (f, tries) => g_seek f tries ++ if existsb snd tries then g_get_rest cur blocks else []
  end.

Definition g_get (rounds : list (option (nat * list (option nat * bool)) * option (nat * bool) * list (nat * bool)))
  : list mact := flat_map g_get_round rounds.

(* /repo/memdb/db.go:259-285, recovery.go:187-213, time_mark.go:65-93 *)
Definition g_iterate (t : nat) (blocks : list (option nat * list mact)) : list mact :=
  plain (mem_timeID t) ++ gbr Mark R [Rd MK]
  ++ flat_map (fun x : option nat * list mact => gbr Db R [Rd TB] ++ match fst x with
                                      | None => []
                                      | Some b => gbr (Block b) R [Rd (BR b)] ++ snd x
                                      end) blocks.

(* /repo/memdb/db_internal.go:314-338, time_mark.go:95-100 *)
Definition g_release_log (b : option nat) (refs : nat) : list mact :=
  gbr Db R [Rd TB]
  ++ match b with
     | None => []
     | Some b => gbr (Block b) R (plain (flat_map (fun _ => br Wal R (br Store W [])) (seq 0 refs))
                                  ++ gbr Db W (Wr TB :: gbr Mark W [Wr MK]))
     end.

(* /repo/memdb/db_internal.go:239-256 *)
Definition g_move (t : nat) (b : option nat) : list mact :=
  plain (mem_timeID t) ++ gbr Db R [Rd TB] ++ match b with None => [] | Some b => gbr (Block b) W [Wr (BR b)] end.

(* /repo/memdb/db.go:290-364, block.go:110-124 *)
Definition g_delete (f t : nat) (tries : list (option nat))
    (hit : option (nat * nat * option nat * (nat + option nat))) : list mact :=
  gbr Db R [Rd TF] ++ gbr (Filter f) R [Rd (TR f)]
  ++ flat_map (fun x : option nat => gbr Db R [Rd TB] ++ match x with
                                      | None => []
                                      | Some b => gbr (Block b) R [Rd (BR b)] ++ gbr (Filter f) R [Rd (TR f)]
                                      end) tries
  ++ match hit with
     | None => []
     | Some (tl, b, empty, next) =>
         gbr Db R [Rd TB] ++ gbr (Block b) R [Rd (BR b)] ++ gbr Db R []
         ++ gbr (Time tl) R
              (gbr (Block b) W (Rd (BR b) :: Wr (BR b) ::
                               match empty with
                               | None => []
                               | Some n => flat_map (fun _ => Rd (BR b) :: gbr Db R [Rd TB] ++ [Wr (BR b)]) (seq 0 n)
                                           ++ Rd (BR b) :: plain (mem_timeID t)
                               end)
               ++ match next with
                  | inl refs => g_release_log (Some b) refs
                  | inr nb => g_move t nb
                  end)
     end.

(* /repo/memdb/db_internal.go:258-311, time_mark.go:50-63 *)
Definition g_tiny_write (tl t : nat) (b : option (nat * bool)) : list mact :=
  plain (tiny_id t ++ br Db W [])
  ++ gbr (Time tl) W
       (plain (tiny_id t) ++ gbr Db R [Rd TB]
        ++ match b with
           | None => []
           | Some (b, false) => plain (br (Block b) R [])
           | Some (b, true) => plain (br (Block b) R [] ++ tiny_id t ++ br Wal W (br Store W []) ++ br (Block b) W (tiny_id t))
           end).

Definition g_tiny_commit (tl t : nat) (b : option (nat * bool)) (managed : bool) : list mact :=
  g_tiny_write tl t b ++ if managed then [] else plain (tiny_id t) ++ gbr Mark W [Wr MK].

(* /repo/memdb/tiny_log.go:213-240 and 117-123, db_internal.go:132-141, time_mark.go:41-48 *)
Definition g_tick (t : nat) (full : option (option nat)) (write : bool) : list mact :=
  match full with
  | None => []
  | Some b => plain (mem_timeID t) ++ gbr Db R [Rd TB] ++ match b with None => [] | Some b => plain (br (Block b) R []) end
  end
  ++ if write then gbr Log W (gbr Db W [Wr TB] ++ gbr Mark W [Wr MK]) else [].

(* /repo/memdb/batch.go:39-128 *)
Definition g_batch_new : list mact := gbr Db W [Wr TB].

Definition g_batch_put (t : nat) (found : option (nat * nat * bool)) : list mact :=
  plain (tiny_id t) ++ gbr Db R [Rd TB]
  ++ match found with
     | None => []
     | Some (b, f, fresh) => gbr (Block b) W (Wr (BR b) :: plain (tiny_id t) ++ g_add_filter f fresh)
     end.

Definition g_batch_write (t : nat) : list mact := plain (tiny_id t) ++ g_batch_new.

Definition g_batch_commit (t : nat) (group : nat) : list mact :=
  g_batch_write t ++ flat_map (fun _ => gbr Mark W [Wr MK] ++ gbr Mark W [Wr MK]) (seq 0 group).

Definition g_batch_abort (group : list (option nat * nat)) : list mact :=
  flat_map (fun x : option nat * nat => g_release_log (fst x) (snd x)) group.

(* /repo/memdb/db.go:125-142 and 426-438 *)
Definition g_keys (blocks : list nat) : list mact :=
  gbr Db R (Rd TB :: flat_map (fun b => gbr (Block b) R [Rd (BR b)]) blocks).

Definition g_size (blocks : list nat) : list mact :=
  gbr Db R (Rd TB :: flat_map (fun b => gbr (Block b) R []) blocks).

Definition mem_maps (c : memcall) : list mact :=
  match c with
  | MPut t f => g_put t f
  | MGet rs => g_get rs
  | MLookup b => g_lookup b
  | MDelete f t tries hit => g_delete f t tries hit
  | MIterate t bs => g_iterate t (map (fun b => (b, [])) bs)
  | MFree b refs => g_release_log b refs
  | MTick t full w => g_tick t full w
  | MCommit tl t b managed => g_tiny_commit tl t b managed
  | MBatch => g_batch_new
  | MBatchPut t f => g_batch_put t f
  | MBatchWrite t => g_batch_write t
  | MBatchCommit t g => g_batch_commit t g
  | MBatchAbort g => g_batch_abort g
  | MKeys bs => g_keys bs
  | MSize bs => g_size bs
  end.

(* ---- the calls of the database ---- *)

(* /repo/trie.go:117-152: line 122 looks at the summary without the lock of the trie. *)
Definition g_trie_add (m : nat) (parts : option (list bool)) : list mact :=
  gbr (TrieMu m) W
     (Rd SM :: match parts with
     | None => []
     | Some ps => flat_map (fun fresh : bool => gbr Trie R [Rd CH] ++ if fresh then gbr Trie W [Wr CH] else []) ps
                  ++ gbr Trie W [Wr SM]
     end).

(* /repo/time_window.go:168-186 *)
Definition g_window_add (w : nat) : list mact :=
  plain (br Twb R (br Wbs R [])) ++ gbr (Wb w) W [Rd (WE w); Wr (WE w)].

(* /repo/expiry_window.go:128-148 *)
Definition g_add_expiry (k : nat) : list mact := plain (br ExpS R []) ++ gbr (Exp k) W [Rd (EX k); Wr (EX k)].

(* /repo/db.go:344-387, db_internal.go:268 *)
Definition g_db_put (t : nat) (found : option (nat * nat * bool)) (w : nat)
    (topic : option (nat * option (list bool))) : list mact :=
  gbr Trie R [Rd SM] ++ g_put t found ++ g_window_add w
  ++ match topic with None => [] | Some (m, ps) => g_trie_add m ps end.

(* /repo/time_window.go:219-327, file.go:212-227 *)
Definition g_window_lookup (x : nat * list nat * option (list nat)) : list mact :=
  let '(w, mem, file) := x in
  plain (br Wbs R []) ++ gbr (Wb w) R (Rd (WE w) :: flat_map g_add_expiry mem)
  ++ match file with None => [] | Some es => gbr Files W [Rd FM; Wr FM] ++ flat_map g_add_expiry es end.

(* /repo/db.go:222-310, trie.go:155-186 *)
Definition g_db_get (k : nat) (topics : list (nat * list nat * option (list nat)))
    (entries : list (list (option (nat * list (option nat * bool)) * option (nat * bool) * list (nat * bool))))
  : list mact :=
  gbr (Mu k) R (gbr Trie R [Rd CH] ++ flat_map g_window_lookup topics ++ flat_map g_get entries).

(* /repo/db_internal.go:315-343, leasing.go:160-172 *)
Definition g_db_delete (f t : nat) (tries : list (option nat))
    (hit : option (nat * nat * option nat * (nat + option nat)))
    (disk : option nat) (synced : bool) : list mact :=
  g_delete f t tries hit
  ++ match disk with
     | None => []
     | Some l => gbr Files W [Rd FM; Wr FM] ++ gbr Files W [Rd FM; Wr FM] ++ gbr (Lease l) W [Rd (FC l); Wr (FC l)]
                 ++ if synced then gbr Files R [Rd FM] else []
     end.

(* /repo/db_sync.go:215-297, trie.go:188-211, leasing.go:181-205, time_window.go:203-216 *)
Definition g_sync_block (b : nat) (entries : nat) (leases : list nat) (topics : nat)
    (released : list nat) (refs : nat) : list mact :=
  flat_map (fun _ => g_lookup (Some b) ++ plain (br FBloom W [])) (seq 0 entries)
  ++ flat_map (fun _ => gbr Trie R [Rd SM] ++ gbr Trie W [Rd SM]) (seq 0 topics)
  ++ flat_map (fun l => gbr (Lease l) W [Wr (FC l)]) leases
  ++ gbr Files R [Rd FM]
  ++ flat_map (fun w => plain (br Wbs R []) ++ gbr (Wb w) W [Wr (WE w)]) released
  ++ g_release_log (Some b) refs.

Definition g_sync_blocks (bs : list syncblock) : list (option nat * list mact) :=
  map (fun x => (sb_block x,
                 match sb_block x with
                 | None => []
                 | Some b => g_sync_block b (sb_entries x) (sb_leases x) (sb_topics x)
                                          (sb_released x) (sb_refs x)
                 end)) bs.

(* /repo/db.go:452-471, db_sync.go:50-73, 212-301, time_window.go:188-201 *)
Definition g_db_sync (work : option (nat * nat * list syncblock)) : list mact :=
  gbr Sync W
     match work with
     | None => []
     | Some (t, shards, blocks) =>
         gbr Files W [Rd FM; Wr FM] ++ gbr Files W [Rd FM; Wr FM] ++ gbr Files W [Rd FM; Wr FM]
         ++ flat_map (fun w => gbr (Wb w) R [Rd (WE w)]) (seq 0 shards)
         ++ g_iterate t (g_sync_blocks blocks)
         ++ gbr Files R [Rd FM]
     end.

(* /repo/expiry_window.go:84-125 *)
Fixpoint g_lock_all (from n : nat) : list mact :=
  match n with
  | O => []
  | S n' => gbr (Exp from) W (Rd (EX from) :: Wr (EX from) :: g_lock_all (S from) n')
  end.

(* /repo/db_sync.go:304-329 *)
Definition g_db_expire (shards : nat) (leases : list nat) : list mact :=
  gbr Sync W (g_lock_all 0 shards ++ flat_map (fun l => gbr (Lease l) W [Rd (FC l); Wr (FC l)]) leases).

(* /repo/db_internal.go:39 *)
Definition nShards : nat := 27.

(* /repo/db_internal.go:122-150: defrag (leasing.go:125-158) takes no lock. *)
Definition g_db_close : list mact :=
  L (Acq Sync W) :: map (fun k => Wr (FC k)) (seq 0 nShards) ++ gbr Files W [Rd FM].

Definition db_maps (c : dbcall) : list mact :=
  match c with
  | DPut t f w topic => g_db_put t f w topic
  | DGet k ts es => g_db_get k ts es
  | DDelete f t tries hit disk synced => g_db_delete f t tries hit disk synced
  | DSync work => g_db_sync work
  | DExpire n ls => g_db_expire n ls
  | DClose => g_db_close
  | DMem c => mem_maps c
  end.
