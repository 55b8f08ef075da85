(** Model of the database: db.go, db_internal.go, db_sync.go, batch.go and
    recovery.go over the models of their parts.  One caller at a time: locks,
    wait groups and background tasks are left out, and what the background
    tasks do is an operation of its own.  Metrics are left out.  The clock is
    read once per operation, in nanoseconds. *)
From Verif Require Import M_Bytes M_Bloom M_File M_DBInfo M_Entry M_MsgId M_Mac M_Topic M_Trie M_Query
  M_IndexBlock M_Lease M_BlockStore M_WinBlock M_Wal M_MemDB M_Window M_Get.
Open Scope Z_scope.

(** What lies outside: snappy, the cipher, time.ParseDuration, the consistent
    hash; and the options (options.go). *)
Record dcfg := mkDC {
  c_mem : mcfg;
  c_snap : bytes -> bytes;
  c_unsnap : bytes -> option bytes;
  c_mac : mac;
  c_pd : duration;
  c_find : N -> nat;
  c_min : Z;            (* freeBlockSize *)
  c_def : Z;            (* defaultQueryLimit *)
  c_max : Z             (* maxQueryLimit *)
}.

(** db.go:36-47, db_internal.go:68-106, with the contents of the files.  The
    log directory is in [d_mem].  [d_last] is syncHandle.syncInfo.lastSyncSeq;
    upperSeq and count are 0 between syncs (db_sync.go:91-105). *)
Record db := mkDB {
  d_mem : mdb;
  d_tw : twmap;
  d_trie : trie;
  d_info : bytes;
  d_win : bytes;
  d_index : bytes;
  d_data : bytes;
  d_lfile : bytes;
  d_lease : lease;
  d_seq : N;
  d_count : N;
  d_enc : N;
  d_last : N;
  d_immut : bool;
  d_closed : bool
}.

Definition set_mem (s : db) (m : mdb) : db :=
  mkDB m (d_tw s) (d_trie s) (d_info s) (d_win s) (d_index s) (d_data s) (d_lfile s) (d_lease s)
       (d_seq s) (d_count s) (d_enc s) (d_last s) (d_immut s) (d_closed s).
Definition set_tw (s : db) (t : twmap) : db :=
  mkDB (d_mem s) t (d_trie s) (d_info s) (d_win s) (d_index s) (d_data s) (d_lfile s) (d_lease s)
       (d_seq s) (d_count s) (d_enc s) (d_last s) (d_immut s) (d_closed s).
Definition set_trie (s : db) (t : trie) : db :=
  mkDB (d_mem s) (d_tw s) t (d_info s) (d_win s) (d_index s) (d_data s) (d_lfile s) (d_lease s)
       (d_seq s) (d_count s) (d_enc s) (d_last s) (d_immut s) (d_closed s).
Definition set_seq (s : db) (n : N) : db :=
  mkDB (d_mem s) (d_tw s) (d_trie s) (d_info s) (d_win s) (d_index s) (d_data s) (d_lfile s) (d_lease s)
       n (d_count s) (d_enc s) (d_last s) (d_immut s) (d_closed s).
Definition set_free (s : db) (l : lease) (count : N) : db :=
  mkDB (d_mem s) (d_tw s) (d_trie s) (d_info s) (d_win s) (d_index s) (d_data s) (d_lfile s) l
       (d_seq s) count (d_enc s) (d_last s) (d_immut s) (d_closed s).
(** The files and counters a sync writes. *)
Definition set_files (s : db) (info win index data : bytes) (l : lease) (count last : N) : db :=
  mkDB (d_mem s) (d_tw s) (d_trie s) info win index data (d_lfile s) l
       (d_seq s) count (d_enc s) last (d_immut s) (d_closed s).

Inductive derr := XClosed | XTopicEmpty | XTopicTooLarge | XValueEmpty | XValueTooLarge | XBadRequest
                | XImmutable | XMsgIDEmpty | XForbidden | XIO.
Inductive dres := DOk | DErr (e : derr) | DPanic.

(** entry.go:42-51 [Entry].  [u_hash] is the topic hash once parsed, [u_tsize]
    the field entry.topicSize, which a put that fails leaves as it is. *)
Record uentry := mkUE {
  u_id : option bytes;
  u_topic : bytes;
  u_payload : bytes;
  u_expires : N;
  u_contract : N;
  u_encrypt : bool;
  u_hash : option N;
  u_tsize : N
}.
(** entry.go:54-59 [NewEntry] *)
Definition newEntry (topic payload : bytes) : uentry := mkUE None topic payload 0 0 false None 0.
(** entry.go:97-103 [reset] *)
Definition ue_reset (e : uentry) : uentry :=
  mkUE None (u_topic e) [] (u_expires e) (u_contract e) (u_encrypt e) (u_hash e) 0.

(** db_internal.go:57-60 *)
Definition maxTopicLength : N := 65536.
Definition maxValueLength : N := 1073741824.

(** db_internal.go:358-374; uint64. *)
Definition next_seq (s : db) : db := set_seq s (u64 (d_seq s + 1)).
Definition count_sub (n d : N) : N := u64 (n + 2 ^ 64 - d).

Inductive setres := SOk (s : db) (e : uentry) (x : entry) (cache : bytes) | SErr (e : uentry) (r : derr) | SPanic.

(** db_internal.go:253-313 [setEntry], parseTopic inlined.  A topic of type
    invalid does not occur (M_Topic).  An id shorter than 16 bytes makes
    Sequence panic.  The copy of the value (line 311) overwrites what a topic
    longer than its size left behind. *)
Definition set_entry (c : dcfg) (s : db) (now : Z) (e : uentry) : setres :=
  let contract := if (u_contract e =? 0)%N then MasterContract else u_contract e in
  let t := parse_topic contract (u_topic e) in
  let ft := add_contract contract t in
  let '(e, raw) :=
    match u_hash e with
    | Some _ => (e, [])
    | None =>
        let h := get_hash contract ft in
        let raw := match getOffset (d_trie s) h with
                   | Some _ => []
                   | None => topic_marshal (t_parts ft) (t_depth ft)
                   end in
        (mkUE (u_id e) (u_topic e) (u_payload e) (entry_expiry (c_pd c) now (u_expires e) (t_options t))
              contract (u_encrypt e) (Some h)
              (match raw with [] => u_tsize e | _ => u16 (N.of_nat (length raw)) end), raw)
    end in
  match u_hash e with
  | None => SPanic                      (* not reached: set above *)
  | Some h =>
      let named := match u_id e with
                   | Some id => if Nat.ltb (length id) 16 then None else Some (s, id, id_sequence id)
                   | None => let s := next_seq s in Some (s, newID (unix now) (d_seq s), d_seq s)
                   end in
      match named with
      | None => SPanic
      | Some (s, id, seq) =>
          if (seq =? 0)%N then SPanic
          else
          let val := c_snap c (u_payload e) in
          let crypt := ((d_enc s =? 1)%N || u_encrypt e)%bool in
          match (if crypt then mac_encrypt (c_mac c) val else Some val) with
          | None => SPanic
          | Some val =>
              let x := mkEntry seq (u_tsize e) (u32 (N.of_nat (length val))) (u_expires e) h in
              let id := id_setContract id (u_contract e) in
              SOk s e x (entry_marshal x ++ id_prefix id ++ [if crypt then 1%N else 0%N]
                         ++ firstn (N.to_nat (u_tsize e)) (raw ++ repeat 0%N (N.to_nat (u_tsize e))) ++ val)
          end
      end
  end.

(** db.go:351-360, batch.go:72-81 *)
Definition check_put (e : uentry) : option derr :=
  if Nat.eqb (length (u_topic e)) 0 then Some XTopicEmpty
  else if (maxTopicLength <? N.of_nat (length (u_topic e)))%N then Some XTopicTooLarge
  else if Nat.eqb (length (u_payload e)) 0 then Some XValueEmpty
  else if (maxValueLength <? N.of_nat (length (u_payload e)))%N then Some XValueTooLarge
  else None.

(** db.go:375-379, batch.go:212-213, block_reader.go:94: the bytes of the topic.
    The end of the slice is a uint16; when it wraps the slice panics. *)
Definition topic_bytes (data : bytes) (from : nat) (size : N) : option bytes :=
  if (2 ^ 16 <=? N.of_nat from + size)%N then None else Some (slice data from (N.to_nat size)).
(** db.go:374-379, batch.go:207-217: a new topic goes into the tree. *)
Definition add_topic (t : trie) (x : entry) (data : bytes) (from : nat) : option trie :=
  if (e_topicSize x =? 0)%N then Some t
  else match topic_bytes data from (e_topicSize x) with
       | None => None
       | Some raw => match topic_unmarshal raw with
                     | None => None
                     | Some (ps, depth) => Some (fst (trie_add t (e_topicHash x, 0) ps depth))
                     end
       end.

(** db.go:346-387 [PutEntry] *)
Definition put_entry (c : dcfg) (s : db) (now : Z) (e : uentry) : db * uentry * dres :=
  if d_closed s then (s, e, DErr XClosed)
  else match check_put e with
  | Some r => (s, e, DErr r)
  | None =>
      match set_entry c s now e with
      | SErr e r => (s, e, DErr r)
      | SPanic => (s, e, DPanic)
      | SOk s e x cache =>
          let t := m_cur (d_mem s) in
          match mem_put (c_mem c) (d_mem s) (e_seq x) cache with
          | (m, MOk) =>
              let s := set_mem s m in
              let s := set_tw s (tw_add (d_tw s) t (e_topicHash x) (mkWE (e_seq x) (e_expiresAt x))) in
              match add_topic (d_trie s) x cache (entrySize + idSize) with
              | None => (s, e, DPanic)
              | Some tr => (set_trie s tr, ue_reset e, DOk)
              end
          | (m, MClosed) => (set_mem s m, e, DErr XClosed)
          | (m, MPanic) => (set_mem s m, e, DPanic)
          | (m, _) => (set_mem s m, e, DErr XForbidden)
          end
      end
  end.

(** db.go:333-336 [NewID] *)
Definition db_new_id (s : db) (now : Z) : db * bytes :=
  let s := next_seq s in (s, newID (unix now) (d_seq s)).

(** db_internal.go:316-343 [delete].  The filter file is written by no one, so
    Filter.Test answers true (filter.go:38-45, 66-69).  syncWrites is never
    set. *)
Definition db_delete (c : dcfg) (s : db) (seq : N) : db * dres :=
  if d_immut s then (s, DOk)
  else
  match mem_delete (c_mem c) (d_mem s) seq with
  | (m, MPanic) => (set_mem s m, DPanic)
  | (m, _) =>
      let s := set_mem s m in
      match newBlockWriter (d_index s) (d_data s) (d_lease s) with
      | None => (s, DErr XIO)
      | Some w =>
          match bw_del w seq with
          | None => (s, DErr XIO)
          | Some (_, e) =>
              match freeBlock (d_lease s) (x_msgOffset e) (mSize e) with
              | None => (s, DPanic)
              | Some l => (set_free s l (count_sub (d_count s) 1), DOk)
              end
          end
      end
  end.

(** db.go:399-425 [DeleteEntry] *)
Definition delete_entry (c : dcfg) (s : db) (e : uentry) : db * dres :=
  let id := match u_id e with Some id => id | None => [] end in
  if d_immut s then (s, DErr XImmutable)
  else if Nat.eqb (length id) 0 then (s, DErr XMsgIDEmpty)
  else if Nat.eqb (length (u_topic e)) 0 then (s, DErr XTopicEmpty)
  else if (maxTopicLength <? N.of_nat (length (u_topic e)))%N then (s, DErr XTopicTooLarge)
  else if Nat.ltb (length id) 16 then (s, DPanic)
  else db_delete c s (id_sequence id).

(** * Get *)

(** query.go:28-46 [Query]; [q_win] are the entries left by earlier calls. *)
Record query := mkQ { q_topic : bytes; q_contract : N; q_limit : Z; q_cutoff : Z; q_win : list N }.
Definition newQuery (topic : bytes) : query := mkQ topic 0 0 0 [].

(** What Go leaves open in one call: the order in which topics with equal
    offsets are sorted, the order of the walk over the entries in memory, and
    the capacity of the slice. *)
Record gchoice := mkGC {
  g_topics : list ttopic -> list ttopic;
  g_walk : list (list wentry) -> list (list wentry);
  g_cap : list N -> Z
}.

(** db_internal.go:217-234 [lookup]; [None] is a panic. *)
Fixpoint lookup_topics (s : db) (now : Z) (g : gchoice) (L cutoff : Z) (tops : list ttopic) (acc : list N)
  : option (list N) :=
  match tops with
  | [] => Some acc
  | (h, off) :: r =>
      if L <? Z.of_nat (length acc) then Some acc
      else match tw_lookup now (g_walk g (tw_lists (d_tw s) h)) (d_win s) h off cutoff
                           (L - Z.of_nat (length acc)) with
           | None => None
           | Some es => lookup_topics s now g L cutoff r (acc ++ map w_seq es)
           end
  end.

(** block_reader.go:81-84: the message of an entry held in memory. *)
Definition cache_message (topicSize : N) (cache : bytes) : option (bytes * bytes) :=
  let n := N.to_nat (u16 (topicSize + N.of_nat idSize)) in
  if (Nat.ltb (length cache) idSize || Nat.ltb (length cache) n)%bool then None
  else Some (firstn idSize cache, skipn n cache).

(** db.go:278-300: from the id and value of a message to its payload. *)
Definition decode (c : dcfg) (contract : N) (cutoff : Z) (id val : bytes) : outcome :=
  if negb (evalPrefix id contract cutoff) then OSkip
  else match (if (nth 8 id 0 =? 1)%N then fst (mac_decrypt (c_mac c) val) else Some val) with
       | None => OErr
       | Some v => match c_unsnap c v with None => OErr | Some p => OItem p end
       end.

(** db.go:259-300 and db_internal.go:196-212 [readEntry].  A record in memory
    shorter than an entry does not occur: slicing it is a panic here.  The
    bytes handed out by the buffer pool are taken to be a copy. *)
Definition read_one (c : dcfg) (contract : N) (cutoff : Z) (s : db) (seq : N) : db * outcome :=
  match mem_get (c_mem c) (d_mem s) seq with
  | (m, GPanic) | (m, GLoop) => (set_mem s m, OPanic)
  | (m, GOk d) =>
      let s := set_mem s m in
      match entry_unmarshal d with
      | None => (s, OPanic)
      | Some x => match cache_message (e_topicSize x) (skipn entrySize d) with
                  | None => (s, OPanic)
                  | Some (id, val) => (s, decode c contract cutoff id val)
                  end
      end
  | (m, _) =>
      let s := set_mem s m in
      match readEntry (d_index s) seq with
      | None | Some RInvalid => (s, OErr)
      | Some RDeleted => (s, OSkip)
      | Some (RFound e) => match readMessage (d_data s) e with
                           | None => (s, OErr)
                           | Some (id, val) => (s, decode c contract cutoff id val)
                           end
      end
  end.

Inductive qres := QItems (l : list bytes) | QErr (l : list bytes) (e : derr) | QPanic | QLoop.

(** db.go:222-319 [Get], with query.go:90-123 [parse]. *)
Definition db_get (c : dcfg) (s : db) (now : Z) (g : gchoice) (q : query) : db * query * qres :=
  if d_closed s then (s, q, QErr [] XClosed)
  else if Nat.eqb (length (q_topic q)) 0 then (s, q, QErr [] XTopicEmpty)
  else if (maxTopicLength <? N.of_nat (length (q_topic q)))%N then (s, q, QErr [] XTopicTooLarge)
  else
  let contract := if (q_contract q =? 0)%N then MasterContract else q_contract q in
  let t := parse_topic contract (q_topic q) in
  let ft := add_contract contract t in
  let (L, cutoff) := parse_limit (c_def c) (c_max c) (q_limit q) (q_cutoff q)
                                 (topic_last (c_pd c) now (t_options t)) in
  let tops := g_topics g (trie_lookup (d_trie s) (t_parts ft) (t_depth ft) (t_type ft)) in
  match lookup_topics s now g L cutoff tops (q_win q) with
  | None => (s, q, QPanic)
  | Some win =>
      let win := seq_desc win in
      let q := mkQ (q_topic q) contract L cutoff win in
      match get_entries (read_one c contract cutoff) s win (g_cap g win) L with
      | (s, GotItems l) => (s, q, QItems l)
      | (s, GotErr l) => (s, q, QErr l XIO)
      | (s, GotPanic) => (s, q, QPanic)
      | (s, GotLoop) => (s, q, QLoop)
      end
  end.

(** * Sync *)

(** db_sync.go:27-48 with the writers of one sync. *)
Record sst := mkSS {
  ss_db : db;
  ss_ww : winwriter;
  ss_bw : bwriter;
  ss_upper : N;
  ss_count : N;
  ss_err1 : bool
}.
Definition ss_set_db (st : sst) (s : db) : sst := mkSS s (ss_ww st) (ss_bw st) (ss_upper st) (ss_count st) (ss_err1 st).

(** db_internal.go:108-120 [writeInfo] *)
Definition info_bytes (s : db) (count : N) : bytes := write_info (d_enc s) (d_seq s) count.

(** The files as the writers have them, put back into the database. *)
Definition ss_files (st : sst) (count last : N) (info : bytes) : db :=
  set_files (ss_db st) info (ww_file (ss_ww st)) (w_index (ss_bw st)) (w_data (ss_bw st)) (w_lease (ss_bw st)) count last.

Fixpoint free_all (l : lease) (fs : list (Z * N)) : option lease :=
  match fs with
  | [] => Some l
  | (off, size) :: r => match freeBlock l off size with None => None | Some l => free_all l r end
  end.

(** db_sync.go:91-124 [abort] when the sync is not complete, then [reset].
    Only files, free list, counters matter: the writers are not used again
    (block_writer.go:284-300, 313-318; time_window_writer.go:196-218).  An error
    of the first rollback leaves out the second.  [None] is a panic. *)
Definition sync_abort (st : sst) : option db :=
  let w := ss_ww st in
  let w := mkWW (truncate (ww_file w) (Z.to_nat (ww_offset w))) (ww_idx w) (ww_blocks w) (ww_leases w) (ww_offset w) in
  let s := ss_db st in
  match ww_fold (fun w ks => ww_fold (fun w q => ww_del w q (fst ks)) (snd ks) w) (ww_leases w) w with
  | None => Some (set_files s (d_info s) (ww_file w) (w_index (ss_bw st)) (w_data (ss_bw st)) (w_lease (ss_bw st))
                            (d_count s) (ss_upper st))
  | Some _ =>
      let b := ss_bw st in
      match free_all (w_lease b) (w_dataLeases b) with
      | None => None
      | Some l => Some (set_files s (d_info s) (ww_file w) (truncate (w_index b) (Z.to_nat (w_indexOffset b)))
                                  (truncate (w_data b) (Z.to_nat (w_dataOffset b))) l
                                  (count_sub (d_count s) (ss_count st)) (ss_upper st))
      end
  end.

Inductive sres := SyOk (st : sst) | SyErr (st : sst) | SyPanic.

(** db_sync.go:175-207 [sync], and its deferred [abort], which then only runs
    [reset].  A failed write leaves the state as it was before this call; in
    this model no write fails. *)
Definition sync_write (st : sst) : sres :=
  if (ss_upper st =? 0)%N then SyOk st
  else match ww_write (ss_ww st), bw_commit (ss_bw st) (ss_upper st) with
       | Some w, Some b =>
           let count := u64 (d_count (ss_db st) + ss_count st) in
           let st := mkSS (ss_db st) (ww_reset w) b (ss_upper st) (ss_count st) (ss_err1 st) in
           let s := ss_files st count (ss_upper st) (info_bytes (ss_db st) count) in
           SyOk (mkSS s (ww_reset w) b 0 0 (ss_err1 st))
       | _, _ => match sync_abort st with
                 | None => SyPanic
                 | Some s => SyErr (mkSS s (ss_ww st) (ss_bw st) 0 0 (ss_err1 st))
                 end
       end.

(** winEntries of one time block: a map from topic hash to entries. *)
Notation winmap := (list (N * list wentry)).
Definition win_add (m : winmap) (h : N) (e : wentry) : winmap :=
  match afind N.eqb m h with
  | Some l => aset N.eqb m h (l ++ [e])
  | None => aset N.eqb m h [e]
  end.

(** db_sync.go:226-265, recovery.go:71-115: the messages of one block to the
    block writer; [rec] also adds topics to the tree. *)
Inductive bres := BOk (st : sst) (m : winmap) | BErr (st : sst) | BPanic.
Fixpoint block_entries (rec : bool) (st : sst) (t : Z) (seqs : list N) (m : winmap) : bres :=
  match seqs with
  | [] => BOk st m
  | q :: r =>
      match mem_lookup (d_mem (ss_db st)) t q with
      | GOk d =>
          match entry_unmarshal d with
          | None => BPanic
          | Some x =>
              let cache := skipn entrySize d in
              match bw_append (ss_bw st) (mkIE (e_seq x) (e_topicSize x) (e_valueSize x) 0) cache with
              | WPanic => BPanic
              | WErr b EExist => block_entries rec (mkSS (ss_db st) (ss_ww st) b (ss_upper st) (ss_count st) (ss_err1 st)) t r m
              | WErr b _ => BErr (mkSS (ss_db st) (ss_ww st) b (ss_upper st) (ss_count st) (ss_err1 st))
              | WOk b =>
                  let tr := if rec then add_topic (d_trie (ss_db st)) x cache idSize else Some (d_trie (ss_db st)) in
                  match tr with
                  | None => BPanic
                  | Some tr =>
                      block_entries rec (mkSS (set_trie (ss_db st) tr) (ss_ww st) b (ss_upper st)
                                              (ss_count st + 1) (ss_err1 st)) t r
                                    (win_add m (e_topicHash x) (mkWE (if rec then e_seq x else q) (e_expiresAt x)))
                  end
              end
          end
      | GPanic | GLoop => BPanic
      | _ => block_entries rec (mkSS (ss_db st) (ss_ww st) (ss_bw st) (ss_upper st) (ss_count st) true) t r m
      end
  end.

(** db_sync.go:266-278, recovery.go:28-43: the entries of each topic to the
    window writer, the new offsets to the tree. *)
Fixpoint block_windows (now : Z) (st : sst) (m : winmap) : sres :=
  match m with
  | [] => SyOk st
  | (h, es) :: r =>
      match getOffset (d_trie (ss_db st)) h with
      | None => SyErr st
      | Some off =>
          match ww_append now (ss_ww st) h off es with
          | AppPanic => SyPanic
          | AppErr w => SyErr (mkSS (ss_db st) w (ss_bw st) (ss_upper st) (ss_count st) (ss_err1 st))
          | AppOk w o =>
              let (tr, ok) := setOffset (d_trie (ss_db st)) (h, o) in
              let st := mkSS (set_trie (ss_db st) tr) w (ss_bw st) (ss_upper st) (ss_count st) (ss_err1 st) in
              if ok then block_windows now st r else SyErr st
          end
      end
  end.

(** The order in which Go walks the map of one block. *)
Notation morder := (winmap -> winmap).

Definition raise_upper (st : sst) (seqs : list N) : sst :=
  mkSS (ss_db st) (ss_ww st) (ss_bw st) (N.max (ss_upper st) (last seqs 0%N)) (ss_count st) (ss_err1 st).

(** db_sync.go:218-297: one time block.  [keys] are those of the time window
    when the sync began. *)
Definition sync_block (now : Z) (ord : morder) (keys : list twkey) (st : sst) (t : Z) : sres :=
  let seqs := seq_asc (block_keys (d_mem (ss_db st)) t) in
  match seqs with
  | [] => SyOk st
  | _ =>
      match block_entries false (raise_upper st seqs) t seqs [] with
      | BPanic => SyPanic
      | BErr st => SyErr st
      | BOk st m =>
          match block_windows now st (ord m) with
          | SyPanic => SyPanic
          | SyErr st => SyErr st
          | SyOk st =>
              if ss_err1 st then SyErr st
              else match sync_write st with
                   | SyPanic => SyPanic
                   | SyErr st => SyErr st
                   | SyOk st =>
                       match tw_release keys (d_tw (ss_db st)) t with
                       | None => SyErr st
                       | Some tw =>
                           let s := set_tw (ss_db st) tw in
                           match mem_free (d_mem s) t with
                           | (mm, MOk) => SyOk (ss_set_db st (set_mem s mm))
                           | (mm, _) => SyErr (ss_set_db st (set_mem s mm))
                           end
                       end
                   end
          end
      end
  end.

Fixpoint sync_blocks (f : sst -> Z -> sres) (st : sst) (ts : list Z) : sres :=
  match ts with
  | [] => SyOk st
  | t :: r => match f st t with SyOk st => sync_blocks f st r | x => x end
  end.

(** db_sync.go:50-73 [startSync]; [None] when there is nothing to do. *)
Definition start_sync (s : db) (last : N) : option sst :=
  if (last =? d_seq s)%N then None
  else match newBlockWriter (d_index s) (d_data s) (d_lease s) with
       | None => None
       | Some b => Some (mkSS s (newWindowWriter (d_win s)) b 0 0 false)
       end.

(** db.go:452-472 and db_sync.go:212-303.  Every error is dropped: the last
    [sync] has nothing to do and answers nil. *)
Definition db_sync (now : Z) (ord : morder) (s : db) : db * dres :=
  match start_sync s (d_last s) with
  | None => (s, DOk)
  | Some st =>
      match sync_blocks (sync_block now ord (tw_keys (d_tw s))) st (timeRefs (d_mem s)) with
      | SyPanic => (s, DPanic)
      | SyOk st => (ss_db st, DOk)
      | SyErr st => match sync_abort st with
                    | None => (s, DPanic)
                    | Some s => (s, DOk)
                    end
      end
  end.

(** * Batches *)

(** batch.go:44-58: the entries, whether to delete, and the parts of the memdb
    batch: its current block and the blocks written. *)
Record batch := mkBatch {
  b_index : list (bool * bytes);
  b_time : Z;
  b_group : list Z;
  b_contract : N;
  b_encrypt : bool
}.

(** db_internal.go:346-355 [batch]; options.go: the default batch contract. *)
Definition db_batch (s : db) (now : Z) (pick : option nat) : db * batch :=
  (set_mem s (batch_new (d_mem s) now pick), mkBatch [] now [] MasterContract (d_enc s =? 1)%N).

Definition b_add (b : batch) (del : bool) (cache : bytes) : batch :=
  mkBatch (b_index b ++ [(del, cache)]) (b_time b) (b_group b) (b_contract b) (b_encrypt b).

(** batch.go:71-103 [PutEntry] *)
Definition batch_put_entry (c : dcfg) (s : db) (b : batch) (now : Z) (e : uentry) : db * batch * uentry * dres :=
  match check_put e with
  | Some r => (s, b, e, DErr r)
  | None =>
      let e := mkUE (u_id e) (u_topic e) (u_payload e) (u_expires e) (u_contract e) (u_encrypt e || b_encrypt b)
                    (u_hash e) (u_tsize e) in
      match set_entry c s now e with
      | SErr e r => (s, b, e, DErr r)
      | SPanic => (s, b, e, DPanic)
      | SOk s e x cache => (s, b_add b false cache, ue_reset e, DOk)
      end
  end.

(** batch.go:115-147 [DeleteEntry] *)
Definition batch_delete_entry (c : dcfg) (s : db) (b : batch) (now : Z) (e : uentry) : db * batch * uentry * dres :=
  let id := match u_id e with Some id => id | None => [] end in
  if d_immut s then (s, b, e, DErr XImmutable)
  else if Nat.eqb (length id) 0 then (s, b, e, DErr XMsgIDEmpty)
  else if Nat.eqb (length (u_topic e)) 0 then (s, b, e, DErr XTopicEmpty)
  else if (maxTopicLength <? N.of_nat (length (u_topic e)))%N then (s, b, e, DErr XTopicTooLarge)
  else match set_entry c s now e with
       | SErr e r => (s, b, e, DErr r)
       | SPanic => (s, b, e, DPanic)
       | SOk s e x cache => (s, b_add b true cache, ue_reset e, DOk)
       end.

(** batch.go:149-192, 201-226: the entries into memory; an error stops the
    walk and is dropped.  Deletes drop their result.  [None] is a panic. *)
Fixpoint batch_entries (c : dcfg) (s : db) (t : Z) (l : list (bool * bytes)) : option db :=
  match l with
  | [] => Some s
  | (del, cache) :: r =>
      match entry_unmarshal cache with
      | None => None
      | Some x =>
          if (del && negb (e_seq x =? 0)%N)%bool
          then match db_delete c s (e_seq x) with
               | (_, DPanic) => None
               | (s, _) => batch_entries c s t r
               end
          else match add_topic (d_trie s) x cache (entrySize + idSize) with
               | None => None
               | Some tr =>
                   let s := set_trie s tr in
                   match batch_put (c_mem c) (d_mem s) t (e_seq x) cache with
                   | (m, MOk) =>
                       batch_entries c (set_tw (set_mem s m)
                                          (tw_add (d_tw s) t (e_topicHash x) (mkWE (e_seq x) (e_expiresAt x)))) t r
                   | (m, MPanic) => None
                   | (m, _) => Some (set_mem s m)
                   end
               end
      end
  end.
(** batch.go:195-232 [Write] *)
Definition batch_write_db (c : dcfg) (s : db) (b : batch) (now : Z) (pick : option nat) : option (db * batch) :=
  match b_index b with
  | [] => Some (s, b)
  | l =>
      match (if d_closed s then Some s else batch_entries c s (b_time b) l) with
      | None => None
      | Some s => Some (set_mem s (batch_write (d_mem s) (b_time b) now pick),
                        mkBatch [] now (b_group b ++ [b_time b]) (b_contract b) (b_encrypt b))
      end
  end.
(** batch.go:236-257 [Commit]; memdb/batch.go:97-118: once more [Write], then
    the marks; the deferred aborts find an empty group. *)
Definition batch_commit_db (c : dcfg) (s : db) (b : batch) (now1 now2 : Z) (p1 p2 : option nat) : option db :=
  match batch_write_db c s b now1 p1 with
  | None => None
  | Some (s, b) =>
      Some (set_mem s (batch_commit (batch_write (d_mem s) (b_time b) now2 p2) (b_group b ++ [b_time b])))
  end.
(** batch.go:266-273 [Abort], memdb/batch.go:121-131.  Not allowed while the
    batch is managed: a panic. *)
Definition batch_abort_db (s : db) (b : batch) (managed : bool) : option db :=
  if managed then None else Some (set_mem s (batch_abort (d_mem s) (b_group b))).

(** What a batch function does. *)
Inductive bop := BPut (now : Z) (e : uentry) | BDelete (now : Z) (e : uentry) | BWrite (now : Z) (pick : option nat).
Definition batch_step (c : dcfg) (s : db) (b : batch) (o : bop) : option (db * batch) :=
  match o with
  | BPut now e => match batch_put_entry c s b now e with (_, _, _, DPanic) => None | (s, b, _, _) => Some (s, b) end
  | BDelete now e => match batch_delete_entry c s b now e with (_, _, _, DPanic) => None | (s, b, _, _) => Some (s, b) end
  | BWrite now pick => batch_write_db c s b now pick
  end.
Fixpoint batch_steps (c : dcfg) (s : db) (b : batch) (l : list bop) : option (db * batch) :=
  match l with
  | [] => Some (s, b)
  | o :: r => match batch_step c s b o with None => None | Some (s, b) => batch_steps c s b r end
  end.

(** The state a function leaves when it panics half way: nothing is undone.
    The step that panics has changed memory only. *)
Fixpoint batch_left (c : dcfg) (s : db) (b : batch) (l : list bop) : db :=
  match l with
  | [] => s
  | o :: r => match batch_step c s b o with None => s | Some (s, b) => batch_left c s b r end
  end.

(** db.go:434-447 [Batch].  The function runs [ops] and then returns an error
    or not; [None]: the call panics. *)
Definition db_batch_run (c : dcfg) (s : db) (now : Z) (pick : option nat) (ops : list bop) (fails : bool)
           (now1 now2 : Z) (p1 p2 : option nat) : option db :=
  let (s, b) := db_batch s now pick in
  match batch_steps c s b ops with
  | None => None
  | Some (s, b) => if fails then batch_abort_db s b true else batch_commit_db c s b now1 now2 p1 p2
  end.

(** * Close and Open *)

Record files := mkF { f_info : bytes; f_win : bytes; f_index : bytes; f_data : bytes; f_lease : bytes; f_wal : dir }.
(** What is on disk at any moment. *)
Definition on_disk (s : db) : files := mkF (d_info s) (d_win s) (d_index s) (d_data s) (d_lfile s) (m_wal (d_mem s)).

(** db_internal.go:123-165 [close] *)
Definition db_close (s : db) : db * dres :=
  if d_closed s then (s, DErr XClosed)
  else
  let m := mem_close (d_mem s) in
  let l := defrag (d_lease s) in
  (mkDB m (d_tw s) (d_trie s) (info_bytes s (d_count s)) (d_win s) (d_index s) (d_data s) (lease_write l) l
        (d_seq s) (d_count s) (d_enc s) (d_last s) (d_immut s) true, DOk).

(** db_internal.go:168-194 [loadTrie]: until an error, which is logged only.
    [None] is a panic. *)
Fixpoint load_trie (index data : bytes) (l : list (N * N * Z)) (t : trie) : option trie :=
  match l with
  | [] => Some t
  | (seq, h, off) :: r =>
      match readEntry index seq with
      | Some (RFound e) =>
          if (x_topicSize e =? 0)%N then load_trie index data r t
          else match readTopic data e with
               | None => Some t
               | Some raw => match topic_unmarshal raw with
                             | None => None
                             | Some (ps, depth) => load_trie index data r (fst (trie_add t (h, off) ps depth))
                             end
               end
      | _ => Some t
      end
  end.

Fixpoint pend_add (pend m : winmap) : winmap :=
  match m with
  | [] => pend
  | (h, es) :: r =>
      pend_add (aset N.eqb pend h (match afind N.eqb pend h with Some l => l | None => [] end ++ es)) r
  end.

(** recovery.go:63-149: one time block; topics without an offset are put off. *)
Definition recover_block (now : Z) (ord : morder) (x : sst * winmap) (t : Z) : option (sst * winmap * bool) :=
  let (st, pend) := x in
  let seqs := seq_asc (block_keys (d_mem (ss_db st)) t) in
  match seqs with
  | [] => Some (st, pend, true)
  | _ =>
      match block_entries true (raise_upper st seqs) t seqs [] with
      | BPanic => None
      | BErr st => Some (st, pend, false)
      | BOk st m =>
          if ss_err1 st then Some (st, pend, false)
          else
          let known := filter (fun e : N * list wentry => match getOffset (d_trie (ss_db st)) (fst e) with Some _ => true | None => false end) m in
          let other := filter (fun e : N * list wentry => match getOffset (d_trie (ss_db st)) (fst e) with Some _ => false | None => true end) m in
          let pend := pend_add pend other in
          match block_windows now st (ord known) with
          | SyPanic => None
          | SyErr st => Some (st, pend, false)
          | SyOk st =>
              match sync_write st with
              | SyPanic => None
              | SyErr st => Some (st, pend, false)
              | SyOk st =>
                  match mem_free (d_mem (ss_db st)) t with
                  | (mm, MOk) => Some (ss_set_db st (set_mem (ss_db st) mm), pend, true)
                  | (mm, _) => Some (ss_set_db st (set_mem (ss_db st) mm), pend, false)
                  end
              end
          end
      end
  end.
Fixpoint recover_blocks (now : Z) (ord : morder) (x : sst * winmap) (ts : list Z) : option (sst * winmap * bool) :=
  match ts with
  | [] => Some (x, true)
  | t :: r => match recover_block now ord x t with
              | None => None
              | Some (x, true) => recover_blocks now ord x r
              | Some (x, false) => Some (x, false)
              end
  end.
(** recovery.go:45-163 [startRecovery].  [None]: Open panics. *)
Definition recover (now : Z) (ord : morder) (s : db) : option db :=
  match start_sync s 0 with
  | None => Some s
  | Some st =>
      match recover_blocks now ord (st, []) (allRefs (d_mem s)) with
      | None => None
      | Some (st, pend, false) => if ss_err1 st then None else sync_abort st
      | Some (st, pend, true) =>
          match block_windows now st (ord pend) with
          | SyPanic | SyErr _ => None
          | SyOk st => match sync_write st with
                       | SyOk st => Some (ss_db st)
                       | _ => None
                       end
          end
      end
  end.

Inductive opened := Opened (s : db) | OpenFailed | OpenPanic.

(** db.go:50-210 [Open]; [gens] are the filters of the in-memory store.  A new
    info file is written (M_DBInfo).  lastSyncSeq is 0 afterwards. *)
Definition db_open (c : dcfg) (gens : list bloom) (now : Z) (ord : morder) (immut enc : bool) (f : files) : opened :=
  match open_header enc (match f_info f with [] => None | b => Some b end) with
  | OpenIO | OpenCorrupted => OpenFailed
  | OpenOk i =>
      let info := match f_info f with [] => info_marshal (mkInfo signature version 0 0 0) | b => b end in
      match mem_open (c_mem c) gens (f_wal f) now, load_trie (f_index f) (f_data f) (blockIterator (f_win f)) newTrie with
      | Some m, Some tr =>
          match lease_read (newLease (c_find c) (c_min c)) (f_lease f) with
          | RdErr => OpenFailed
          | RdPanic => OpenPanic
          | RdOk l =>
              let s := mkDB m [] tr info (f_win f) (f_index f) (f_data f) (f_lease f) l
                            (i_sequence i) (i_count i) (i_encryption i) 0 immut false in
              match recover now ord s with
              | None => OpenPanic
              | Some s => Opened (mkDB (d_mem s) (d_tw s) (d_trie s) (d_info s) (d_win s) (d_index s) (d_data s)
                                       (d_lfile s) (d_lease s) (d_seq s) (d_count s) (d_enc s) 0 immut false)
              end
          end
      | _, _ => OpenPanic
      end
  end.
Definition no_files : files := mkF [] [] [] [] [] [].
