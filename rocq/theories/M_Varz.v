(** Model of the counters of a database: meter.go:28-42, 86-103, 142-158 [Varz]
    and their use in db.go, db_internal.go, db_sync.go.  They are kept beside the
    database of M_DB.  The counters of bytes (in_bytes, out_bytes) and the times
    of events are left out; the int64 counters do not overflow. *)
From Verif Require Import M_Bytes M_Bloom M_Entry M_IndexBlock M_Lease M_WinBlock M_MemDB M_Window M_Get M_DBInfo M_DB S_DB.
From Verif Require M_Trie.
Open Scope Z_scope.

Record varz := mkVz { v_gets : N; v_puts : N; v_leases : N; v_syncs : N; v_recovers : N; v_aborts : N; v_dels : N; v_in : N; v_out : N }.
(** meter.go:45-62 [NewMeter] *)
Definition varz_new : varz := mkVz 0 0 0 0 0 0 0 0 0.

(** db.go:382 *)
Definition count_put (v : varz) : varz :=
  mkVz (v_gets v) (v_puts v + 1) (v_leases v) (v_syncs v) (v_recovers v) (v_aborts v) (v_dels v) (v_in v) (v_out v).
(** db.go:316-317 *)
Definition count_get (v : varz) (n : N) : varz :=
  mkVz (v_gets v + n) (v_puts v) (v_leases v) (v_syncs v) (v_recovers v) (v_aborts v) (v_dels v) (v_in v) (v_out v + n).
(** db.go:332 *)
Definition count_lease (v : varz) : varz :=
  mkVz (v_gets v) (v_puts v) (v_leases v + 1) (v_syncs v) (v_recovers v) (v_aborts v) (v_dels v) (v_in v) (v_out v).
(** db_internal.go:321 *)
Definition count_dels (v : varz) (n : N) : varz :=
  mkVz (v_gets v) (v_puts v) (v_leases v) (v_syncs v) (v_recovers v) (v_aborts v) (v_dels v + n) (v_in v) (v_out v).
(** db_sync.go:199-203 *)
Definition count_sync (v : varz) (recovery : bool) (n : N) : varz :=
  mkVz (v_gets v) (v_puts v) (v_leases v) (v_syncs v + n) (if recovery then v_recovers v + n else v_recovers v) (v_aborts v) (v_dels v) (v_in v + n) (v_out v).

(** db_sync.go:175-207 [sync]: what one call counts, once the files are written. *)
Definition write_count (st : sst) : N :=
  if (ss_upper st =? 0)%N then 0%N else match sync_write st with SyOk _ => ss_count st | _ => 0%N end.
(** db_sync.go:218-286: one time block. *)
Definition block_count (now : Z) (ord : morder) (st : sst) (t : Z) : N :=
  let seqs := seq_asc (block_keys (d_mem (ss_db st)) t) in
  match seqs with
  | [] => 0%N
  | _ => match block_entries false (raise_upper st seqs) t seqs [] with
         | BOk st m => match block_windows now st (ord m) with
                       | SyOk st => if ss_err1 st then 0%N else write_count st
                       | _ => 0%N
                       end
         | _ => 0%N
         end
  end.
Fixpoint blocks_count (f : sst -> Z -> sres) (g : sst -> Z -> N) (st : sst) (ts : list Z) : N :=
  match ts with
  | [] => 0%N
  | t :: r => (g st t + match f st t with SyOk st => blocks_count f g st r | _ => 0 end)%N
  end.
(** db_sync.go:212-303 [Sync] *)
Definition sync_count (now : Z) (ord : morder) (s : db) : N :=
  match start_sync s (d_last s) with
  | None => 0%N
  | Some st => blocks_count (sync_block now ord (tw_keys (d_tw s))) (block_count now ord) st (timeRefs (d_mem s))
  end.

(** recovery.go:63-149, 162: the same in recovery; the last sync counts what is
    left. *)
Definition recover_block_count (now : Z) (ord : morder) (x : sst * winmap) (t : Z) : N :=
  let (st, pend) := x in
  let seqs := seq_asc (block_keys (d_mem (ss_db st)) t) in
  match seqs with
  | [] => 0%N
  | _ =>
      match block_entries true (raise_upper st seqs) t seqs [] with
      | BOk st m =>
          if ss_err1 st then 0%N
          else match block_windows now st (ord (filter (fun e : N * list wentry => match M_Trie.getOffset (d_trie (ss_db st)) (fst e) with Some _ => true | None => false end) m)) with
               | SyOk st => write_count st
               | _ => 0%N
               end
      | _ => 0%N
      end
  end.
Fixpoint recover_blocks_count (now : Z) (ord : morder) (x : sst * winmap) (ts : list Z) : N :=
  match ts with
  | [] => 0%N
  | t :: r => (recover_block_count now ord x t + match recover_block now ord x t with Some (x, true) => recover_blocks_count now ord x r | _ => 0 end)%N
  end.
Definition recover_count (now : Z) (ord : morder) (s : db) : N :=
  match start_sync s 0 with
  | None => 0%N
  | Some st =>
      (recover_blocks_count now ord (st, []) (allRefs (d_mem s)) +
       match recover_blocks now ord (st, []) (allRefs (d_mem s)) with
       | Some (st, pend, true) => match block_windows now st (ord pend) with SyOk st => write_count st | _ => 0 end
       | _ => 0
       end)%N
  end.

(** batch.go:149-192: the deletions of a batch that reach the database. *)
Fixpoint entries_dels (c : dcfg) (s : db) (t : Z) (l : list (bool * bytes)) : N :=
  match l with
  | [] => 0%N
  | (del, cache) :: r =>
      match entry_unmarshal cache with
      | None => 0%N
      | Some x =>
          if (del && negb (e_seq x =? 0)%N)%bool
          then ((if d_immut s then 0 else 1) + match db_delete c s (e_seq x) with (_, DPanic) => 0 | (s, _) => entries_dels c s t r end)%N
          else match add_topic (d_trie s) x cache (entrySize + idSize) with
               | None => 0%N
               | Some tr =>
                   let s := set_trie s tr in
                   match batch_put (c_mem c) (d_mem s) t (e_seq x) cache with
                   | (m, MOk) => entries_dels c (set_tw (set_mem s m) (tw_add (d_tw s) t (e_topicHash x) (mkWE (e_seq x) (e_expiresAt x)))) t r
                   | _ => 0%N
                   end
               end
      end
  end.
Definition write_dels (c : dcfg) (s : db) (b : batch) : N :=
  match b_index b with [] => 0%N | l => if d_closed s then 0%N else entries_dels c s (b_time b) l end.
Fixpoint steps_dels (c : dcfg) (s : db) (b : batch) (l : list bop) : N :=
  match l with
  | [] => 0%N
  | o :: r => ((match o with BWrite _ _ => write_dels c s b | _ => 0 end) +
               match batch_step c s b o with None => 0 | Some (s, b) => steps_dels c s b r end)%N
  end.
Definition batch_dels (c : dcfg) (s : db) (now : Z) (pick : option nat) (l : list bop) (fails : bool) : N :=
  let (s, b) := db_batch s now pick in
  (steps_dels c s b l + match batch_steps c s b l with Some (s, b) => if fails then 0 else write_dels c s b | None => 0 end)%N.

(** The counters after one step.  Open starts with new ones (db.go:134). *)
Definition vcount (c : dcfg) (w : world) (v : varz) (o : dop) : varz :=
  match w, o with
  | Up s, DoPut now e => match put_entry c s now e with (_, _, DOk) => count_put v | _ => v end
  | Up s, DoDelete e =>
      let id := match u_id e with Some id => id | None => [] end in
      if (d_immut s || Nat.eqb (length id) 0 || Nat.eqb (length (u_topic e)) 0 || (maxTopicLength <? N.of_nat (length (u_topic e)))%N || Nat.ltb (length id) 16)%bool
      then v else count_dels v 1
  | Up s, DoGet now g q => match db_get c s now g q with (_, _, QItems l) => count_get v (N.of_nat (length l)) | _ => v end
  | Up s, DoNewID now => count_lease v
  | Up s, DoBatch now pick l fails _ _ _ _ => count_dels v (batch_dels c s now pick l fails)
  | Up s, DoSync now ord => count_sync v false (sync_count now ord s)
  | Down f, DoOpen gens now ord immut enc =>
      match mem_open (c_mem c) gens (f_wal f) now, load_trie (f_index f) (f_data f) (blockIterator (f_win f)) M_Trie.newTrie,
            open_header enc (match f_info f with [] => None | b => Some b end), lease_read (newLease (c_find c) (c_min c)) (f_lease f) with
      | Some m, Some tr, OpenOk i, RdOk l =>
          count_sync varz_new true (recover_count now ord
            (mkDB m [] tr (match f_info f with [] => info_marshal (mkInfo signature version 0 0 0) | b => b end)
                  (f_win f) (f_index f) (f_data f) (f_lease f) l (i_sequence i) (i_count i) (i_encryption i) 0 immut false))
      | _, _, _, _ => varz_new
      end
  | _, _ => v
  end.
Definition vstep (c : dcfg) (wv : world * varz) (o : dop) : world * varz * dout :=
  let (w, v) := wv in let (w', x) := dstep c w o in (w', vcount c w v o, x).
Fixpoint vrun (c : dcfg) (wv : world * varz) (ops : list dop) : world * varz * list dout :=
  match ops with
  | [] => (wv, [])
  | o :: r => let '(w, v, x) := vstep c wv o in let '(wv', xs) := vrun c (w, v) r in (wv', x :: xs)
  end.
