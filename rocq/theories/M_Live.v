(* Puts and Gets of the database that run at the same time as a Sync.  One step is
   what one goroutine does between two points where others can see its effects;
   the steps of different goroutines come in any order.

   Simplified: a message is the number of its Put, a topic is its hash; the topic is
   found by its hash (wildcards are M_Trie, topics added at the same time C102); a
   Put into the in-memory store is one step (C101 has the steps of it); there are
   no deletions, expiry, limits, batches, identifiers of the caller and I/O errors.
   The times whose log is written are any times before the current one.  A window
   block is its entries and its link; [W] is the number of entries of a full one.
   The file has a first block already, that of topic [h0]: the topic of the first
   block of the file is C32_first_refuted.  What a Get does with the entries it has
   found (sorting, reading the payload) is M_DB. *)

From Coq Require Import List Arith Bool.
Import ListNotations.

(* /repo/time_window.go:33-49 *)
Record lblock : Type := LB { lb_hash : nat; lb_ents : list nat; lb_next : nat }.

(* The window file: at each position a block, or zeros. *)
Notation lfile := (list (option lblock)).

(* /repo/time_window_reader.go:45-55: past the end is an error; a block of zeros has
   hash 0, which is that of no topic.  Readers stop at both. *)
Definition read_at (f : lfile) (p : nat) : option lblock :=
  match nth_error f p with Some (Some b) => Some b | _ => None end.

(* /repo/time_window.go:267-329: the blocks of a topic from position [p] on, the
   newest entries first; [fuel] blocks at most. *)
Fixpoint walk (fuel : nat) (f : lfile) (h p : nat) : list nat :=
  match fuel with
  | O => []
  | S n =>
      match read_at f p with
      | None => []
      | Some b =>
          if Nat.eqb (lb_hash b) h
          then rev (lb_ents b) ++ (if Nat.eqb (lb_next b) 0 then [] else walk n f h (lb_next b))
          else []
      end
  end.

(* ---- the writer of the window ---- *)

(* /repo/time_window_writer.go:27-37: windowIdx and winBlocks. *)
Record lwriter : Type := LW { lw_idx : nat; lw_pend : list (nat * lblock) }.

Fixpoint pfind (m : list (nat * lblock)) (p : nat) : option lblock :=
  match m with
  | [] => None
  | (q, b) :: r => if Nat.eqb q p then Some b else pfind r p
  end.

(* /repo/time_window_writer.go:106-127: [p], [b]: the block being filled. *)
Fixpoint fill (W h idx : nat) (pend : list (nat * lblock)) (p : nat) (b : lblock) (es : list nat)
  : lwriter * nat :=
  match es with
  | [] => (LW idx ((p, b) :: pend), p)
  | e :: r =>
      if Nat.eqb (length (lb_ents b)) W
      then fill W h (S idx) ((p, b) :: pend) (S idx) (LB h [e] p) r
      else fill W h idx pend p (LB h (lb_ents b ++ [e]) (lb_next b)) r
  end.

(* /repo/time_window_writer.go:83-130; [None] is the error of line 99.  The result
   of validation (line 101) is not looked at. *)
Definition w_append (W : nat) (w : lwriter) (f : lfile) (h off : nat) (es : list nat)
  : option (lwriter * nat) :=
  if Nat.eqb off 0
  then Some (fill W h (S (lw_idx w)) (lw_pend w) (S (lw_idx w)) (LB h [] 0) es)
  else match pfind (lw_pend w) off with
       | Some b => Some (fill W h (lw_idx w) (lw_pend w) off (LB h (lb_ents b) (lb_next b)) es)
       | None =>
           if Nat.leb off (lw_idx w)
           then match nth_error f off with
                | None => None
                | Some None => Some (fill W h (lw_idx w) (lw_pend w) off (LB h [] 0) es)
                | Some (Some b) => Some (fill W h (lw_idx w) (lw_pend w) off (LB h (lb_ents b) (lb_next b)) es)
                end
           else Some (fill W h (lw_idx w) (lw_pend w) off (LB h [] 0) es)
       end.

Fixpoint write_at (f : lfile) (p : nat) (b : lblock) : lfile :=
  match p, f with
  | O, [] => [Some b]
  | O, _ :: r => Some b :: r
  | S n, [] => None :: write_at [] n b
  | S n, x :: r => x :: write_at r n b
  end.

(* /repo/time_window_writer.go:132-194 *)
Definition w_write (f : lfile) (pend : list (nat * lblock)) : lfile :=
  fold_right (fun e f => write_at f (fst e) (snd e)) f pend.

(* ---- the goroutines ---- *)

(* A Put (/repo/db.go:346-387): called; its record is in memory (line 366); its
   entry is in the window in memory (line 371); returned, its topic is in the trie
   (line 379). *)
Inductive lput : Type :=
| LNew (h : nat)
| LMem (t h : nat)
| LWin (t h : nat)
| LDone (t h : nat).

(* A Get of one topic (/repo/db_internal.go:217-234): called; the offset of its topic
   read from the trie (line 218); the entries in memory (/repo/time_window.go:259);
   all entries. *)
Inductive lget : Type :=
| GNew (h : nat)
| GOff (h off : nat)
| GMem (h off : nat) (es : list nat)
| GDone (h : nat) (es : list nat).

(* What a Sync has: the keys of line 216, its window writer, the times to do. *)
Record lctx : Type := LC { lc_keys : list (nat * nat); lc_w : lwriter; lc_todo : list nat }.

(* A Sync (/repo/db_sync.go:212-303): none; the keys taken (line 216); between two
   times; with the new entries of a time and, by topic, those still to be appended
   (lines 225-276); about to write the window (line 186), the index (line 190), to
   release the window entries (line 287), to free the block (line 290). *)
Inductive lsync : Type :=
| YIdle
| YSnap (keys : list (nat * nat))
| YNext (c : lctx)
| YTopics (c : lctx) (t : nat) (fresh : list nat) (groups : list (nat * list nat))
| YWrite (c : lctx) (t : nat) (fresh : list nat)
| YIndex (c : lctx) (t : nat) (fresh : list nat)
| YRel (c : lctx) (t : nat)
| YFree (c : lctx) (t : nat).

Record lst : Type := LS {
  l_cur : nat;                              (* the current time *)
  l_mem : list (nat * list (nat * nat));    (* blocks in memory: time, messages with their topics *)
  l_win : list (nat * nat * nat);           (* the window in memory: time, topic, message *)
  l_trie : list (nat * nat);                (* topics with their offsets *)
  l_file : lfile;                           (* the window file *)
  l_index : list nat;                       (* the messages in the index file *)
  l_puts : list lput;
  l_gets : list lget;
  l_sync : lsync
}.

Definition lstart (h0 : nat) : lst := LS 0 [] [] [] [Some (LB h0 [] 0)] [] [] [] YIdle.

Fixpoint nfind {A : Type} (m : list (nat * A)) (k : nat) : option A :=
  match m with
  | [] => None
  | (q, x) :: r => if Nat.eqb q k then Some x else nfind r k
  end.
Fixpoint nset {A : Type} (m : list (nat * A)) (k : nat) (x : A) : list (nat * A) :=
  match m with
  | [] => [(k, x)]
  | (q, y) :: r => if Nat.eqb q k then (q, x) :: r else (q, y) :: nset r k x
  end.
Fixpoint supd {A : Type} (i : nat) (x : A) (xs : list A) : list A :=
  match xs, i with
  | [], _ => []
  | _ :: r, O => x :: r
  | y :: r, S j => y :: supd j x r
  end.
Definition memb (x : nat) (l : list nat) : bool := existsb (Nat.eqb x) l.

Definition block_of (st : lst) (t : nat) : list (nat * nat) :=
  match nfind (l_mem st) t with Some r => r | None => [] end.

Definition set_put (st : lst) (i : nat) (x : lput) : list lput := supd i x (l_puts st).

Definition put_go (st : lst) (i : nat) : lst :=
  match nth_error (l_puts st) i with
  | Some (LNew h) =>
      let t := l_cur st in
      LS t (nset (l_mem st) t (block_of st t ++ [(i, h)])) (l_win st) (l_trie st) (l_file st)
         (l_index st) (set_put st i (LMem t h)) (l_gets st) (l_sync st)
  | Some (LMem t h) =>                      (* /repo/time_window.go:168-187 *)
      LS (l_cur st) (l_mem st) (l_win st ++ [(t, h, i)]) (l_trie st) (l_file st)
         (l_index st) (set_put st i (LWin t h)) (l_gets st) (l_sync st)
  | Some (LWin t h) =>                      (* /repo/trie.go:117-152 *)
      LS (l_cur st) (l_mem st) (l_win st)
         (match nfind (l_trie st) h with Some _ => l_trie st | None => l_trie st ++ [(h, 0)] end)
         (l_file st) (l_index st) (set_put st i (LDone t h)) (l_gets st) (l_sync st)
  | _ => st
  end.

(* /repo/time_window.go:220-254 without limit *)
Definition in_window (st : lst) (h : nat) : list nat :=
  map snd (filter (fun e => Nat.eqb (snd (fst e)) h) (l_win st)).

(* /repo/time_window.go:257-330 without limit: the blocks on disk *)
Definition on_file (st : lst) (h off : nat) : list nat := walk (S (length (l_file st))) (l_file st) h off.

Definition get_go (st : lst) (j : nat) : lst :=
  let to x := LS (l_cur st) (l_mem st) (l_win st) (l_trie st) (l_file st) (l_index st) (l_puts st)
                 (supd j x (l_gets st)) (l_sync st) in
  match nth_error (l_gets st) j with
  | Some (GNew h) => match nfind (l_trie st) h with
                     | None => to (GDone h [])
                     | Some off => to (GOff h off)
                     end
  | Some (GOff h off) => to (GMem h off (in_window st h))
  | Some (GMem h off es) => to (GDone h (es ++ on_file st h off))
  | _ => st
  end.

(* ---- Sync ---- *)

Definition set_sync (st : lst) (y : lsync) : lst :=
  LS (l_cur st) (l_mem st) (l_win st) (l_trie st) (l_file st) (l_index st) (l_puts st) (l_gets st) y.

(* /repo/db_sync.go:253-258: the new entries by topic *)
Fixpoint add_to (g : list (nat * list nat)) (h q : nat) : list (nat * list nat) :=
  match g with
  | [] => [(h, [q])]
  | (k, l) :: r => if Nat.eqb k h then (k, l ++ [q]) :: r else (k, l) :: add_to r h q
  end.
Definition by_topic (recs : list (nat * nat)) : list (nat * list nat) :=
  fold_left (fun g e => add_to g (snd e) (fst e)) recs [].

Definition key_eqb (a b : nat * nat) : bool := Nat.eqb (fst a) (fst b) && Nat.eqb (snd a) (snd b).

(* The times of /repo/memdb/db.go:261: any of those before the current one, in
   increasing order; [pick] says which. *)
Definition times_before (st : lst) (pick : nat -> bool) : list nat :=
  filter pick (seq 0 (l_cur st)).

(* One step; [pick] chooses the times, [n] which topic comes next in the walk over
   winEntries (line 264).  An error ends the Sync: lines 297-300 drop what is not
   written; the offsets in the trie stay. *)
Definition sync_go (W : nat) (st : lst) (pick : nat -> bool) (n : nat) : lst :=
  match l_sync st with
  | YIdle => set_sync st (YSnap (map fst (l_win st)))
  | YSnap keys => set_sync st (YNext (LC keys (LW (length (l_file st)) []) (times_before st pick)))
  | YNext (LC keys w []) => set_sync st YIdle
  | YNext (LC keys w (t :: todo)) =>
      match nfind (l_mem st) t with
      | None => set_sync st (YNext (LC keys w todo))
      | Some recs =>
          let new := filter (fun e => negb (memb (fst e) (l_index st))) recs in
          set_sync st (YTopics (LC keys w todo) t (map fst new) (by_topic new))
      end
  | YTopics c t fresh [] => set_sync st (YWrite c t fresh)
  | YTopics (LC keys w todo) t fresh groups =>
      match nth_error groups n with
      | None => st
      | Some (h, es) =>
          match nfind (l_trie st) h with
          | None => set_sync st YIdle                               (* line 267 *)
          | Some off =>
              match w_append W w (l_file st) h off es with
              | None => set_sync st YIdle                           (* line 271 *)
              | Some (w', off') =>
                  LS (l_cur st) (l_mem st) (l_win st) (nset (l_trie st) h off') (l_file st)
                     (l_index st) (l_puts st) (l_gets st)
                     (YTopics (LC keys w' todo) t fresh
                              (filter (fun g => negb (Nat.eqb (fst g) h)) groups))
              end
          end
      end
  | YWrite c t fresh =>
      LS (l_cur st) (l_mem st) (l_win st) (l_trie st) (w_write (l_file st) (lw_pend (lc_w c)))
         (l_index st) (l_puts st) (l_gets st) (YIndex c t fresh)
  | YIndex c t fresh =>
      LS (l_cur st) (l_mem st) (l_win st) (l_trie st) (l_file st) (l_index st ++ fresh)
         (l_puts st) (l_gets st) (YRel c t)
  | YRel c t =>                                       (* /repo/time_window.go:203-216 *)
      if existsb (fun k => Nat.eqb (fst k) t) (lc_keys c)
      then LS (l_cur st) (l_mem st)
              (filter (fun e => negb (Nat.eqb (fst (fst e)) t && existsb (key_eqb (fst e)) (lc_keys c))) (l_win st))
              (l_trie st) (l_file st) (l_index st) (l_puts st) (l_gets st) (YFree c t)
      else set_sync st YIdle
  | YFree c t =>
      LS (l_cur st) (filter (fun e => negb (Nat.eqb (fst e) t)) (l_mem st)) (l_win st) (l_trie st)
         (l_file st) (l_index st) (l_puts st) (l_gets st) (YNext c)
  end.

(* ---- runs ---- *)

Inductive levent : Type :=
| EPut (h : nat)                       (* a goroutine calls Put *)
| EGo (i : nat)                        (* the goroutine of Put number i goes on *)
| EGet (h : nat)                       (* a goroutine calls Get *)
| ERead (j : nat)                      (* the goroutine of Get number j goes on *)
| ETick                                (* the time of a block is over *)
| ESync (pick : nat -> bool) (n : nat). (* Sync starts or goes on *)

Definition lstep (W : nat) (st : lst) (e : levent) : lst :=
  match e with
  | EPut h => LS (l_cur st) (l_mem st) (l_win st) (l_trie st) (l_file st) (l_index st)
                 (l_puts st ++ [LNew h]) (l_gets st) (l_sync st)
  | EGo i => put_go st i
  | EGet h => LS (l_cur st) (l_mem st) (l_win st) (l_trie st) (l_file st) (l_index st)
                 (l_puts st) (l_gets st ++ [GNew h]) (l_sync st)
  | ERead j => get_go st j
  | ETick => LS (S (l_cur st)) (l_mem st) (l_win st) (l_trie st) (l_file st) (l_index st)
                (l_puts st) (l_gets st) (l_sync st)
  | ESync pick n => sync_go W st pick n
  end.

Definition lrun (W : nat) (st : lst) (es : list levent) : lst := fold_left (lstep W) es st.
