(* Puts of the in-memory store (memdb) that run at the same time as its write
   loop, its commit loop and an iteration that frees the blocks (Sync of the
   database).  One step of this model is what one goroutine does under one lock;
   the steps of different goroutines come in any order.

   Simplified: a Put is its number, the keys of different Puts are different (an
   overwriting Put is C34), the records have no contents, there are no deletions
   and no batches, the log queue is not full (a full one drops logs, which is
   M_MemDB.mem_drop) and its two channels are one queue.  The times of blocks are
   numbers that do not decrease. *)

From Coq Require Import List Arith Bool.
Import ListNotations.

(* /repo/memdb/block.go:46-55: the buffer (by its number), the keys in records,
   lastOffset (in records), timeRefs. *)
Record rblock : Type := RB {
  rb_buf : nat; rb_recs : list nat; rb_off : nat; rb_refs : list nat
}.

(* A Put (/repo/memdb/db.go:367-392): before timeID(); with the time it has read
   (line 372); with the block it has found (line 374); returned without error,
   with its time and, for the specification only, the current time when it wrote
   its record (lines 380-386); refused (line 377). *)
Inductive rput : Type :=
| PNew
| PTime (s : nat)
| PBlk (s p : nat)
| PDone (s now : nat)
| PRefused.

(* The commit loop (/repo/memdb/db_internal.go:259-311): waiting; with a tiny log
   taken from the queue; with its block (line 263); with the slice to be logged
   and the size of the block (lines 268-271); with the log written (line 287);
   about to mark the time (line 307). *)
Inductive rcommit : Type :=
| CIdle
| CLook (id s : nat)
| CSlice (id s p : nat)
| CLog (id s p : nat) (data : list nat) (upto : nat)
| CSet (id s p : nat) (upto : nat)
| CMark (s : nat).

(* An iteration over the blocks that frees each of them
   (/repo/memdb/db.go:255-285 with Free called by the callback, as by
   /repo/db_sync.go:215-297): the times still to do; a block found (line 264);
   its keys (lines 270-276); the callback has dealt with them and calls Free. *)
Inductive riter : Type :=
| YIdle
| YNext (todo : list nat)
| YBlk (s p : nat) (todo : list nat)
| YKeys (s : nat) (keys : list nat) (todo : list nat)
| YFree (s : nat) (todo : list nat).

Record rst : Type := RS {
  r_cur : nat;                        (* time of the current tiny log *)
  r_id : nat;                         (* its id *)
  r_bufs : list (list nat);           (* the buffers ever made *)
  r_pool : list nat;                  (* buffers given back *)
  r_blocks : list rblock;             (* the blocks ever made *)
  r_map : list (nat * nat);           (* db.timeBlocks *)
  r_queue : list (nat * nat);         (* tiny logs: id and time *)
  r_com : rcommit;
  r_wal : list (nat * list nat);      (* the log files: id and records *)
  r_marks : list nat;                 (* timeMark.records *)
  r_rel : list nat;                   (* timeMark.releasedRecords *)
  r_iter : riter;
  r_puts : list rput;
  r_handed : list nat                 (* given to the callback *)
}.

Fixpoint look (m : list (nat * nat)) (s : nat) : option nat :=
  match m with
  | [] => None
  | (k, p) :: r => if Nat.eqb k s then Some p else look r s
  end.

Fixpoint upd {A : Type} (i : nat) (x : A) (xs : list A) : list A :=
  match xs, i with
  | [], _ => []
  | _ :: r, O => x :: r
  | y :: r, S j => y :: upd j x r
  end.

Definition without (s : nat) (xs : list nat) : list nat := filter (fun x => negb (Nat.eqb x s)) xs.

(* Open: a log manager with one tiny log (/repo/memdb/tiny_log.go:117-139). *)
Definition rstart (s : nat) : rst :=
  RS s 0 [[]] [] [RB 0 [] 0 []] [(s, 0)] [] CIdle [] [s] [] YIdle [] [].

(* ---- Put ---- *)

(* /repo/memdb/db.go:380-386 and block.go:83-113: the record is appended. *)
Definition append (st : rst) (i s p : nat) : rst :=
  match nth_error (r_blocks st) p with
  | None => st
  | Some b =>
      match nth_error (r_bufs st) (rb_buf b) with
      | None => st
      | Some d =>
          RS (r_cur st) (r_id st) (upd (rb_buf b) (d ++ [i]) (r_bufs st)) (r_pool st)
             (upd p (RB (rb_buf b) (rb_recs b ++ [i]) (rb_off b) (rb_refs b)) (r_blocks st))
             (r_map st) (r_queue st) (r_com st) (r_wal st) (r_marks st) (r_rel st) (r_iter st)
             (upd i (PDone s (r_cur st)) (r_puts st)) (r_handed st)
      end
  end.

Definition set_put (st : rst) (i : nat) (x : rput) : rst :=
  RS (r_cur st) (r_id st) (r_bufs st) (r_pool st) (r_blocks st) (r_map st) (r_queue st)
     (r_com st) (r_wal st) (r_marks st) (r_rel st) (r_iter st) (upd i x (r_puts st)) (r_handed st).

Definition put_step (st : rst) (i : nat) : rst :=
  match nth_error (r_puts st) i with
  | Some PNew => set_put st i (PTime (r_cur st))
  | Some (PTime s) => match look (r_map st) s with
                      | None => set_put st i PRefused
                      | Some p => set_put st i (PBlk s p)
                      end
  | Some (PBlk s p) => append st i s p
  | _ => st
  end.

(* ---- the write loop ---- *)

(* /repo/memdb/db_internal.go:132-141: a new block if there is none for the time;
   the pool hands out an empty buffer: a new one, or [pick], given back before. *)
Definition add_block (st : rst) (s : nat) (pick : option nat)
  : list (list nat) * list nat * list rblock * list (nat * nat) :=
  match look (r_map st) s with
  | Some _ => (r_bufs st, r_pool st, r_blocks st, r_map st)
  | None =>
      let p := length (r_blocks st) in
      match pick with
      | Some i =>
          if existsb (Nat.eqb i) (r_pool st)
          then (upd i [] (r_bufs st), without i (r_pool st),
                r_blocks st ++ [RB i [] 0 []], (s, p) :: r_map st)
          else (r_bufs st ++ [[]], r_pool st,
                r_blocks st ++ [RB (length (r_bufs st)) [] 0 []], (s, p) :: r_map st)
      | None => (r_bufs st ++ [[]], r_pool st,
                 r_blocks st ++ [RB (length (r_bufs st)) [] 0 []], (s, p) :: r_map st)
      end
  end.

(* /repo/memdb/tiny_log.go:235-238 and 117-123, time_mark.go:41-48: under the lock
   of the log manager the current tiny log is queued and a new one is made.  (The
   log may be taken from the queue before the new one is there; that is the same
   as taking it after.) *)
Definition tick_step (st : rst) (s : nat) (pick : option nat) : rst :=
  if Nat.leb (r_cur st) s then
    let '(bufs, pool, blocks, m) := add_block st s pick in
    RS s (S (r_id st)) bufs pool blocks m (r_queue st ++ [(r_id st, r_cur st)]) (r_com st)
       (r_wal st) (s :: without s (r_marks st)) (r_rel st) (r_iter st) (r_puts st) (r_handed st)
  else st.

(* ---- the commit loop ---- *)

Definition set_com (st : rst) (c : rcommit) : rst :=
  RS (r_cur st) (r_id st) (r_bufs st) (r_pool st) (r_blocks st) (r_map st) (r_queue st)
     c (r_wal st) (r_marks st) (r_rel st) (r_iter st) (r_puts st) (r_handed st).

Definition commit_step (st : rst) : rst :=
  match r_com st with
  | CIdle =>
      match r_queue st with
      | [] => st
      | (id, s) :: q =>
          RS (r_cur st) (r_id st) (r_bufs st) (r_pool st) (r_blocks st) (r_map st) q
             (CLook id s) (r_wal st) (r_marks st) (r_rel st) (r_iter st) (r_puts st) (r_handed st)
      end
  | CLook id s =>                       (* line 263 *)
      match look (r_map st) s with
      | None => set_com st (CMark s)
      | Some p => set_com st (CSlice id s p)
      end
  | CSlice id s p =>                    (* lines 268-278 *)
      match nth_error (r_blocks st) p with
      | None => st
      | Some b =>
          match nth_error (r_bufs st) (rb_buf b) with
          | None => st
          | Some d =>
              if Nat.ltb (length d) (rb_off b) then set_com st CIdle     (* Slice fails: line 273 *)
              else match skipn (rb_off b) d with
                   | [] => set_com st (CMark s)
                   | data => set_com st (CLog id s p data (length d))
                   end
          end
      end
  | CLog id s p data upto =>            (* lines 279-289 *)
      RS (r_cur st) (r_id st) (r_bufs st) (r_pool st) (r_blocks st) (r_map st) (r_queue st)
         (CSet id s p upto) ((id, data) :: r_wal st) (r_marks st) (r_rel st) (r_iter st)
         (r_puts st) (r_handed st)
  | CSet id s p upto =>                 (* lines 291-294 *)
      match nth_error (r_blocks st) p with
      | None => st
      | Some b =>
          RS (r_cur st) (r_id st) (r_bufs st) (r_pool st)
             (upd p (RB (rb_buf b) (rb_recs b) upto (rb_refs b ++ [id])) (r_blocks st)) (r_map st)
             (r_queue st) (CMark s) (r_wal st) (r_marks st) (r_rel st) (r_iter st)
             (r_puts st) (r_handed st)
      end
  | CMark s =>                          (* line 307, time_mark.go:50-66 *)
      if existsb (Nat.eqb s) (r_marks st) then
        RS (r_cur st) (r_id st) (r_bufs st) (r_pool st) (r_blocks st) (r_map st) (r_queue st)
           CIdle (r_wal st) (without s (r_marks st)) (s :: without s (r_rel st)) (r_iter st)
           (r_puts st) (r_handed st)
      else set_com st CIdle
  end.

(* ---- the iteration ---- *)

Definition set_iter (st : rst) (y : riter) : rst :=
  RS (r_cur st) (r_id st) (r_bufs st) (r_pool st) (r_blocks st) (r_map st) (r_queue st)
     (r_com st) (r_wal st) (r_marks st) (r_rel st) y (r_puts st) (r_handed st).

Fixpoint insert (x : nat) (l : list nat) : list nat :=
  match l with
  | [] => [x]
  | y :: r => if Nat.leb x y then x :: y :: r else y :: insert x r
  end.

(* /repo/memdb/db.go:257 and time_mark.go:68-81. *)
Definition refs_before (st : rst) : list nat :=
  fold_right insert [] (filter (fun s => Nat.ltb s (r_cur st)) (r_rel st)).

(* /repo/memdb/db_internal.go:313-339: releaseLog, under the lock of the block. *)
Definition release (st : rst) (s : nat) (y : riter) : rst :=
  match look (r_map st) s with
  | None => set_iter st y
  | Some p =>
      match nth_error (r_blocks st) p with
      | None => set_iter st y
      | Some b =>
          RS (r_cur st) (r_id st) (upd (rb_buf b) [] (r_bufs st)) (rb_buf b :: r_pool st)
             (r_blocks st) (filter (fun e => negb (Nat.eqb (fst e) s)) (r_map st)) (r_queue st)
             (r_com st)
             (filter (fun l => negb (existsb (Nat.eqb (fst l)) (rb_refs b))) (r_wal st))
             (r_marks st) (without s (r_rel st)) y (r_puts st) (r_handed st)
      end
  end.

Definition iter_step (st : rst) : rst :=
  match r_iter st with
  | YIdle => set_iter st (YNext (refs_before st))
  | YNext [] => set_iter st YIdle
  | YNext (s :: todo) =>
      match look (r_map st) s with
      | None => set_iter st (YNext todo)
      | Some p => set_iter st (YBlk s p todo)
      end
  | YBlk s p todo =>
      match nth_error (r_blocks st) p with
      | None => st
      | Some b => match rb_recs b with
                  | [] => set_iter st (YNext todo)
                  | keys => set_iter st (YKeys s keys todo)
                  end
      end
  | YKeys s keys todo =>
      RS (r_cur st) (r_id st) (r_bufs st) (r_pool st) (r_blocks st) (r_map st) (r_queue st)
         (r_com st) (r_wal st) (r_marks st) (r_rel st) (YFree s todo) (r_puts st)
         (r_handed st ++ keys)
  | YFree s todo => release st s (YNext todo)
  end.

(* ---- runs ---- *)

Inductive revent : Type :=
| EPut                                   (* a goroutine calls Put *)
| EGo (i : nat)                          (* the goroutine of Put number i goes on *)
| ETick (s : nat) (pick : option nat)    (* the write loop, at time s *)
| ECommit                                (* the commit loop goes on *)
| EIter.                                 (* the iteration goes on, or starts *)

Definition rstep (st : rst) (e : revent) : rst :=
  match e with
  | EPut => RS (r_cur st) (r_id st) (r_bufs st) (r_pool st) (r_blocks st) (r_map st) (r_queue st)
               (r_com st) (r_wal st) (r_marks st) (r_rel st) (r_iter st) (r_puts st ++ [PNew])
               (r_handed st)
  | EGo i => put_step st i
  | ETick s pick => tick_step st s pick
  | ECommit => commit_step st
  | EIter => iter_step st
  end.

Definition rrun (st : rst) (es : list revent) : rst := fold_left rstep es st.
