(** The log pool of the in-memory store: memdb/tiny_log.go, with the goroutines
    that it starts, the writes of batches that wait for it, and Close.  One step is
    what one goroutine does up to its next channel operation; the steps of
    different goroutines come in any order.

    Simplified: what a commit writes is M_MemDB (here a log is its number, and its
    commit ends); the check of the buffer pool at tiny_log.go:221-232 only skips a
    tick; one dispatcher, as memdb/db.go:104 asks for. *)
From Coq Require Import List Arith Bool.
Import ListNotations.

(** memdb/tiny_log.go:248-275 [dispatch]: waiting at line 252; with a log (line
    262); asleep (line 272); ended (line 257). *)
Inductive pdisp := DRecv | DHand (x : nat) | DSleep | DEnd.

(** memdb/tiny_log.go:278-306 [commitLoop]: at the outer select; committing a log
    (in the inner loop if [stopping]); in the inner loop; ended. *)
Inductive pcom := MIdle | MHand (stopping : bool) (x : nat) | MStop | MEnd.

(** memdb/tiny_log.go:202-245 [writeLoop]: at the select; sending a log (the last
    one if [final]); making a new one (line 237); closing the queue (line 216);
    ended. *)
Inductive ploop := LIdle | LSend (final : bool) (x : nat) | LNew | LCloseQ | LEnd.

(** memdb/batch.go:80-90 [Write] and tiny_log.go:192-198 [writeWait]: about to
    send its log; waiting for the log to be done; returned. *)
Inductive pwrite := BStart (x : nat) | BWait (x : nat) | BRet (x : nat).

(** Close (memdb/db_internal.go:82-100, tiny_log.go:170-181): not called, waiting
    for the goroutines, returned. *)
Inductive pclose := XNot | XWait | XRet.

Record pst := PS {
  p_next : nat;             (* the number of the next log *)
  p_tiny : nat;             (* p.tinyLog *)
  p_wq : list nat;          (* writeQueue, capacity 1: the log in it, then those of
                               the senders that wait, in their order *)
  p_wclosed : bool;
  p_disp : pdisp;
  p_lq : list nat;          (* logQueue *)
  p_lclosed : bool;
  p_com : pcom;
  p_done : list nat;        (* logs whose doneChan is closed *)
  p_drop : list nat;        (* logs dropped (for the specification only) *)
  p_stop : bool;            (* p.stop is closed *)
  p_loop : ploop;
  p_close : pclose;
  p_bw : list pwrite;
  p_panic : bool            (* a goroutine has panicked: the process is gone *)
}.

(** memdb/tiny_log.go:125-155 [newLogManager] *)
Definition pool_start : pst :=
  PS 1 0 [] false DRecv [] false MIdle [] [] false LIdle XNot [] false.

Fixpoint upd_bw (i : nat) (w : pwrite) (l : list pwrite) : list pwrite :=
  match l, i with
  | [], _ => []
  | _ :: r, O => w :: r
  | y :: r, S j => y :: upd_bw j w r
  end.

Definition memb (x : nat) (l : list nat) : bool := existsb (Nat.eqb x) l.

Definition set_disp s d wq lq lc dr :=
  PS (p_next s) (p_tiny s) wq (p_wclosed s) d lq lc (p_com s) (p_done s) dr
     (p_stop s) (p_loop s) (p_close s) (p_bw s) (p_panic s).
Definition set_com s c lq dn :=
  PS (p_next s) (p_tiny s) (p_wq s) (p_wclosed s) (p_disp s) lq (p_lclosed s) c dn (p_drop s)
     (p_stop s) (p_loop s) (p_close s) (p_bw s) (p_panic s).
Definition set_loop s nx ti wq wc l :=
  PS nx ti wq wc (p_disp s) (p_lq s) (p_lclosed s) (p_com s) (p_done s) (p_drop s)
     (p_stop s) l (p_close s) (p_bw s) (p_panic s).
Definition set_bw s nx wq bw :=
  PS nx (p_tiny s) wq (p_wclosed s) (p_disp s) (p_lq s) (p_lclosed s) (p_com s) (p_done s) (p_drop s)
     (p_stop s) (p_loop s) (p_close s) bw (p_panic s).
Definition set_close s st x :=
  PS (p_next s) (p_tiny s) (p_wq s) (p_wclosed s) (p_disp s) (p_lq s) (p_lclosed s) (p_com s) (p_done s)
     (p_drop s) st (p_loop s) x (p_bw s) (p_panic s).
Definition panic s :=
  PS (p_next s) (p_tiny s) (p_wq s) (p_wclosed s) (p_disp s) (p_lq s) (p_lclosed s) (p_com s) (p_done s)
     (p_drop s) (p_stop s) (p_loop s) (p_close s) (p_bw s) true.

(** memdb/tiny_log.go:248-275 *)
Definition disp_step (cap : nat) (s : pst) : pst :=
  match p_disp s with
  | DRecv =>
      match p_wq s with
      | x :: r => set_disp s (DHand x) r (p_lq s) (p_lclosed s) (p_drop s)
      | [] => if p_wclosed s then set_disp s DEnd [] (p_lq s) true (p_drop s) else s
      end
  | DHand x =>
      if Nat.ltb (length (p_lq s)) cap
      then set_disp s DRecv (p_wq s) (p_lq s ++ [x]) (p_lclosed s) (p_drop s)
      else set_disp s DSleep (p_wq s) (p_lq s) (p_lclosed s) (x :: p_drop s)
  | DSleep => set_disp s DRecv (p_wq s) (p_lq s) (p_lclosed s) (p_drop s)
  | DEnd => s
  end.

(** memdb/tiny_log.go:278-306; db_internal.go:299-311 [tinyCommit] ends with
    [abort], tiny_log.go:53-55.  At the outer select a closed and empty queue gives
    nil, which is skipped, until the other case is chosen. *)
Definition com_step (s : pst) : pst :=
  match p_com s with
  | MIdle =>
      match p_lq s with
      | x :: r => set_com s (MHand false x) r (p_done s)
      | [] => if p_stop s then set_com s MStop [] (p_done s) else s
      end
  | MHand st x => set_com s (if st then MStop else MIdle) (p_lq s) (x :: p_done s)
  | MStop =>
      match p_lq s with
      | x :: r => set_com s (MHand true x) r (p_done s)
      | [] => if p_lclosed s then set_com s MEnd [] (p_done s) else s
      end
  | MEnd => s
  end.

(** The outer select chooses the case of line 281 though there is a log. *)
Definition com_stop (s : pst) : pst :=
  match p_com s with
  | MIdle => if p_stop s then set_com s MStop (p_lq s) (p_done s) else s
  | _ => s
  end.

(** memdb/tiny_log.go:219-238.  When the ticker and [stop] are both ready, the
    select takes either; a tick that is taken then is one that was taken before. *)
Definition tick_step (s : pst) : pst :=
  match p_loop s with
  | LIdle =>
      if p_stop s then s
      else set_loop s (p_next s) (p_tiny s) (p_wq s ++ [p_tiny s]) (p_wclosed s)
                    (LSend false (p_tiny s))
  | _ => s
  end.

(** memdb/tiny_log.go:213-238.  A send is over when the log is the one in the
    buffer, or was taken from it.  [close] of the channel makes the senders that
    wait panic. *)
Definition loop_step (s : pst) : pst :=
  match p_loop s with
  | LIdle =>
      if p_stop s
      then set_loop s (p_next s) (p_tiny s) (p_wq s ++ [p_tiny s]) (p_wclosed s)
                    (LSend true (p_tiny s))
      else s
  | LSend final x =>
      if memb x (tl (p_wq s)) then s
      else set_loop s (p_next s) (p_tiny s) (p_wq s) (p_wclosed s) (if final then LCloseQ else LNew)
  | LNew => set_loop s (S (p_next s)) (p_next s) (p_wq s) (p_wclosed s) LIdle
  | LCloseQ =>
      if Nat.ltb 1 (length (p_wq s)) then panic s
      else set_loop s (p_next s) (p_tiny s) (p_wq s) true LEnd
  | LEnd => s
  end.

(** memdb/batch.go:38-42: a new batch, or the next round of one, has a new log. *)
Definition batch_step (s : pst) : pst :=
  set_bw s (S (p_next s)) (p_wq s) (p_bw s ++ [BStart (p_next s)]).

(** memdb/batch.go:80-90, tiny_log.go:192-198: a send on a closed channel panics. *)
Definition write_step (s : pst) (i : nat) : pst :=
  match nth_error (p_bw s) i with
  | Some (BStart x) =>
      if p_wclosed s then panic s
      else set_bw s (p_next s) (p_wq s ++ [x]) (upd_bw i (BWait x) (p_bw s))
  | Some (BWait x) =>
      if memb x (p_done s) then set_bw s (p_next s) (p_wq s) (upd_bw i (BRet x) (p_bw s)) else s
  | _ => s
  end.

(** memdb/db_internal.go:82-86, tiny_log.go:170-176 *)
Definition close_step (s : pst) : pst :=
  match p_close s with
  | XNot => set_close s true XWait
  | XWait => match p_disp s, p_com s with
             | DEnd, MEnd => set_close s true XRet
             | _, _ => s
             end
  | XRet => s
  end.

Inductive pev :=
| ETick | ELoop | EDisp | ECom | EComStop
| EBatch | EWrite (i : nat)
| EClose.    (* the call of Close, and each later look whether all have ended *)

Definition pool_step (cap : nat) (s : pst) (e : pev) : pst :=
  if p_panic s then s else
  match e with
  | ETick => tick_step s
  | ELoop => loop_step s
  | EDisp => disp_step cap s
  | ECom => com_step s
  | EComStop => com_stop s
  | EBatch => batch_step s
  | EWrite i => write_step s i
  | EClose => close_step s
  end.

Definition pool_run (cap : nat) (s : pst) (l : list pev) : pst := fold_left (pool_step cap) l s.

(** The states of an infinite run *)
Fixpoint pool_at (cap : nat) (ev : nat -> pev) (n : nat) : pst :=
  match n with
  | O => pool_start
  | S k => pool_step cap (pool_at cap ev k) (ev k)
  end.
