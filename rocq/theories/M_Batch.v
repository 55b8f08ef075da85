(** Model of server/internal/batch.go: the batch manager of a connection.  Its
    goroutines take turns in any order; a step is what one of them does between
    two points at which another can interfere. *)
From Coq Require Import ZArith List Bool Lia.
Import ListNotations.
Open Scope Z_scope.

(** A message, with the size of its payload.  The time of the batch it is put
    into is kept beside it for the statements; the code has no use for it. *)
Record bmsg := mkBM { bm_time : Z; bm_id : nat; bm_size : Z }.

(** batch.go:29-33; count and size are computed from the list here, the code
    keeps them up to date with each message (101-103). *)
Notation batch := (list bmsg) (only parsing).
Definition b_size (b : batch) : Z := fold_right (fun m s => bm_size m + s) 0 b.

(** batch.go:24-28 *)
Record bopts := mkBO { bo_duration : Z; bo_count : Z; bo_bytes : Z }.

(** batch.go:11-20 *)
Definition defaultPoolCapacity : nat := 27.

(** batch.go:34-43.  Batches are pointers: [bs_heap] maps them to their content.
    [bs_lock]: an [add] that holds [mu] and waits for room in the publish queue,
    with the time and the batch it pushes.  [bs_picked]: the entry of the map
    the publish loop has read and waits for [mu] with.  A batch in a channel no
    longer changes, so the channels carry contents. *)
Record bstate := mkBS {
  bs_heap : nat -> list bmsg;
  bs_next : nat;
  bs_group : list (Z * nat);
  bs_queue : list (list bmsg);   (* publishQueue, capacity 1 *)
  bs_send : list (list bmsg);    (* send, capacity 27 *)
  bs_out : list (list bmsg);     (* handed to c.pub *)
  bs_lock : option (Z * nat);
  bs_picked : option (Z * nat);
  bs_stop : bool;                (* stop is closed *)
  bs_qclosed : bool;             (* publishQueue is closed *)
  bs_sclosed : bool;             (* send is closed *)
  bs_panic : bool
}.

Fixpoint g_find (g : list (Z * nat)) (t : Z) : option nat :=
  match g with
  | [] => None
  | (u, b) :: r => if u =? t then Some b else g_find r t
  end.
Fixpoint g_delete (g : list (Z * nat)) (t : Z) : list (Z * nat) :=
  match g with
  | [] => []
  | (u, b) :: r => if u =? t then g_delete r t else (u, b) :: g_delete r t
  end.
Definition h_set (h : nat -> list bmsg) (b : nat) (c : list bmsg) : nat -> list bmsg :=
  fun x => if Nat.eqb x b then c else h x.

(** batch.go:219-221 [TimeID]; times in nanoseconds, the clock rounded to
    milliseconds by TimeNow.  Truncate(d) for d <= 0 returns the time as it is;
    it counts from year 1, [base] nanoseconds before the epoch. *)
Definition base : Z := 62135596800000000000.
Definition timeID (o : bopts) (now delay : Z) : Z :=
  let t := now + (bo_duration o + delay * 1000000) in
  if bo_duration o <=? 0 then t else t - (t + base) mod bo_duration o.

(** batch.go:46-53, 55-78 *)
Definition binit (o : bopts) (now : Z) : bstate :=
  mkBS (fun _ => []) 1 [(timeID o now 0, 0%nat)] [] [] [] None None false false false false.

Inductive bop :=
| BAdd (now delay : Z) (id : nat) (size : Z) (* add, up to the push *)
| BPush                                      (* the push of that add, and unlock *)
| BPick (now t : Z)                          (* the publish loop reads an entry of the map *)
| BCommit                                    (* lock, push, delete, unlock *)
| BDispatch
| BPublish (ok : bool)                       (* [false]: timeout *)
| BStop                                      (* close(m.stop) *)
| BFinish (now : Z).                         (* the publish loop ends *)

Definition full_queue (s : bstate) : bool := Nat.leb 1 (length (bs_queue s)).

(** batch.go:111-115 [push]: an empty batch is not sent; a send on a closed
    channel panics. The caller makes sure there is room. *)
Definition push (s : bstate) (c : list bmsg) : bstate :=
  match c with
  | [] => s
  | _ => if bs_qclosed s
         then mkBS (bs_heap s) (bs_next s) (bs_group s) (bs_queue s) (bs_send s) (bs_out s) (bs_lock s) (bs_picked s) (bs_stop s) (bs_qclosed s) (bs_sclosed s) true
         else mkBS (bs_heap s) (bs_next s) (bs_group s) (bs_queue s ++ [c]) (bs_send s) (bs_out s) (bs_lock s) (bs_picked s) (bs_stop s) (bs_qclosed s) (bs_sclosed s) (bs_panic s)
  end.
Definition with_group (s : bstate) (g : list (Z * nat)) : bstate :=
  mkBS (bs_heap s) (bs_next s) g (bs_queue s) (bs_send s) (bs_out s) (bs_lock s) (bs_picked s) (bs_stop s) (bs_qclosed s) (bs_sclosed s) (bs_panic s).
Definition with_lock (s : bstate) (l : option (Z * nat)) : bstate :=
  mkBS (bs_heap s) (bs_next s) (bs_group s) (bs_queue s) (bs_send s) (bs_out s) l (bs_picked s) (bs_stop s) (bs_qclosed s) (bs_sclosed s) (bs_panic s).
Definition with_picked (s : bstate) (l : option (Z * nat)) : bstate :=
  mkBS (bs_heap s) (bs_next s) (bs_group s) (bs_queue s) (bs_send s) (bs_out s) (bs_lock s) l (bs_stop s) (bs_qclosed s) (bs_sclosed s) (bs_panic s).

(** batch.go:93-108 [add] up to the push; lines 97-100 find or make the batch. *)
Definition do_add (o : bopts) (s : bstate) (now delay : Z) (id : nat) (size : Z) : bstate :=
  let t := timeID o now delay in
  let '(b, nx, g, old) := match g_find (bs_group s) t with
                          | Some b => (b, bs_next s, bs_group s, bs_heap s b)
                          | None => (bs_next s, S (bs_next s), (t, bs_next s) :: bs_group s, [])
                          end in
  let c := old ++ [mkBM t id size] in
  let over := (bo_count o <? Z.of_nat (length c)) || (bo_bytes o <? b_size c) in
  mkBS (h_set (bs_heap s) b c) nx g (bs_queue s) (bs_send s) (bs_out s)
       (if over then Some (t, b) else None) (bs_picked s) (bs_stop s) (bs_qclosed s) (bs_sclosed s) (bs_panic s).

(** One step; [None]: the step cannot be taken (the goroutine waits). *)
Definition bstep (o : bopts) (s : bstate) (p : bop) : option bstate :=
  if bs_panic s then None else
  match p with
  | BAdd now delay id size =>
      match bs_lock s with
      | Some _ => None
      | None => Some (do_add o s now delay id size)
      end
  | BPush =>
      match bs_lock s with
      | None => None
      | Some (t, b) =>
          if full_queue s && negb (bs_qclosed s) then None
          else Some (with_lock (with_group (push s (bs_heap s b)) (g_delete (bs_group s) t)) None)
      end
  | BPick now t => (* batch.go:143-145, 130-132 *)
      match bs_picked s, g_find (bs_group s) t with
      | None, Some b => if (t <? now) && negb (bs_qclosed s) then Some (with_picked s (Some (t, b))) else None
      | _, _ => None
      end
  | BCommit => (* batch.go:133-136, 146-149 *)
      match bs_picked s, bs_lock s with
      | Some (t, b), None =>
          match bs_heap s b with
          | [] => Some (with_picked (with_group s (g_delete (bs_group s) t)) None)
          | c => if full_queue s then None
                 else Some (with_picked (with_group (push s c) (g_delete (bs_group s) t)) None)
          end
      | _, _ => None
      end
  | BDispatch => (* batch.go:157-177 *)
      match bs_queue s with
      | [] => if bs_qclosed s && negb (bs_sclosed s)
              then Some (mkBS (bs_heap s) (bs_next s) (bs_group s) [] (bs_send s) (bs_out s) (bs_lock s) (bs_picked s) (bs_stop s) true true false)
              else None
      | c :: q =>
          Some (mkBS (bs_heap s) (bs_next s) (bs_group s) q
                  (if Nat.ltb (length (bs_send s)) defaultPoolCapacity then bs_send s ++ [c] else bs_send s)
                  (bs_out s) (bs_lock s) (bs_picked s) (bs_stop s) (bs_qclosed s) (bs_sclosed s) false)
      end
  | BPublish ok => (* batch.go:180-217 *)
      match bs_send s with
      | [] => None
      | c :: q =>
          Some (mkBS (bs_heap s) (bs_next s) (bs_group s) (bs_queue s) q
                  (if ok then bs_out s ++ [c] else bs_out s)
                  (bs_lock s) (bs_picked s) (bs_stop s) (bs_qclosed s) (bs_sclosed s) false)
      end
  | BStop => (* batch.go:81-90 *)
      if bs_stop s then None
      else Some (mkBS (bs_heap s) (bs_next s) (bs_group s) (bs_queue s) (bs_send s) (bs_out s) (bs_lock s) (bs_picked s) true (bs_qclosed s) (bs_sclosed s) false)
  | BFinish now => (* batch.go:129-141, once all entries before [now] are pushed *)
      match bs_picked s with
      | Some _ => None
      | None =>
          if bs_stop s && negb (bs_qclosed s) && forallb (fun e => now <=? fst e) (bs_group s)
          then Some (mkBS (bs_heap s) (bs_next s) (bs_group s) (bs_queue s) (bs_send s) (bs_out s) (bs_lock s) None true true (bs_sclosed s) false)
          else None
      end
  end.

Fixpoint brun (o : bopts) (s : bstate) (ps : list bop) : option bstate :=
  match ps with
  | [] => Some s
  | p :: r => match bstep o s p with Some s' => brun o s' r | None => None end
  end.
