(** The lock file (file_unix.go, file.go:110-118), one system call at a time.

    The kernel is modelled by what open, flock, unlink and close do to one name:
    flock locks the file (inode), not the name; unlink removes the name only; a
    lock ends when the file is closed or the process dies.  Processes are
    numbered; Windows (file_windows.go) is not modelled. *)
From Coq Require Export List Arith.
Export ListNotations.

(** Where a process is: outside; with the lock file open (file_unix.go:52); with
    the lock (54); in unlock after os.Remove (33); after an os.Remove that failed,
    when unlock returns without closing (34). *)
Inductive phase := PIdle | POpened (i : nat) | PHeld (i : nat) | PRemoved (i : nat) | PStuck (i : nat).

(** [lk_name]: the file the name leads to; [lk_next]: number of the next new file. *)
Record locks := mkLocks { lk_name : option nat; lk_next : nat; lk_phase : nat -> phase }.
Definition locks_init : locks := mkLocks None 0 (fun _ => PIdle).

Definition holds (ph : phase) : option nat :=
  match ph with PHeld i | PRemoved i | PStuck i => Some i | _ => None end.
Definition is_free (s : locks) (procs : nat) (i : nat) : bool :=
  forallb (fun p => match holds (lk_phase s p) with Some j => negb (j =? i) | None => true end) (seq 0 procs).
Definition set_phase (s : locks) (p : nat) (ph : phase) : nat -> phase := fun q => if q =? p then ph else lk_phase s q.

Inductive lop :=
| LOpen (p : nat)     (* os.OpenFile with O_CREATE, file_unix.go:50 *)
| LFlock (p : nat)    (* flock LOCK_EX|LOCK_NB; the file is closed on failure, 40-45, 54-57 *)
| LRemove (p : nat)   (* os.Remove, 33-35 *)
| LClose (p : nat)    (* fl.f.Close, 36 *)
| LDie (p : nat).     (* the process ends *)

(** [procs]: how many processes there are. *)
Definition lstep (procs : nat) (s : locks) (o : lop) : locks :=
  match o with
  | LOpen p =>
      match lk_phase s p with
      | PIdle =>
          match lk_name s with
          | Some i => mkLocks (Some i) (lk_next s) (set_phase s p (POpened i))
          | None => mkLocks (Some (lk_next s)) (S (lk_next s)) (set_phase s p (POpened (lk_next s)))
          end
      | _ => s
      end
  | LFlock p =>
      match lk_phase s p with
      | POpened i => mkLocks (lk_name s) (lk_next s) (set_phase s p (if is_free s procs i then PHeld i else PIdle))
      | _ => s
      end
  | LRemove p =>
      match lk_phase s p with
      | PHeld i =>
          match lk_name s with
          | Some _ => mkLocks None (lk_next s) (set_phase s p (PRemoved i))
          | None => mkLocks None (lk_next s) (set_phase s p (PStuck i))
          end
      | _ => s
      end
  | LClose p =>
      match lk_phase s p with
      | PRemoved _ => mkLocks (lk_name s) (lk_next s) (set_phase s p PIdle)
      | _ => s
      end
  | LDie p => mkLocks (lk_name s) (lk_next s) (set_phase s p PIdle)
  end.
Definition lrun (procs : nat) (ops : list lop) : locks := fold_left (lstep procs) ops locks_init.
