(** What each call asks of the operating system: file.go, the log store of
    wal/file.go, and the places that write files.  The bytes written are not
    computed here (M_BlockStore, M_Window, M_Wal do that); each call carries
    them, so that the theorems hold for all bytes.  All calls to the operating
    system succeed. *)
From Verif Require Import M_Bytes M_File.
From Coq Require Import ZArith List.
Import ListNotations.
Open Scope Z_scope.

(** file.go:31-39 *)
Inductive ftype := TInfo | TWin | TIndex | TData | TLease | TFilter.

(** file.go:59-91 [filePath]: one name for each type and number (info, lease and
    filter do not carry the number: only 0 is used); wal/file.go:219-227
    [logPath], [tmpPath]. *)
Inductive fname :=
| FFile (t : ftype) (num : nat)
| FLog (id : Z)
| FTmp (id : Z).

Definition fname_eq_dec (a b : fname) : {a = b} + {a <> b}.
Proof. decide equality; try apply Z.eq_dec; decide equality. Defined.

(** os.OpenFile with O_CREATE, os.Create, File.Truncate, File.WriteAt, File.Sync,
    os.Rename, os.Remove *)
Inductive fop :=
| OOpen (f : fname)
| OCreate (f : fname)
| OTrunc (f : fname) (size : nat)
| OWrite (f : fname) (off : Z) (d : bytes)
| OFsync (f : fname)
| ORename (f g : fname)
| ORemove (f : fname).

(** The files, as every process sees them. *)
Notation fdisk := (fname -> option bytes).

Definition fset (D : fdisk) (f : fname) (c : option bytes) : fdisk :=
  fun g => if fname_eq_dec g f then c else D g.

Definition f_apply (D : fdisk) (o : fop) : fdisk :=
  match o with
  | OOpen f => match D f with Some _ => D | None => fset D f (Some []) end
  | OCreate f => fset D f (Some [])
  | OTrunc f n => match D f with Some c => fset D f (Some (truncate c n)) | None => D end
  | OWrite f off d =>
      match D f with
      | Some c => match write_at c off d with Some c' => fset D f (Some c') | None => D end
      | None => D
      end
  | OFsync _ => D
  | ORename f g => match D f with Some c => fset (fset D f None) g (Some c) | None => D end
  | ORemove f => fset D f None
  end.

Definition f_run (D : fdisk) (l : list fop) : fdisk := fold_left f_apply l D.

(** file.go:95-107: a file set is a map from numbers to files, a list of file
    sets, and a current file (nil for the file set of the database). *)
Inductive fileset := FileSet (fmap : list (nat * fname)) (flist : list fileset)
                             (cur : option (ftype * nat)).

Definition fs_map (s : fileset) := let 'FileSet m _ _ := s in m.
Definition fs_list (s : fileset) := let 'FileSet _ l _ := s in l.
Definition fs_cur (s : fileset) := let 'FileSet _ _ c := s in c.

(** file.go:118-147 [newFile] (for at least one file) *)
Definition new_file_ops (t : ftype) (n : nat) : list fop :=
  map (fun i => OOpen (FFile t i)) (seq 0 n).
Definition new_file (t : ftype) (n : nat) : fileset :=
  FileSet (map (fun i => (i, FFile t i)) (seq 0 n)) [] (Some (t, pred n)).

Definition ftype_eqb (a b : ftype) : bool :=
  match a, b with
  | TInfo, TInfo | TWin, TWin | TIndex, TIndex | TData, TData | TLease, TLease
  | TFilter, TFilter => true
  | _, _ => false
  end.

(** file.go:211-227 [getFile]; the change of the current file is made to a copy of
    the file set and so is not seen by anyone. *)
Fixpoint get_file_in (l : list fileset) (t : ftype) (num : nat) : option fname :=
  match l with
  | [] => None
  | s :: r =>
      match fs_cur s with
      | None => None (* nil pointer; not in the list of a file set *)
      | Some (t', n') =>
          if ftype_eqb t' t then
            if Nat.eqb n' num then Some (FFile t' n')
            else match find (fun p => Nat.eqb (fst p) num) (fs_map s) with
                 | Some p => Some (snd p)
                 | None => get_file_in r t num
                 end
          else get_file_in r t num
      end
  end.
Definition get_file (s : fileset) := get_file_in (fs_list s).

(** file.go:229-238 [sync] *)
Definition fs_sync (s : fileset) : list fop := map (fun p => OFsync (snd p)) (fs_map s).

(** file.go:240-250 [size], with file.go:200-204 [currSize] *)
Definition file_len (D : fdisk) (f : fname) : Z :=
  match D f with Some c => fsize c | None => 0 end.
Definition fs_size (s : fileset) (D : fdisk) : Z :=
  fold_left (fun n p => n + file_len D (snd p)) (fs_map s) 0.

(** The parts of DB used here: the file set (db.go:34) and syncWrites
    (db_internal.go:97), which no code sets. *)
Record fdb := { fd_fs : fileset; fd_sync_writes : bool }.

(** db.go:130 *)
Definition the_fileset : fileset :=
  FileSet [] [new_file TInfo 1; new_file TWin 1; new_file TIndex 1; new_file TData 1;
              new_file TLease 1; new_file TFilter 1] None.
Definition the_db : fdb := {| fd_fs := the_fileset; fd_sync_writes := false |}.

(** db_internal.go:108-119 [writeInfo] *)
Definition write_info (info : bytes) : list fop := [OWrite (FFile TInfo 0) 0 info].

(** db_sync.go:163-173 [DB.sync] *)
Definition db_fsync (db : fdb) (info : bytes) : list fop := write_info info ++ fs_sync (fd_fs db).

(** Writes at offsets *)
Definition writes (f : fname) (l : list (Z * bytes)) : list fop :=
  map (fun p => OWrite f (fst p) (snd p)) l.

(** What the sync of one block writes: the leased entries (block_writer.go:145-155,
    while the entries are appended), the new length of the index file
    (block_writer.go:74-80), the window blocks (time_window_writer.go:132-194), the
    entries (block_writer.go:183-187, [sb_end] is the length of the data file), the
    index blocks (block_writer.go:191-255) and the info file. *)
Record sblock := {
  sb_leased : list (Z * bytes);
  sb_extend : option nat;
  sb_win : list (Z * bytes);
  sb_end : Z; sb_data : bytes;
  sb_index : list (Z * bytes);
  sb_info : bytes;
  sb_free : list Z;     (* logs of the blocks freed: memdb Free, wal.go:115-127 *)
}.

(** db_sync.go:175-209 [sync], up to the end without error *)
Definition sync_block (db : fdb) (b : sblock) : list fop :=
  writes (FFile TData 0) (sb_leased b) ++
  match sb_extend b with Some n => [OTrunc (FFile TIndex 0) n] | None => [] end ++
  writes (FFile TWin 0) (sb_win b) ++
  [OWrite (FFile TData 0) (sb_end b) (sb_data b)] ++
  writes (FFile TIndex 0) (sb_index b) ++
  db_fsync db (sb_info b).

(** wal/file.go:209-211 [del] *)
Definition log_del (l : list Z) : list fop := map (fun id => ORemove (FLog id)) l.

(** wal/file.go:67-103 [put] *)
Definition log_put (id : Z) (head data : bytes) : list fop :=
  [OCreate (FTmp id); OWrite (FTmp id) 0 head; OWrite (FTmp id) (Z.of_nat (length head)) data;
   ORename (FTmp id) (FLog id)].

(** What the database does, in any order: one call or one step of a background
    goroutine each. *)
Inductive fcall :=
| FOpen (fresh : option bytes)           (* db.go:55-216; info written if new *)
| FPut                                   (* db.go:310-, the block in memory only *)
| FGet
| FLogWrite (id : Z) (head data : bytes) (* memdb writes the log of a block *)
| FDelete (info : bytes)                 (* db_internal.go:330-343 *)
| FSync (bs : list sblock)               (* db_sync.go:214-303, no error *)
| FAbort (lens : nat * nat * nat) (win index : list (Z * bytes))
                                         (* db_sync.go:103-121, after an error *)
| FRecover (bs : list sblock)            (* recovery.go, at Open *)
| FClose (info lease : bytes).           (* db_internal.go:122-165 *)

Definition open_types := [TInfo; TWin; TIndex; TData; TLease; TFilter].

Definition f_ops (db : fdb) (c : fcall) : list fop :=
  match c with
  | FOpen fresh =>
      flat_map (fun t => new_file_ops t 1) open_types ++
      match fresh with
      | Some info => OTrunc (FFile TInfo 0) (length info) :: write_info info
      | None => []
      end
  | FPut | FGet => []
  | FLogWrite id h d => log_put id h d
  | FDelete info => if fd_sync_writes db then db_fsync db info else []
  | FSync bs | FRecover bs =>
      flat_map (fun b => sync_block db b ++ log_del (sb_free b)) bs
  | FAbort (w, i, d) wl il =>
      [OTrunc (FFile TWin 0) w] ++ writes (FFile TWin 0) wl ++
      [OTrunc (FFile TIndex 0) i; OTrunc (FFile TData 0) d] ++ writes (FFile TIndex 0) il
  | FClose info lease =>
      write_info info ++ [OTrunc (FFile TLease 0) 0; OWrite (FFile TLease 0) 0 lease]
  end.

Definition f_calls (db : fdb) (cs : list fcall) : list fop := flat_map (f_ops db) cs.

(** db.go:474-477 [FileSize] *)
Definition file_size (db : fdb) (D : fdisk) : Z := fs_size (fd_fs db) D.
