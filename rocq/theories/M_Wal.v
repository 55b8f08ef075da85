(** Model of the write-ahead log: wal/writer.go, wal/reader.go, wal/header.go,
    wal/file.go, wal/wal.go.  A directory is a list of named files ordered by
    modification time, oldest first; wal/file.go:168 sorts by it.  Decimal
    file names are modelled by their numbers. *)
From Verif Require Import M_Bytes M_File.
Open Scope N_scope.

(** wal/header.go:27-34 *)
Record loginfo := mkLI { li_version : N; li_timeID : Z; li_count : N; li_size : N }.
Definition li_zero : loginfo := mkLI 0 0 0 0.
Definition logHeaderSize : nat := 18.

(** wal/header.go:37-45 *)
Definition li_marshal (l : loginfo) : bytes :=
  le 2 (li_version l) ++ le 8 (to_unsigned 64 (li_timeID l)) ++ le 4 (li_count l) ++ le 4 (li_size l).
(** wal/header.go:48-55; the caller passes 18 bytes. *)
Definition li_unmarshal (d : bytes) : loginfo :=
  mkLI (unle (slice d 0 2)) (to_signed 64 (unle (slice d 2 8))) (unle (slice d 10 4)) (unle (slice d 14 4)).

(** wal/writer.go:29-45; the two flags only make later calls fail. *)
Record lwriter := mkLW { lw_count : N; lw_buf : bytes; lw_size : N }.
Definition newWriter : lwriter := mkLW 0 [] 0.

(** wal/writer.go:62-83 [append] *)
Definition lw_append (w : lwriter) (data : bytes) : lwriter :=
  match data with
  | [] => w
  | _ => let dataLen := u32 (N.of_nat (length data) + 4) in
         mkLW (u32 (lw_count w + 1)) (lw_buf w ++ le 4 dataLen ++ data) (u32 (lw_size w + dataLen))
  end.

(** Files of the log directory. *)
Inductive fname := FLog (id : Z) | FTmp (id : Z) | FCorrupt (id : Z) | FOther (k : N).
Definition fname_eqb (a b : fname) : bool :=
  match a, b with
  | FLog x, FLog y => (x =? y)%Z
  | FTmp x, FTmp y => (x =? y)%Z
  | FCorrupt x, FCorrupt y => (x =? y)%Z
  | FOther x, FOther y => x =? y
  | _, _ => false
  end.
Definition dir := list (fname * bytes).
Fixpoint dget (d : dir) (n : fname) : option bytes :=
  match d with
  | [] => None
  | (m, c) :: r => if fname_eqb n m then Some c else dget r n
  end.
Definition ddel (d : dir) (n : fname) : dir := filter (fun f => negb (fname_eqb n (fst f))) d.
(** A file that is written becomes the newest. *)
Definition dset (d : dir) (n : fname) (c : bytes) : dir := ddel d n ++ [(n, c)].

(** System calls of wal/file.go:70-102 [put]. *)
Inductive fop := OCreate (n : fname) | OWriteAt (n : fname) (off : Z) (b : bytes) | ORename (a b : fname).
Definition apply_op (d : dir) (o : fop) : dir :=
  match o with
  | OCreate n => dset d n []
  | OWriteAt n off b =>
      match dget d n with
      | None => d
      | Some c => match write_at c off b with None => d | Some c' => dset d n c' end
      end
  | ORename a b =>                      (* keeps the modification time of [a] *)
      match dget d a with
      | None => d
      | Some c => map (fun f => if fname_eqb a (fst f) then (b, snd f) else f) (ddel d b)
      end
  end.
Definition put_ops (info : loginfo) (data : bytes) : list fop :=
  let id := li_timeID info in
  [OCreate (FTmp id); OWriteAt (FTmp id) 0 (li_marshal info);
   OWriteAt (FTmp id) 18 data; ORename (FTmp id) (FLog id)].

(** wal/writer.go:102-131 [writeLog], wal/wal.go:107-113 [put]. *)
Definition log_ops (w : lwriter) (timeID : Z) : list fop :=
  if lw_size w =? 0 then []
  else put_ops (mkLI 1 timeID (lw_count w) (lw_size w)) (lw_buf w).
Definition writeLog (d : dir) (w : lwriter) (timeID : Z) : dir := fold_left apply_op (log_ops w timeID) d.

(** wal/file.go:105-151 [read].  The buffer is extended by [size] zero bytes
    and filled with what the file has; a short file is renamed, but its header
    and the bytes read are used all the same. *)
Definition read_log (d : dir) (timeID : Z) : loginfo * bytes * bool :=
  match dget d (FLog timeID) with
  | None => (li_zero, [], false)
  | Some f =>
      match read_at f 0 logHeaderSize with
      | None => (li_zero, [], true)
      | Some h =>
          let info := li_unmarshal h in
          let size := N.to_nat (li_size info) in
          let got := slice f logHeaderSize size in
          (info, got ++ repeat 0 (size - length got), Nat.ltb (length got) size)
      end
  end.

(** wal/reader.go:78-93 [Next] as a loop: all records until the end or an
    error.  bpool.Buffer.Slice is taken to fail when the end is past the
    buffer or before the start; line 83 drops the error of the first slice
    and reads four bytes of a nil slice. *)
Inductive endstate := EndOk | EndErr | EndPanic.
Fixpoint read_records (n : nat) (buf : bytes) (off : nat) : list bytes * endstate :=
  match n with
  | O => ([], EndOk)
  | S n' =>
      if Nat.ltb (length buf) (off + 4) then ([], EndPanic)
      else let dataLen := N.to_nat (unle (slice buf off 4)) in
           if (Nat.ltb dataLen 4 || Nat.ltb (length buf) (off + dataLen))%bool then ([], EndErr)
           else let (rs, e) := read_records n' buf (off + dataLen) in
                (slice buf (off + 4) (dataLen - 4) :: rs, e)
  end.

(** wal/file.go:154-187 [all] *)
Definition all_ids (d : dir) : list Z :=
  flat_map (fun f => match fst f with FLog id => [id] | _ => [] end) d.

(** wal/reader.go:50-69 [Iterator] with a callback that reads every record.
    Reading renames only the log read, and names are unique. *)
Definition replay (d : dir) : list (Z * (list bytes * endstate)) :=
  map (fun id => match read_log d id with
                 | (info, buf, _) => (id, read_records (N.to_nat (li_count info)) buf 0)
                 end) (all_ids d).

(** wal/file.go:190-205 [del] *)
Definition del_log (d : dir) (timeID : Z) : dir := ddel d (FLog timeID).
