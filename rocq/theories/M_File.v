(** Files as byte strings: the parts of os.File and file.go used by the block
    writer and reader.  Every call succeeds except reads past the end. *)
From Verif Require Import M_Bytes.
Open Scope Z_scope.

Definition fsize (f : bytes) : Z := Z.of_nat (length f).

(** os.File.WriteAt: error for a negative offset; a gap is filled with zeros. *)
Definition write_at (f : bytes) (off : Z) (d : bytes) : option bytes :=
  if off <? 0 then None
  else let o := Z.to_nat off in
       match d with
       | [] => Some f
       | _ => let g := f ++ repeat 0%N (o - length f) in
              Some (firstn o g ++ d ++ skipn (o + length d) g)
       end.

(** os.File.ReadAt of [n] bytes; a short read is an error.  file.go:156-160
    [slice] panics for a negative length, which no caller here produces. *)
Definition read_at (f : bytes) (off : Z) (n : nat) : option bytes :=
  if off <? 0 then None
  else if Nat.ltb (length f) (Z.to_nat off + n) then None
  else Some (slice f (Z.to_nat off) n).

(** os.File.Truncate *)
Definition truncate (f : bytes) (size : nat) : bytes :=
  firstn size f ++ repeat 0%N (size - length f).

(** file.go:162-169 [write]: append at the tracked size, which equals the real
    size here (currSize refreshes it, file.go:189-193). *)
Definition file_append (f d : bytes) : bytes := f ++ d.
