(** Model of leasing.go: the free list of the data file. *)
From Verif Require Import M_Bytes M_Hash.
Open Scope Z_scope.

(** leasing.go:44-47 [_FreeBlock]: int64 offset, uint32 size. *)
Notation fblock := (Z * N)%type.

(** leasing.go:49-53 [_FreeBlocks]; [cache] is a set of offsets. *)
Record shard := mkShard { s_fb : list fblock; s_cache : list Z }.

(** leasing.go:35-42 [_Lease]; the [leases] field is never used.  [l_find] is
    [consistent.FindBlock] (hash/consistent.go), an arbitrary function here. *)
Record lease := mkLease {
  l_blocks : list shard;
  l_size : Z;
  l_min : Z;
  l_find : N -> nat
}.

(** db_internal.go:39 *)
Definition nShards : nat := 27.

(** leasing.go:56-74 [newLease] *)
Definition newLease (find : N -> nat) (min : Z) : lease :=
  mkLease (repeat (mkShard [] []) nShards) 0 min find.

Definition get_shard (l : lease) (i : nat) : option shard := nth_error (l_blocks l) i.
Definition set_shard (l : lease) (i : nat) (s : shard) (size : Z) : lease :=
  mkLease (update (l_blocks l) i s) size (l_min l) (l_find l).

Definition mem_Z (x : Z) (l : list Z) : bool := existsb (Z.eqb x) l.
Definition del_Z (x : Z) (l : list Z) : list Z := filter (fun y => negb (Z.eqb x y)) l.

(** leasing.go:160-171 [freeBlock]; [None] is an index panic. *)
Definition freeBlock (l : lease) (off : Z) (size : N) : option lease :=
  let i := l_find l (to_unsigned 64 off) in
  match get_shard l i with
  | None => None
  | Some s =>
      if mem_Z off (s_cache s) then Some l
      else Some (set_shard l i (mkShard (s_fb s ++ [(off, size)]) (off :: s_cache s))
                           (l_size l + Z.of_N size))
  end.

(** Go's sort.Search(n, f): binary search; [fuel] bounds the loop, [None] when
    it runs out (it does not, see P_Lease). *)
Fixpoint sort_search (fuel : nat) (i j : nat) (f : nat -> bool) : option nat :=
  if Nat.ltb i j
  then match fuel with
       | O => None
       | S fuel' =>
           let h := ((i + j) / 2)%nat in
           if f h then sort_search fuel' i h f else sort_search fuel' (h + 1) j f
       end
  else Some i.

(** leasing.go:115-119 [search] *)
Definition fb_search (fb : list fblock) (size : N) : option nat :=
  sort_search (length fb) 0 (length fb)
    (fun i => match nth_error fb i with Some (_, s) => (size <=? s)%N | None => false end).

Inductive alloc_result :=
| APanic                        (* size 0, or index out of range *)
| ANone                         (* -1: nothing allocated *)
| AOff (off : Z).

(** leasing.go:180-206 [allocate]; uint32 subtraction wraps.  The sentinel -1
    of the code is kept: a block at offset -1 is indistinguishable from "none"
    to the caller, so [AOff (-1)] is not produced by well formed lists only. *)
Definition allocate (l : lease) (size : N) : lease * alloc_result :=
  if (size =? 0)%N then (l, APanic)
  else if l_size l <? l_min l then (l, ANone)
  else let si := l_find l size in
       match get_shard l si with
       | None => (l, APanic)
       | Some s =>
           match fb_search (s_fb s) size with
           | None => (l, APanic)
           | Some i =>
               match nth_error (s_fb s) i with
               | None => (l, ANone)
               | Some (off, bs) =>
                   let fb' := if (bs =? size)%N
                              then firstn i (s_fb s) ++ skipn (S i) (s_fb s)
                              else update (s_fb s) i
                                     (off + Z.of_N size, u32 (bs + 2 ^ 32 - size)) in
                   (set_shard l si (mkShard fb' (del_Z off (s_cache s))) (l_size l - Z.of_N size),
                    AOff off)
               end
           end
       end.

(** Insertion sorts standing for Go's sort.Slice: which of several equal
    elements comes first is unspecified in Go; here the earlier one. *)
Fixpoint insert_by (lt : fblock -> fblock -> bool) (x : fblock) (l : list fblock) : list fblock :=
  match l with
  | [] => [x]
  | y :: r => if lt x y then x :: y :: r else y :: insert_by lt x r
  end.
Definition sort_by (lt : fblock -> fblock -> bool) (l : list fblock) : list fblock :=
  fold_left (fun acc x => insert_by lt x acc) l [].
Definition by_offset (a b : fblock) : bool := fst a <? fst b.
Definition by_size (a b : fblock) : bool := (snd a <? snd b)%N.

(** leasing.go:136-146: the merge loop; returns merged blocks and the offsets
    deleted from the cache.  uint32 sizes wrap. *)
Fixpoint merge_loop (cur : fblock) (rest : list fblock) : list fblock * list Z :=
  match rest with
  | [] => ([cur], [])
  | b :: rest' =>
      if fst cur + Z.of_N (snd cur) =? fst b
      then let '(m, d) := merge_loop (fst cur, u32 (snd cur + snd b)) rest' in (m, fst b :: d)
      else let '(m, d) := merge_loop b rest' in (cur :: m, d)
  end.

(** leasing.go:125-151 [_FreeBlocks.defrag]: the merged blocks are copied over
    the front of the slice, which keeps its length. *)
Definition shard_defrag (s : shard) : shard :=
  if Nat.leb (length (s_fb s)) 1 then s
  else let sorted := sort_by by_offset (s_fb s) in
       match sorted with
       | [] => s
       | b0 :: rest =>
           let '(merged, dels) := merge_loop b0 rest in
           let m := sort_by by_size merged in
           mkShard (m ++ skipn (length m) sorted)
                   (fold_left (fun c o => del_Z o c) dels (s_cache s))
       end.

(** leasing.go:153-158 *)
Definition defrag (l : lease) : lease :=
  mkLease (map shard_defrag (l_blocks l)) (l_size l) (l_min l) (l_find l).

(** leasing.go:77-89 [MarshalBinary] *)
Definition fb_marshal (fb : list fblock) : bytes :=
  le 4 (N.of_nat (length fb)) ++
  concat (map (fun b => le 8 (to_unsigned 64 (fst b)) ++ le 4 (snd b)) fb).

(** leasing.go:92-103 [UnmarshalBinary] on the bytes after the count; blocks
    at offset 0 are dropped.  [None]: index panic on short data. *)
Fixpoint fb_unmarshal (n : nat) (d : bytes) : option (list fblock) :=
  match n with
  | O => Some []
  | S n' =>
      if Nat.ltb (length d) 12 then None
      else match fb_unmarshal n' (skipn 12 d) with
           | None => None
           | Some r =>
               let off := to_signed 64 (unle (slice d 0 8)) in
               if off =? 0 then Some r else Some ((off, unle (slice d 8 4)) :: r)
           end
  end.

(** leasing.go:233-256 [write]: content of the lease file afterwards. *)
Definition lease_write (l : lease) : bytes := fb_marshal (concat (map s_fb (l_blocks l))).

Inductive read_err := RdOk (l : lease) | RdErr | RdPanic.

(** leasing.go:208-231 [read] into [l]; the buffer length [12*size] is computed
    in uint32.  A file shorter than 4 bytes is EOF: nothing read. *)
Definition lease_read (l : lease) (file : bytes) : read_err :=
  if Nat.ltb (length file) 4 then RdOk l
  else let n := unle (slice file 0 4) in
       let buflen := u32 (12 * n) in
       if (N.of_nat (length file) <? 4 + buflen)%N then RdErr
       else match fb_unmarshal (N.to_nat n) (slice file 4 (N.to_nat buflen)) with
            | None => RdPanic
            | Some fb =>
                match fold_left (fun acc b => match acc with
                                              | Some l => freeBlock l (fst b) (snd b)
                                              | None => None
                                              end) fb (Some l) with
                | Some l' => RdOk l'
                | None => RdPanic
                end
            end.
