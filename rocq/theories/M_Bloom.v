(** Model of filter/bloom.go and filter/filter.go. *)
From Verif Require Import M_Bytes M_Hash.
Open Scope N_scope.

(** filter/bloom.go:20-26 [Filter]; [n] is only a counter and left out. *)
Record bloom := mkBloom {
  f_bits : list N;   (* []uint64 *)
  f_keys : list N;   (* []uint64, random *)
  f_m : N
}.

(** filter/bloom.go:28-40 [newFilter]: the keys come from the random source;
    nil when there are fewer than 2 bits. *)
Definition newFilter (m : N) (random_keys : list N) : option bloom :=
  if m <? 2 then None
  else Some (mkBloom (repeat 0 (N.to_nat ((m + 63) / 64))) random_keys m).

(** filter/bloom.go:71-78 [hash] *)
Definition bloom_hash (f : bloom) (h : N) : list N := map (fun k => N.lxor h k) (f_keys f).

(** filter/bloom.go:86-87: set one bit; the index panic of the Go code cannot
    happen (see P_Bloom), an out of range store changes nothing here. *)
Definition set_bit (m : N) (bits : list N) (i : N) : list N :=
  let i := i mod m in
  let w := N.to_nat (N.shiftr i 6) in
  update bits w (N.lor (nth w bits 0) (N.shiftl 1 (N.land i 0x3f))).

(** filter/bloom.go:81-90 [Add] *)
Definition bloom_add (f : bloom) (h : N) : bloom :=
  mkBloom (fold_left (set_bit (f_m f)) (bloom_hash f h) (f_bits f)) (f_keys f) (f_m f).

(** filter/bloom.go:98-101: test one bit. *)
Definition test_bit (m : N) (bits : list N) (i : N) : bool :=
  let i := i mod m in
  negb (N.land (N.shiftr (nth (N.to_nat (N.shiftr i 6)) bits 0) (N.land i 0x3f)) 1 =? 0).

(** filter/bloom.go:93-104 [Test] *)
Definition bloom_test (f : bloom) (h : N) : bool :=
  forallb (test_bit (f_m f) (f_bits f)) (bloom_hash f h).

(** filter/bloom.go:61-68 [Bytes] *)
Definition bloom_bytes (f : bloom) : bytes :=
  concat (map (le 8) (f_keys f)) ++ concat (map (le 8) (f_bits f)).

(** binary.Read of [n] uint64 values; a short buffer leaves zeros. *)
Fixpoint read_u64s (n : nat) (b : bytes) : list N :=
  match n with
  | O => []
  | S n' => unle (slice b 0 8) :: read_u64s n' (skipn 8 b)
  end.

(** filter/bloom.go:42-58 [newFilterFromBytes] *)
Definition newFilterFromBytes (b : bytes) (m k : N) : option bloom :=
  if m <? 2 then None
  else let nk := N.to_nat k in
       Some (mkBloom (read_u64s (N.to_nat ((m + 63) / 64)) (skipn (8 * nk) b)) (read_u64s nk b) m).

(** filter/filter.go:4-5 *)
Definition bloomHashes : N := 7.
Definition bloomBits : N := 160000.

(** filter/filter.go:39-43 [NewFilterBlock] *)
Definition newFilterBlock (b : bytes) : option bloom := newFilterFromBytes b bloomBits bloomHashes.
