(** Model of encoding/encoding.go, base8.go and base32.go.  The expression lists
    are the right hand sides of the Go assignments, in order. *)
From Verif Require Import M_Bytes.
Open Scope N_scope.

(** encoding/encoding.go:5: the alphabet, as character codes
    "A".."Z" "a".."z" "0".."9" "-" "_". *)
Definition alphabet : bytes :=
  map N.of_nat (seq 65 26 ++ seq 97 26 ++ seq 48 10 ++ [45%nat; 95%nat]).

(** Indexing the alphabet; an index above 63 would panic in Go. *)
Definition enc_char (i : N) : N := nth (N.to_nat i) alphabet 0.

Fixpoint index_of (c : N) (l : bytes) (i : N) : N :=
  match l with
  | [] => 0xFF
  | x :: l' => if x =? c then i else index_of c l' (i + 1)
  end.
(** encoding/base8.go:3-10: the table filled by [init]. *)
Definition dec_char (c : N) : N := index_of c alphabet 0.

(** uint8 shifts: bits shifted out on the left are lost. *)
Definition shl (x k : N) : N := u8 (N.shiftl x k).
Definition shr (x k : N) : N := N.shiftr x k.

(** encoding/base8.go:13-27 [Encode8] for an 8 byte slice *)
Definition encode8 (id : bytes) : bytes :=
  let g i := nth i id 0 in
  map enc_char
  [ shr (g 0%nat) 3
  ; N.lor (N.land (shr (g 1%nat) 6) 31) (N.land (shl (g 0%nat) 2) 31)
  ; N.land (shr (g 1%nat) 1) 31
  ; N.lor (N.land (shr (g 2%nat) 4) 31) (N.land (shl (g 1%nat) 4) 31)
  ; N.lor (shr (g 3%nat) 7) (N.land (shl (g 2%nat) 1) 31)
  ; N.land (shr (g 3%nat) 2) 31
  ; N.lor (shr (g 4%nat) 5) (N.land (shl (g 3%nat) 3) 31)
  ; N.land (g 4%nat) 31
  ; shr (g 5%nat) 3
  ; N.lor (N.land (shr (g 6%nat) 6) 31) (N.land (shl (g 5%nat) 2) 31)
  ; N.land (shr (g 6%nat) 1) 31
  ; N.lor (N.land (shr (g 7%nat) 4) 31) (N.land (shl (g 6%nat) 4) 31)
  ; N.land (shl (g 7%nat) 1) 31 ].

(** encoding/base8.go:30-39 [Decode8] for a 13 byte slice *)
Definition decode8 (src : bytes) : bytes :=
  let d i := dec_char (nth i src 0) in
  [ N.lor (shl (d 0%nat) 3) (shr (d 1%nat) 2)
  ; N.lor (N.lor (shl (d 1%nat) 6) (shl (d 2%nat) 1)) (shr (d 3%nat) 4)
  ; N.lor (shl (d 3%nat) 4) (shr (d 4%nat) 1)
  ; N.lor (N.lor (shl (d 4%nat) 7) (shl (d 5%nat) 2)) (shr (d 6%nat) 3)
  ; N.lor (shl (d 6%nat) 5) (d 7%nat)
  ; N.lor (shl (d 8%nat) 3) (shr (d 9%nat) 2)
  ; N.lor (N.lor (shl (d 9%nat) 6) (shl (d 10%nat) 1)) (shr (d 11%nat) 4)
  ; N.lor (shl (d 11%nat) 4) (shr (d 12%nat) 1) ].

(** encoding/base32.go:13-66 [Encode32] for a 32 byte slice *)
Definition encode32 (id : bytes) : bytes :=
  let g i := nth i id 0 in
  map enc_char
  [ shr (g 0%nat) 3
  ; N.lor (N.land (shr (g 1%nat) 6) 31) (N.land (shl (g 0%nat) 2) 31)
  ; N.land (shr (g 1%nat) 1) 31
  ; N.lor (N.land (shr (g 2%nat) 4) 31) (N.land (shl (g 1%nat) 4) 31)
  ; N.lor (shr (g 3%nat) 7) (N.land (shl (g 2%nat) 1) 31)
  ; N.land (shr (g 3%nat) 2) 31
  ; N.lor (shr (g 4%nat) 5) (N.land (shl (g 3%nat) 3) 31)
  ; N.land (g 4%nat) 31
  ; shr (g 5%nat) 3
  ; N.lor (N.land (shr (g 6%nat) 6) 31) (N.land (shl (g 5%nat) 2) 31)
  ; N.land (shr (g 6%nat) 1) 31
  ; N.lor (N.land (shr (g 7%nat) 4) 31) (N.land (shl (g 6%nat) 4) 31)
  ; N.lor (shr (g 8%nat) 7) (N.land (shl (g 7%nat) 1) 31)
  ; N.land (shr (g 8%nat) 2) 31
  ; N.lor (shr (g 9%nat) 5) (N.land (shl (g 8%nat) 3) 31)
  ; N.land (g 9%nat) 31
  ; shr (g 10%nat) 3
  ; N.lor (N.land (shr (g 11%nat) 6) 31) (N.land (shl (g 10%nat) 2) 31)
  ; N.land (shr (g 11%nat) 1) 31
  ; N.lor (N.land (shr (g 12%nat) 4) 31) (N.land (shl (g 11%nat) 4) 31)
  ; N.lor (shr (g 13%nat) 7) (N.land (shl (g 12%nat) 1) 31)
  ; N.land (shr (g 13%nat) 2) 31
  ; N.lor (shr (g 14%nat) 5) (N.land (shl (g 13%nat) 3) 31)
  ; N.land (g 14%nat) 31
  ; shr (g 15%nat) 3
  ; N.lor (N.land (shr (g 16%nat) 6) 31) (N.land (shl (g 15%nat) 2) 31)
  ; N.land (shr (g 16%nat) 1) 31
  ; N.lor (N.land (shr (g 17%nat) 4) 31) (N.land (shl (g 16%nat) 4) 31)
  ; N.lor (shr (g 18%nat) 7) (N.land (shl (g 17%nat) 1) 31)
  ; N.land (shr (g 18%nat) 2) 31
  ; N.lor (shr (g 19%nat) 5) (N.land (shl (g 18%nat) 3) 31)
  ; N.land (g 19%nat) 31
  ; shr (g 20%nat) 3
  ; N.lor (N.land (shr (g 21%nat) 6) 31) (N.land (shl (g 20%nat) 2) 31)
  ; N.land (shr (g 21%nat) 1) 31
  ; N.lor (N.land (shr (g 22%nat) 4) 31) (N.land (shl (g 21%nat) 4) 31)
  ; N.lor (shr (g 23%nat) 7) (N.land (shl (g 22%nat) 1) 31)
  ; N.land (shr (g 23%nat) 2) 31
  ; N.lor (shr (g 24%nat) 5) (N.land (shl (g 23%nat) 3) 31)
  ; N.land (g 24%nat) 31
  ; shr (g 25%nat) 3
  ; N.lor (N.land (shr (g 26%nat) 6) 31) (N.land (shl (g 25%nat) 2) 31)
  ; N.land (shr (g 26%nat) 1) 31
  ; N.lor (N.land (shr (g 27%nat) 4) 31) (N.land (shl (g 26%nat) 4) 31)
  ; N.lor (shr (g 28%nat) 7) (N.land (shl (g 27%nat) 1) 31)
  ; N.land (shr (g 28%nat) 2) 31
  ; N.lor (shr (g 29%nat) 5) (N.land (shl (g 28%nat) 3) 31)
  ; N.land (g 29%nat) 31
  ; shr (g 30%nat) 3
  ; N.lor (N.land (shr (g 31%nat) 6) 31) (N.land (shl (g 30%nat) 2) 31)
  ; N.land (shr (g 31%nat) 1) 31
  ; N.land (shl (g 31%nat) 4) 31 ].

(** encoding/base32.go:69-102 [Decode32] for a 52 byte slice *)
Definition decode32 (src : bytes) : bytes :=
  let d i := dec_char (nth i src 0) in
  [ N.lor (shl (d 0%nat) 3) (shr (d 1%nat) 2)
  ; N.lor (N.lor (shl (d 1%nat) 6) (shl (d 2%nat) 1)) (shr (d 3%nat) 4)
  ; N.lor (shl (d 3%nat) 4) (shr (d 4%nat) 1)
  ; N.lor (N.lor (shl (d 4%nat) 7) (shl (d 5%nat) 2)) (shr (d 6%nat) 3)
  ; N.lor (shl (d 6%nat) 5) (d 7%nat)
  ; N.lor (shl (d 8%nat) 3) (shr (d 9%nat) 2)
  ; N.lor (N.lor (shl (d 9%nat) 6) (shl (d 10%nat) 1)) (shr (d 11%nat) 4)
  ; N.lor (shl (d 11%nat) 4) (shr (d 12%nat) 1)
  ; N.lor (N.lor (shl (d 12%nat) 7) (shl (d 13%nat) 2)) (shr (d 14%nat) 3)
  ; N.lor (shl (d 14%nat) 5) (d 15%nat)
  ; N.lor (shl (d 16%nat) 3) (shr (d 17%nat) 2)
  ; N.lor (N.lor (shl (d 17%nat) 6) (shl (d 18%nat) 1)) (shr (d 19%nat) 4)
  ; N.lor (shl (d 19%nat) 4) (shr (d 20%nat) 1)
  ; N.lor (N.lor (shl (d 20%nat) 7) (shl (d 21%nat) 2)) (shr (d 22%nat) 3)
  ; N.lor (shl (d 22%nat) 5) (d 23%nat)
  ; N.lor (shl (d 24%nat) 3) (shr (d 25%nat) 2)
  ; N.lor (N.lor (shl (d 25%nat) 6) (shl (d 26%nat) 1)) (shr (d 27%nat) 4)
  ; N.lor (shl (d 27%nat) 4) (shr (d 28%nat) 1)
  ; N.lor (N.lor (shl (d 28%nat) 7) (shl (d 29%nat) 2)) (shr (d 30%nat) 3)
  ; N.lor (shl (d 30%nat) 5) (d 31%nat)
  ; N.lor (shl (d 32%nat) 3) (shr (d 33%nat) 2)
  ; N.lor (N.lor (shl (d 33%nat) 6) (shl (d 34%nat) 1)) (shr (d 35%nat) 4)
  ; N.lor (shl (d 35%nat) 4) (shr (d 36%nat) 1)
  ; N.lor (N.lor (shl (d 36%nat) 7) (shl (d 37%nat) 2)) (shr (d 38%nat) 3)
  ; N.lor (shl (d 38%nat) 5) (d 39%nat)
  ; N.lor (shl (d 40%nat) 3) (shr (d 41%nat) 2)
  ; N.lor (N.lor (shl (d 41%nat) 6) (shl (d 42%nat) 1)) (shr (d 43%nat) 4)
  ; N.lor (shl (d 43%nat) 4) (shr (d 44%nat) 1)
  ; N.lor (N.lor (shl (d 44%nat) 7) (shl (d 45%nat) 2)) (shr (d 46%nat) 3)
  ; N.lor (shl (d 46%nat) 5) (d 47%nat)
  ; N.lor (shl (d 48%nat) 3) (shr (d 49%nat) 2)
  ; N.lor (N.lor (shl (d 49%nat) 6) (shl (d 50%nat) 1)) (shr (d 51%nat) 4) ].

