(** Model of hash/hash.go. *)
From Verif Require Import M_Bytes.
Open Scope N_scope.

(** hash/hash.go:24-25 *)
Definition offset32 : N := 0xcc9e2d51.
Definition prime32 : N := 0x1b873593.

(** hash/hash.go:44: one round in uint32 arithmetic. *)
Definition mix (h c : N) : N := u32 (N.lxor h c * prime32).

(** hash/hash.go:38-60 [New]: eight bytes per iteration of the first loop
    (lines 43-53), then the rest one by one (lines 55-57).  [i] of the code is
    the number of bytes already dropped from the list. *)
Fixpoint hash_loop8 (iters : nat) (h : N) (b : bytes) : N * bytes :=
  match iters with
  | O => (h, b)
  | S k =>
      match b with
      | b0 :: b1 :: b2 :: b3 :: b4 :: b5 :: b6 :: b7 :: rest =>
          let h := mix h b0 in let h := mix h b1 in let h := mix h b2 in
          let h := mix h b3 in let h := mix h b4 in let h := mix h b5 in
          let h := mix h b6 in let h := mix h b7 in
          hash_loop8 k h rest
      | _ => (h, b) (* not reached: there are 8 bytes left per iteration *)
      end
  end.

Definition hash_new (b : bytes) : N :=
  let '(h, rest) := hash_loop8 (length b / 8) offset32 b in
  fold_left mix rest h.

(** Swap of two elements, hash.go:74. *)
Definition update {A} (l : list A) (i : nat) (x : A) : list A :=
  firstn i l ++ match skipn i l with [] => [] | _ :: r => x :: r end.
Definition swap {A} (l : list A) (i j : nat) : list A :=
  match nth_error l i, nth_error l j with
  | Some a, Some b => update (update l i b) j a
  | _, _ => l (* index out of range: not reached, see shuffle *)
  end.

(** hash/hash.go:71-76: the loop of [shuffleInPlace]; [i] counts down to 1.
    [p] is an int that grows by at most 255 per iteration; no overflow. *)
Fixpoint shuffle_loop (i : nat) (v : nat) (p : N) (salt : bytes) (l : bytes) : bytes :=
  match i with
  | O => l
  | S i' =>
      let s := nth v salt 0 in
      let p := p + s in
      let j := N.to_nat ((s + N.of_nat v + p) mod N.of_nat i) in
      shuffle_loop i' ((v + 1) mod 4)%nat p salt (swap l i j)
  end.

(** hash/hash.go:63-78 [shuffleInPlace]; works on a copy of the text. *)
Definition shuffle (text : bytes) (contract : N) : bytes :=
  if contract =? 0 then text
  else shuffle_loop (length text - 1) 0 0 (le 4 contract) text.

(** hash/hash.go:32-35 [WithSalt] *)
Definition hash_salt (text : bytes) (salt : N) : N := hash_new (shuffle text salt).
