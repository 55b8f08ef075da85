(** Model of the percentiles and of the means of the longest and shortest 5% of
    a sample, metrics/sample.go:263-265, 280-312 (and the server copy), with
    float64 as in Coq's SpecFloat: each operation rounds to nearest even.  A
    product and a sum are rounded one after the other, as on amd64. *)
From Verif Require Import M_Bytes M_Sample.
From Coq Require Import SpecFloat.
Open Scope Z_scope.

(** float64(z) *)
Definition f64_of (z : Z) : spec_float := binary_normalize 53 1024 z 0 false.
(** The constant a/b, e.g. 0.95. *)
Definition f64_ratio (a b : Z) : spec_float := SFdiv 53 1024 (f64_of a) (f64_of b).
(** int(x); [None] for what Go leaves open. *)
Definition f64_int (x : spec_float) : option Z :=
  match x with
  | S754_zero _ => Some 0
  | S754_finite neg m e =>
      let v := if 0 <=? e then Zpos m * 2 ^ e else Zpos m / 2 ^ (- e) in
      Some (if neg then - v else v)
  | _ => None
  end.
(** int(float64(n)*p+0.5) *)
Definition rank (a b : Z) (n : nat) : option Z :=
  f64_int (SFadd 53 1024 (SFmul 53 1024 (f64_of (Z.of_nat n)) (f64_ratio a b)) (f64_ratio 1 2)).

(** sample.go:263-265 [p]; [None] is a panic. *)
Definition ts_p (a b : Z) (ts : list Z) : option Z :=
  match rank a b (length ts) with
  | Some k => if k - 1 <? 0 then None else nth_error ts (Z.to_nat (k - 1))
  | None => None
  end.
(** sample.go:287-294, 304-311 *)
Definition ts_mean (set : list Z) : Z := Z.quot (ts_cumulative set) (Z.of_nat (length set)).
(** sample.go:280-295 [long5p] *)
Definition ts_long5p (ts : list Z) : option Z :=
  match rank 95 100 (length ts) with
  | Some k => if (k <? 0) || (Z.of_nat (length ts) <? k) then None
              else let set := skipn (Z.to_nat k) ts in
                   if (length set <=? 1)%nat then ts_max ts else Some (ts_mean set)
  | None => None
  end.
(** sample.go:297-312 [short5p] *)
Definition ts_short5p (ts : list Z) : option Z :=
  match rank 5 100 (length ts) with
  | Some k => if (k <? 0) || (Z.of_nat (length ts) <? k) then None
              else let set := firstn (Z.to_nat k) ts in
                   if (length set <=? 1)%nat then ts_min ts else Some (ts_mean set)
  | None => None
  end.
