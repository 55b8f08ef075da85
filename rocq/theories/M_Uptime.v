(** Model of the uptime text: meter.go:118-139; memdb/meter.go:91-112 and
    server/internal/monitor.go:95-116 are the same. *)
From Verif Require Import M_Bytes.
Open Scope Z_scope.

(** fmt's %d: the digits of a number in front of [acc]; [fuel] is more than the
    number of digits. *)
Fixpoint dec_loop (fuel : nat) (n : N) (acc : bytes) : bytes :=
  match fuel with
  | O => acc
  | S fuel =>
      let acc := (48 + n mod 10)%N :: acc in
      if (n / 10 =? 0)%N then acc else dec_loop fuel (n / 10)%N acc
  end.
Definition dec (z : Z) : bytes :=
  let digits := dec_loop (S (N.size_nat (Z.abs_N z))) (Z.abs_N z) [] in
  if z <? 0 then 45%N :: digits else digits.

(** meter.go:118-139 [uptime]; [d] in nanoseconds.  Go's quotients and
    remainders are those towards zero. *)
Definition uptime (d : Z) : bytes :=
  let tsecs := Z.quot d 1000000000 in
  let tmins := Z.quot tsecs 60 in
  let thrs := Z.quot tmins 60 in
  let tdays := Z.quot thrs 24 in
  let tyrs := Z.quot tdays 365 in
  if 0 <? tyrs then dec tyrs ++ [121]%N ++ dec (Z.rem tdays 365) ++ [100]%N ++ dec (Z.rem thrs 24) ++ [104]%N ++ dec (Z.rem tmins 60) ++ [109]%N ++ dec (Z.rem tsecs 60) ++ [115]%N
  else if 0 <? tdays then dec tdays ++ [100]%N ++ dec (Z.rem thrs 24) ++ [104]%N ++ dec (Z.rem tmins 60) ++ [109]%N ++ dec (Z.rem tsecs 60) ++ [115]%N
  else if 0 <? thrs then dec thrs ++ [104]%N ++ dec (Z.rem tmins 60) ++ [109]%N ++ dec (Z.rem tsecs 60) ++ [115]%N
  else if 0 <? tmins then dec tmins ++ [109]%N ++ dec (Z.rem tsecs 60) ++ [115]%N
  else dec tsecs ++ [115]%N.
