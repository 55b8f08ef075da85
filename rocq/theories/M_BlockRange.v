(** Model of block_writer.go:260-289 [blockRange]. *)
From Verif Require Import M_Bytes.
Open Scope Z_scope.

Definition i32 (z : Z) : Z := to_signed 32 (to_unsigned 32 z).

(** block_writer.go:267-269: how many further elements continue the run that
    ends with [prev] (the code's n2 - n1 - 1). *)
Fixpoint run_more (prev : Z) (l : list Z) : nat :=
  match l with
  | [] => O
  | x :: r => if x =? i32 (prev + 1) then S (run_more x r) else O
  end.

(** block_writer.go:265-287: the loop; [acc] is [parts].  [None] is the error
    return.  [l] is idx[n1:]. *)
Fixpoint range_loop (fuel : nat) (l : list Z) (acc : list (list Z)) : option (list (list Z)) :=
  match fuel, l with
  | O, _ => None
  | _, [] => None                                   (* idx[n1] out of range *)
  | S fuel', a :: r =>
      let m := run_more a r in                      (* n2 = n1 + 1 + m *)
      let last := nth m (a :: r) 0 in               (* idx[n2-1] *)
      let acc := if Nat.eqb m 1 then acc ++ [[last]] ++ [[a]]
                 else if Nat.leb 2 m then acc ++ [[a; last]]
                 else acc ++ [[a]] in
      match skipn m r with
      | [] => Some acc
      | x :: r' => if x =? last then None
                   else if x <? last then None
                   else range_loop fuel' (x :: r') acc
      end
  end.

Definition blockRange (idx : list Z) : option (list (list Z)) :=
  match idx with
  | [] => Some []
  | _ => range_loop (length idx) idx []
  end.
