(** Specification vocabulary for index blocks. *)
From Verif Require Import M_Bytes M_IndexBlock.
Open Scope N_scope.

(** Slot keys of one run of 255. *)
Definition in_run (k : N) (s : ientry) : Prop :=
  x_seq s = 0 \/ 255 * k < x_seq s <= 255 * k + 255.

Definition base_of (b : iblock) : N := match b_entries b with e :: _ => x_seq e | [] => 0 end.

(** A block whose used slots all have keys of run [k]; slot 0 is used unless
    the whole block is unused. *)
Definition block_of_run (k : N) (b : iblock) : Prop :=
  length (b_entries b) = entriesPerIndexBlock /\ Forall ientry_ok (b_entries b) /\
  Forall (in_run k) (b_entries b) /\
  (base_of b = 0 -> Forall (fun s => x_seq s = 0) (b_entries b)) /\
  b_entryIdx b < 2 ^ 16.

(** The used slots of a block have different keys. *)
Definition distinct_keys (b : iblock) : Prop :=
  NoDup (map x_seq (filter (fun s => negb (x_seq s =? 0)) (b_entries b))).
