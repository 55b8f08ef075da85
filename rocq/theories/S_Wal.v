(** What the log promises. *)
From Verif Require Import M_Bytes M_Wal.
Open Scope N_scope.

(** Size of the records in the log file. *)
Definition records_size (rs : list bytes) : N := fold_right (fun r a => N.of_nat (length r) + 4 + a) 0 rs.

(** A list of non-empty records that fits a log. *)
Definition log_ok (id : Z) (rs : list bytes) : Prop :=
  (- 2 ^ 63 <= id < 2 ^ 63)%Z /\ rs <> [] /\ Forall (fun r => r <> []) rs /\
  records_size rs < 2 ^ 32.

(** One log of these records written to a directory. *)
Definition write_records (d : dir) (id : Z) (rs : list bytes) : dir :=
  writeLog d (fold_left lw_append rs newWriter) id.

(** States of the directory when the process dies while the calls [ops] run:
    some calls are done, the next one, if a write, to some part. *)
Inductive crashed : dir -> list fop -> dir -> Prop :=
| cr_now d ops : crashed d ops d
| cr_part d n off b k ops : crashed d (OWriteAt n off b :: ops) (apply_op d (OWriteAt n off (firstn k b)))
| cr_step d o ops d' : crashed (apply_op d o) ops d' -> crashed d (o :: ops) d'.
