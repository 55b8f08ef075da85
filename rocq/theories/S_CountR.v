(** The book of S_Count over restarts. *)
From Verif Require Import M_Bytes S_Session S_Restart S_Count.
Open Scope Z_scope.

(** Open writes whatever was left in the log, so that every message is written
    then; its slot is of no more use. *)
Definition keep_rbook (d : Z) (b : book) (o : rop) : book :=
  match o with
  | RDo o => keep_book d b o
  | RRestart _ now _ _ _ => mkBook (now - now mod d) [] [] (map (fun x => (0, true, snd x)) (bk_all b))
  end.
Definition rbook_of (d t : Z) (ops : list rop) : book := fold_left (keep_rbook d) ops (mkBook (t - t mod d) [] [] []).
