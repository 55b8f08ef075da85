(** Options of a topic as a user writes them: name=value, with & between them. *)
From Verif Require Import M_Bytes.
Open Scope N_scope.
Definition option_text (o : bytes * bytes) : bytes := fst o ++ [61] ++ snd o.
Fixpoint options_text (os : list (bytes * bytes)) : bytes :=
  match os with
  | [] => []
  | [o] => option_text o
  | o :: r => option_text o ++ [38] ++ options_text r
  end.
(** Names and values are not empty and without ?, & and =. *)
Definition word (w : bytes) : Prop := w <> [] /\ ~ In 63 w /\ ~ In 38 w /\ ~ In 61 w.
Definition words (o : bytes * bytes) : Prop := word (fst o) /\ word (snd o).
