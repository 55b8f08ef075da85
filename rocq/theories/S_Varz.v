(** What the counters of a database should say. *)
From Verif Require Import M_Bytes M_DB S_DB.
Open Scope N_scope.

(** Puts that were accepted, identifiers handed out, payloads that Gets gave,
    as callers see them. *)
Fixpoint seen (f : dop -> dout -> N) (ops : list dop) (outs : list dout) : N :=
  match ops, outs with o :: ops, x :: outs => f o x + seen f ops outs | _, _ => 0 end.
Definition accepted (o : dop) (x : dout) : N := match o, x with DoPut _ _, ORes DOk => 1 | _, _ => 0 end.
Definition leased (o : dop) (x : dout) : N := match x with OId _ => 1 | _ => 0 end.
Definition shown (o : dop) (x : dout) : N := match x with OGot (QItems l) => N.of_nat (length l) | _ => 0 end.
(** The same with the Gets that give payloads together with an error, and
    deletions as callers see them. *)
Definition shown_all (o : dop) (x : dout) : N := match x with OGot (QItems l) | OGot (QErr l _) => N.of_nat (length l) | _ => 0 end.
Definition deleted (o : dop) (x : dout) : N := match o, x with DoDelete _, ORes DOk => 1 | _, _ => 0 end.

Definition not_open (o : dop) : Prop := match o with DoOpen _ _ _ _ _ => False | _ => True end.
