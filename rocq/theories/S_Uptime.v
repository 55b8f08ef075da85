(** Reading an uptime, as a person does: numbers, each with a unit. *)
From Verif Require Import M_Bytes.
Open Scope Z_scope.

Inductive tunit := Years | Days | Hours | Minutes | Seconds.
(** y, d, h, m, s *)
Definition unit_of (b : N) : option tunit :=
  if (b =? 121)%N then Some Years else if (b =? 100)%N then Some Days else if (b =? 104)%N then Some Hours
  else if (b =? 109)%N then Some Minutes else if (b =? 115)%N then Some Seconds else None.
Definition seconds (u : tunit) : Z :=
  match u with Years => 365 * 24 * 60 * 60 | Days => 24 * 60 * 60 | Hours => 60 * 60 | Minutes => 60 | Seconds => 1 end.

(** [cur] is the number before the unit; there must be one. *)
Fixpoint read_parts (cur : option Z) (txt : bytes) : option (list (Z * tunit)) :=
  match txt with
  | [] => match cur with None => Some [] | Some _ => None end
  | b :: r =>
      if ((48 <=? b) && (b <=? 57))%N%bool
      then read_parts (Some (match cur with Some n => n | None => 0 end * 10 + Z.of_N (b - 48))) r
      else match unit_of b, cur with
           | Some u, Some n => match read_parts None r with Some ps => Some ((n, u) :: ps) | None => None end
           | _, _ => None
           end
  end.
Definition length_of (ps : list (Z * tunit)) : Z := fold_right (fun p t => fst p * seconds (snd p) + t) 0 ps.

(** The units from some unit down to seconds, none left out; the first number is
    not zero, but for seconds alone; no number is as much as one of the unit
    before. *)
Definition below (u : tunit) : option (tunit * Z) :=
  match u with Years => Some (Days, 365) | Days => Some (Hours, 24) | Hours => Some (Minutes, 60) | Minutes => Some (Seconds, 60) | Seconds => None end.
Fixpoint carried (u : tunit) (ps : list (Z * tunit)) : Prop :=
  match ps, below u with
  | [], None => True
  | (n, v) :: r, Some (w, most) => v = w /\ 0 <= n < most /\ carried v r
  | _, _ => False
  end.
Definition proper (ps : list (Z * tunit)) : Prop :=
  match ps with
  | [] => False
  | (n, u) :: r =>
      0 <= n /\ (u <> Seconds -> 0 < n) /\
      match u with Years => True | Days => n < 365 | Hours => n < 24 | Minutes => n < 60 | Seconds => n < 60 end /\
      carried u r
  end.
