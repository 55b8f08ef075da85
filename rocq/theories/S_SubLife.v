(** How long a subscription lasts. *)
From Verif Require Import M_Bytes M_Keys M_Conn S_Conn.
Open Scope N_scope.

(** The requests for subscriptions in a run. *)
Definition asked_subs (ev : event) : N := match ev with EPacket _ (QSub l _) => N.of_nat (length l) | _ => 0 end.
Definition asked_all (es : list event) : N := fold_right (fun ev n => asked_subs ev + n) 0 es.

(** What may end the subscriptions of connection [c]: that it unsubscribes, breaks,
    is refused at CONNECT, or asks for a message that does not exist. *)
Definition ends (c : N) (ev : event) : bool :=
  match ev with
  | ELost c' => c' =? c
  | EPacket c' q => (c' =? c) && match q with QUnsub _ _ => true | QConnect (CRefused _) _ _ _ => true | QFlow _ flow _ => flow =? fRECEIVE | _ => false end
  | _ => false
  end.

(** A run in which connection [c] is accepted once, with a number that no stored
    subscription has. *)
Definition accepts (ev : event) : N := match ev with EAccept => 1 | _ => 0 end.
Definition accepts_all (es : list event) : N := fold_right (fun ev n => accepts ev + n) 0 es.
Definition no_restart (ev : event) : Prop := match ev with ERestart _ => False | _ => True end.
(** It connects, if several times, with the same contract. *)
Definition one_contract (c contract : N) (ev : event) : Prop :=
  match ev with EPacket c' (QConnect (CAccepted id _) _ _ _) => c' = c -> id_contract id = contract | _ => True end.
