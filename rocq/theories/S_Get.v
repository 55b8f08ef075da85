(** What a Get should give, seen from the messages. *)
From Verif Require Import M_Bytes M_Get.
Open Scope Z_scope.

(** Readers whose answer depends on the message only: [I] holds of the state
    all the time, [val q] is the payload of message [q] if it is to be given. *)
Definition steady {S} (rd : S -> N -> S * outcome) (I : S -> Prop) (val : N -> option bytes) : Prop :=
  forall s q, I s -> (q <> 0)%N ->
    exists s', rd s q = (s', match val q with Some v => OItem v | None => OSkip end) /\ I s'.

(** The payloads of messages, in the order of the messages. *)
Definition payloads (val : N -> option bytes) (qs : list N) : list bytes :=
  flat_map (fun q => match val q with Some v => [v] | None => [] end) qs.

(** Each payload was read for the message at its place. *)
Definition read_of {S} (rd : S -> N -> S * outcome) (q : N) (v : bytes) : Prop :=
  exists s s', rd s q = (s', OItem v).
