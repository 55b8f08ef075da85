(** Specifications for the packets of the server (C88, C89). *)
From Verif Require Import M_Bytes M_Wire M_Proto.
Open Scope N_scope.

(** The values of Go's int32 *)
Definition in32 (z : Z) : Prop := (- 2 ^ 31 <= z < 2 ^ 31)%Z.
Definition subscription_ok (s : subscr) : Prop := su_mode s < 2 ^ 8 /\ in32 (su_delay s).
(** Packets a reader can be expected to get back: the fields have values of
    their Go types, a disconnect has no message identifier, and a control
    message is one of those in use, except the acknowledgement of a ping. *)
Definition sent (p : pack) : Prop :=
  match p with
  | PConnect c => in32 (co_version c) /\ in32 (co_alive c) /\ in32 (co_key c) /\ in32 (co_dur c) /\ in32 (co_bytes c) /\ in32 (co_count c)
  | PPublish p => pu_id p < 2 ^ 16 /\ pu_mode p < 2 ^ 8
  | PRelay r => re_id r < 2 ^ 16
  | PSubscribe s | PUnsubscribe s => sb_id s < 2 ^ 16 /\ Forall subscription_ok (sb_subs s)
  | PPing => True
  | PDisconnect id => id = 0
  | PControl c => ct_id c < 2 ^ 16 /\
      (ct_flow c = 1 /\ 1 <= ct_type c <= 5 \/ 2 <= ct_flow c <= 5 /\ ct_type c = PUBLISH)
  end.
(** The strings of a packet *)
Definition strings (p : pack) : list bytes :=
  match p with
  | PConnect c => [co_client c; co_user c]
  | PPublish p => flat_map (fun m => [pm_top m; pm_ttl m]) (pu_msgs p)
  | PRelay r => flat_map (fun q => [rr_topic q; rr_last q]) (re_reqs r)
  | PSubscribe s | PUnsubscribe s => map su_topic (sb_subs s)
  | _ => []
  end.
(** UTF-8: the characters (without the surrogates), their bytes, texts *)
Definition scalar (c : N) : Prop := c < 0xD800 \/ (0xE000 <= c /\ c < 0x110000).
Definition utf8_of (c : N) : bytes :=
  if c <? 0x80 then [c]
  else if c <? 0x800 then [0xC0 + c / 64; 0x80 + c mod 64]
  else if c <? 0x10000 then [0xE0 + c / 4096; 0x80 + c / 64 mod 64; 0x80 + c mod 64]
  else [0xF0 + c / 262144; 0x80 + c / 4096 mod 64; 0x80 + c / 64 mod 64; 0x80 + c mod 64].
Definition text (b : bytes) : Prop := exists cs, Forall scalar cs /\ b = flat_map utf8_of cs.
(** The bytes of a sequence of packets, each shorter than 2^31. *)
Inductive written : list pack -> bytes -> Prop :=
| written_nil : written [] []
| written_cons p b ps bs : sent p -> to_binary p = Some b -> N.of_nat (length b) < 2 ^ 31 -> written ps bs ->
    written (p :: ps) (b ++ bs).
