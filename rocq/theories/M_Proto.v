(** Model of the packets of the server: server/utp/*.go with the messages of
    server/proto/unitdb.proto, and server/internal/net/message.go on top of the
    framing of M_Wire.

    The protobuf library (golang/protobuf v1.5.2 over protobuf-go) is outside
    the repository; what follows up to [pdecode] is its wire format: a message
    is a sequence of fields, a field a tag and a value. *)
From Verif Require Import M_Bytes M_Wire.
Open Scope N_scope.

(** ** Protobuf *)
(** Variable length integers of 64 bits; the tenth byte is 0 or 1. *)
Fixpoint pv_enc (k : nat) (n : N) : bytes :=
  match k with
  | O => []
  | S k => if n <? 128 then [n] else (n mod 128 + 128) :: pv_enc k (n / 128)
  end.
Fixpoint pv_dec (k : nat) (b : bytes) : option (N * bytes) :=
  match k with
  | O => None
  | S k' => match b with
            | [] => None
            | d :: r => if d <? 128 then (match k' with O => if 1 <? d then None else Some (d, r) | _ => Some (d, r) end)
                        else match pv_dec k' r with
                             | Some (v, r') => Some (d - 128 + 128 * v, r')
                             | None => None
                             end
            end
  end.
Definition varint (n : N) : bytes := pv_enc 10 n.
Definition unvarint (b : bytes) : option (N * bytes) := pv_dec 10 b.

(** Values by wire type: 0, 2, and the others, which no message of the server uses *)
Inductive wval := VInt (n : N) | VBytes (b : bytes) | VOther.
Definition take (n : N) (b : bytes) : option (bytes * bytes) :=
  if N.of_nat (length b) <? n then None else Some (firstn (N.to_nat n) b, skipn (N.to_nat n) b).
Definition plain_dec (wt : N) (b : bytes) : option (wval * bytes) :=
  if wt =? 0 then match unvarint b with Some (v, r) => Some (VInt v, r) | None => None end
  else if wt =? 1 then match take 8 b with Some (_, r) => Some (VOther, r) | None => None end
  else if wt =? 2 then match unvarint b with
                       | Some (n, r) => match take n r with Some (x, r') => Some (VBytes x, r') | None => None end
                       | None => None
                       end
  else if wt =? 5 then match take 4 b with Some (_, r) => Some (VOther, r) | None => None end
  else None.
(** Groups are skipped (the limit of 10000 nested groups is not modelled). *)
Fixpoint skip_group (fuel : nat) (num : N) (b : bytes) : option bytes :=
  match fuel with
  | O => None
  | S f => match unvarint b with
           | None => None
           | Some (tag, r) =>
               let n := tag / 8 in let wt := tag mod 8 in
               if (n =? 0) || (2 ^ 31 <=? n) then None
               else if wt =? 4 then if n =? num then Some r else None
               else match (if wt =? 3 then skip_group f n r
                           else match plain_dec wt r with Some (_, r') => Some r' | None => None end) with
                    | Some r' => skip_group f num r'
                    | None => None
                    end
           end
  end.
(** One field: its number, its value, the rest. *)
Definition field_dec (b : bytes) : option (N * wval * bytes) :=
  match unvarint b with
  | None => None
  | Some (tag, r) =>
      let n := tag / 8 in let wt := tag mod 8 in
      if (n =? 0) || (2 ^ 29 <=? n) then None
      else if wt =? 3 then match skip_group (length r) n r with Some r' => Some (n, VOther, r') | None => None end
      else match plain_dec wt r with Some (v, r') => Some (n, v, r') | None => None end
  end.
(** [Unmarshal] into [m]; [set] puts a field into the message: [None] is an
    error, a field it does not know leaves the message as it is.  The answer
    has what was set before an error, and whether there was none. *)
Section DECODE.
  Context {M : Type}.
  Variable set : M -> N -> wval -> option M.
  Fixpoint pdec_loop (fuel : nat) (m : M) (b : bytes) : M * bool :=
    match b, fuel with
    | [], _ => (m, true)
    | _, O => (m, false)
    | _, S f => match field_dec b with
                | None => (m, false)
                | Some (n, v, r) => match set m n v with
                                    | None => (m, false)
                                    | Some m' => pdec_loop f m' r
                                    end
                end
    end.
  Definition pdecode (m : M) (b : bytes) : M * bool := pdec_loop (length b) m b.
End DECODE.
(** [Marshal]: fields in the order of their numbers, zero values left out. *)
Definition tag (num wt : N) : bytes := varint (8 * num + wt).
Definition f_uint (num n : N) : bytes := if n =? 0 then [] else tag num 0 ++ varint n.
Definition f_int (num : N) (z : Z) : bytes := f_uint num (to_unsigned 64 z).
Definition f_bool (num : N) (b : bool) : bytes := f_uint num (if b then 1 else 0).
Definition f_msg (num : N) (b : bytes) : bytes := tag num 2 ++ varint (N.of_nat (length b)) ++ b.
Definition f_bytes (num : N) (b : bytes) : bytes := match b with [] => [] | _ => f_msg num b end.
(** int32(uint64) *)
Definition int32 (n : N) : Z := to_signed 32 (u32 n).

(** utf8.Valid: a string that is not is an error of Marshal and of Unmarshal. *)
Definition cont (lo hi b : N) : bool := (lo <=? b) && (b <=? hi).
Fixpoint utf8 (b : bytes) : bool :=
  match b with
  | [] => true
  | x :: r =>
      if x <? 128 then utf8 r
      else if cont 0xC2 0xDF x then match r with y :: r => cont 0x80 0xBF y && utf8 r | _ => false end
      else if cont 0xE0 0xEF x then
        match r with
        | y :: z :: r => cont (if x =? 0xE0 then 0xA0 else 0x80) (if x =? 0xED then 0x9F else 0xBF) y && cont 0x80 0xBF z && utf8 r
        | _ => false
        end
      else if cont 0xF0 0xF4 x then
        match r with
        | y :: z :: w :: r => cont (if x =? 0xF0 then 0x90 else 0x80) (if x =? 0xF4 then 0x8F else 0xBF) y
                              && cont 0x80 0xBF z && cont 0x80 0xBF w && utf8 r
        | _ => false
        end
      else false
  end.

(** ** The header, utp/message.go:67-106, unitdb.proto:39-43.  Types, flow and
    length are int32 on the wire; MessageType and FlowControl are uint8.  The
    length is kept as the uint32 with the same bits, see M_Wire. *)
Definition set_header (h : fheader) (n : N) (v : wval) : option fheader :=
  match n, v with
  | 1, VInt x => Some (mkFH (u8 x) (fh_flow h) (fh_len h))
  | 2, VInt x => Some (mkFH (fh_type h) (u8 x) (fh_len h))
  | 3, VInt x => Some (mkFH (fh_type h) (fh_flow h) (u32 x))
  | _, _ => Some h
  end.
Definition pb_header : hcodec :=
  mkHC (fun h => f_uint 1 (fh_type h) ++ f_uint 2 (fh_flow h) ++ f_int 3 (to_signed 32 (fh_len h)))
       (fun b => fst (pdecode set_header (mkFH 0 0 0) b)).

(** ** The packets *)
(** connect.go:27-39 *)
Record connect := mkCo { co_version : Z; co_insecure : bool; co_client : bytes; co_alive : Z; co_clean : bool; co_key : Z;
  co_user : bytes; co_pass : bytes; co_dur : Z; co_bytes : Z; co_count : Z }.
(** publish.go:26-39; [IsForwarded] is not sent. *)
Record pubmsg := mkPMsg { pm_top : bytes; pm_pay : bytes; pm_ttl : bytes }.
Record publish := mkPubl { pu_id : N; pu_mode : N; pu_msgs : list pubmsg }.
(** relay.go:28-39 *)
Record relayreq := mkRR { rr_topic : bytes; rr_last : bytes }.
Record relay := mkRel { re_id : N; re_reqs : list relayreq }.
(** subscribe.go:28-48 *)
Record subscr := mkSu { su_mode : N; su_delay : Z; su_topic : bytes }.
Record subscribe := mkSubs { sb_id : N; sb_subs : list subscr }.
(** flow_control.go:39-44 *)
Record control := mkCtl { ct_id : N; ct_type : N; ct_flow : N; ct_msg : bytes }.
Inductive pack :=
| PConnect (c : connect) | PPublish (p : publish) | PRelay (r : relay) | PSubscribe (s : subscribe)
| PUnsubscribe (s : subscribe) | PPing | PDisconnect (id : N) | PControl (c : control).

(** *** Encoding, the first halves of the [ToBinary]s; [None]: Marshal fails. *)
Definition enc_connect (c : connect) : option bytes :=   (* connect.go:64-82 *)
  if utf8 (co_client c) && utf8 (co_user c) then
    Some (f_int 1 (co_version c) ++ f_bool 2 (co_insecure c) ++ f_bytes 3 (co_client c) ++ f_int 4 (co_alive c)
          ++ f_bool 5 (co_clean c) ++ f_int 6 (co_key c) ++ f_bytes 7 (co_user c) ++ f_bytes 8 (co_pass c)
          ++ f_int 9 (co_dur c) ++ f_int 10 (co_bytes c) ++ f_int 11 (co_count c))
  else None.
Definition enc_pubmsg (m : pubmsg) : option bytes :=
  if utf8 (pm_top m) && utf8 (pm_ttl m) then Some (f_bytes 1 (pm_top m) ++ f_bytes 2 (pm_pay m) ++ f_bytes 3 (pm_ttl m)) else None.
Fixpoint enc_list {A} (num : N) (f : A -> option bytes) (l : list A) : option bytes :=
  match l with
  | [] => Some []
  | x :: r => match f x, enc_list num f r with Some b, Some c => Some (f_msg num b ++ c) | _, _ => None end
  end.
Definition enc_with (pre : bytes) (o : option bytes) : option bytes := option_map (app pre) o.
Definition enc_publish (p : publish) : option bytes :=   (* publish.go:44-61 *)
  enc_with (f_uint 1 (pu_id p) ++ f_uint 2 (pu_mode p)) (enc_list 3 enc_pubmsg (pu_msgs p)).
Definition enc_relayreq (r : relayreq) : option bytes :=
  if utf8 (rr_topic r) && utf8 (rr_last r) then Some (f_bytes 1 (rr_topic r) ++ f_bytes 2 (rr_last r)) else None.
Definition enc_relay (r : relay) : option bytes :=   (* relay.go:43-58 *)
  enc_with (f_uint 1 (re_id r)) (enc_list 2 enc_relayreq (re_reqs r)).
Definition enc_subscr (s : subscr) : option bytes :=
  if utf8 (su_topic s) then Some (f_uint 1 (su_mode s) ++ f_int 2 (su_delay s) ++ f_bytes 3 (su_topic s)) else None.
Definition enc_subscribe (s : subscribe) : option bytes :=   (* subscribe.go:52-68, 104-120 *)
  enc_with (f_uint 1 (sb_id s)) (enc_list 2 enc_subscr (sb_subs s)).
Definition enc_control (c : control) : bytes := f_uint 1 (ct_id c) ++ f_bytes 2 (ct_msg c).   (* flow_control.go:51-58 *)
(** flow_control.go:59-83: type and flow in the header; zero for other combinations *)
Definition ctl_head (c : control) : N * N :=
  if ct_flow c =? 1 then if (1 <=? ct_type c) && (ct_type c <=? 6) then (ct_type c, 1) else (0, 0)
  else if (2 <=? ct_flow c) && (ct_flow c <=? 5) then (PUBLISH, ct_flow c) else (0, 0).
(** connect.go:49-53, 116-138: the body of the acknowledgement of a CONNECT; it
    has no header of its own, it is the [Message] of a ControlMessage. *)
Record connack := mkCA { ca_code : N; ca_epoch : Z; ca_conn : Z }.
Definition enc_connack (a : connack) : bytes := f_uint 1 (ca_code a) ++ f_int 2 (ca_epoch a) ++ f_int 3 (ca_conn a).
(** The [ToBinary]s.  flow_control.go: without a case the header is zero, the
    length too, and the body follows. *)
Definition to_binary (p : pack) : option bytes :=
  match p with
  | PConnect c => option_map (msg_encode pb_header CONNECT 0) (enc_connect c)
  | PPublish p => option_map (msg_encode pb_header PUBLISH 0) (enc_publish p)
  | PRelay r => option_map (msg_encode pb_header RELAY 0) (enc_relay r)
  | PSubscribe s => option_map (msg_encode pb_header SUBSCRIBE 0) (enc_subscribe s)
  | PUnsubscribe s => option_map (msg_encode pb_header UNSUBSCRIBE 0) (enc_subscribe s)
  | PPing => Some (msg_encode pb_header PINGREQ 0 [])
  | PDisconnect _ => Some (msg_encode pb_header DISCONNECT 0 [])   (* connect.go:178-189: the identifier is not sent *)
  | PControl c =>
      let '(ty, fl) := ctl_head c in
      if ty =? 0 then Some (fh_pack pb_header (mkFH 0 0 0) ++ enc_control c)
      else Some (msg_encode pb_header ty fl (enc_control c))
  end.

(** *** Decoding, the [FromBinary]s.  Errors of Unmarshal are dropped. *)
Definition str {A} (v : bytes) (x : A) : option A := if utf8 v then Some x else None.
Definition set_connect (c : connect) (n : N) (v : wval) : option connect :=
  let '(mkCo a b cl d e k u p x y z) := c in
  match n, v with
  | 1, VInt i => Some (mkCo (int32 i) b cl d e k u p x y z)
  | 2, VInt i => Some (mkCo a (negb (i =? 0)) cl d e k u p x y z)
  | 3, VBytes s => str s (mkCo a b s d e k u p x y z)
  | 4, VInt i => Some (mkCo a b cl (int32 i) e k u p x y z)
  | 5, VInt i => Some (mkCo a b cl d (negb (i =? 0)) k u p x y z)
  | 6, VInt i => Some (mkCo a b cl d e (int32 i) u p x y z)
  | 7, VBytes s => str s (mkCo a b cl d e k s p x y z)
  | 8, VBytes s => Some (mkCo a b cl d e k u s x y z)
  | 9, VInt i => Some (mkCo a b cl d e k u p (int32 i) y z)
  | 10, VInt i => Some (mkCo a b cl d e k u p x (int32 i) z)
  | 11, VInt i => Some (mkCo a b cl d e k u p x y (int32 i))
  | _, _ => Some c
  end.
Definition connect_new : connect := mkCo 0 false [] 0 false 0 [] [] 0 0 0.
Definition set_pubmsg (m : pubmsg) (n : N) (v : wval) : option pubmsg :=
  match n, v with
  | 1, VBytes s => str s (mkPMsg s (pm_pay m) (pm_ttl m))
  | 2, VBytes s => Some (mkPMsg (pm_top m) s (pm_ttl m))
  | 3, VBytes s => str s (mkPMsg (pm_top m) (pm_pay m) s)
  | _, _ => Some m
  end.
(** a message inside a message: an error in it is an error *)
Definition sub_msg {A} (r : A * bool) : option A := if snd r then Some (fst r) else None.
Definition set_publish (p : publish) (n : N) (v : wval) : option publish :=
  match n, v with
  | 1, VInt i => Some (mkPubl (u16 i) (pu_mode p) (pu_msgs p))
  | 2, VInt i => Some (mkPubl (pu_id p) (u8 i) (pu_msgs p))
  | 3, VBytes s => option_map (fun m => mkPubl (pu_id p) (pu_mode p) (pu_msgs p ++ [m]))
                              (sub_msg (pdecode set_pubmsg (mkPMsg [] [] []) s))
  | _, _ => Some p
  end.
Definition set_relayreq (r : relayreq) (n : N) (v : wval) : option relayreq :=
  match n, v with
  | 1, VBytes s => str s (mkRR s (rr_last r))
  | 2, VBytes s => str s (mkRR (rr_topic r) s)
  | _, _ => Some r
  end.
Definition set_relay (r : relay) (n : N) (v : wval) : option relay :=
  match n, v with
  | 1, VInt i => Some (mkRel (u16 i) (re_reqs r))
  | 2, VBytes s => option_map (fun q => mkRel (re_id r) (re_reqs r ++ [q])) (sub_msg (pdecode set_relayreq (mkRR [] []) s))
  | _, _ => Some r
  end.
Definition set_subscr (s : subscr) (n : N) (v : wval) : option subscr :=
  match n, v with
  | 1, VInt i => Some (mkSu (u8 i) (su_delay s) (su_topic s))
  | 2, VInt i => Some (mkSu (su_mode s) (int32 i) (su_topic s))
  | 3, VBytes t => str t (mkSu (su_mode s) (su_delay s) t)
  | _, _ => Some s
  end.
Definition set_subscribe (s : subscribe) (n : N) (v : wval) : option subscribe :=
  match n, v with
  | 1, VInt i => Some (mkSubs (u16 i) (sb_subs s))
  | 2, VBytes t => option_map (fun q => mkSubs (sb_id s) (sb_subs s ++ [q])) (sub_msg (pdecode set_subscr (mkSu 0 0 []) t))
  | _, _ => Some s
  end.
Definition set_control (c : control) (n : N) (v : wval) : option control :=
  match n, v with
  | 1, VInt i => Some (mkCtl (u16 i) (ct_type c) (ct_flow c) (ct_msg c))
  | 2, VBytes s => Some (mkCtl (ct_id c) (ct_type c) (ct_flow c) s)
  | _, _ => Some c
  end.
Definition set_connack (a : connack) (n : N) (v : wval) : option connack :=
  match n, v with
  | 1, VInt i => Some (mkCA (u8 i) (ca_epoch a) (ca_conn a))
  | 2, VInt i => Some (mkCA (ca_code a) (int32 i) (ca_conn a))
  | 3, VInt i => Some (mkCA (ca_code a) (ca_epoch a) (int32 i))
  | _, _ => Some a
  end.
Definition dec_connack (b : bytes) : connack := fst (pdecode set_connack (mkCA 0 0 0) b).
(** net/message.go:62-84: the packet of a body.  [msg_read] lets only the known
    types through. *)
Definition of_body (ty flow : N) (b : bytes) : option pack :=
  if ty =? PINGREQ then Some PPing
  else if ty =? DISCONNECT then Some (PDisconnect 0)
  else if negb (flow =? 0) then Some (PControl (fst (pdecode set_control (mkCtl 0 ty flow []) b)))
  else if ty =? CONNECT then Some (PConnect (fst (pdecode set_connect connect_new b)))
  else if ty =? PUBLISH then Some (PPublish (fst (pdecode set_publish (mkPubl 0 0 []) b)))
  else if ty =? RELAY then Some (PRelay (fst (pdecode set_relay (mkRel 0 []) b)))
  else if ty =? SUBSCRIBE then Some (PSubscribe (fst (pdecode set_subscribe (mkSubs 0 []) b)))
  else if ty =? UNSUBSCRIBE then Some (PUnsubscribe (fst (pdecode set_subscribe (mkSubs 0 []) b)))
  else None.
(** net/message.go:36-85 [Read] *)
Inductive rpack := RErr | RPanic | RPack (p : pack) (rest : bytes).
Definition read_pack (r : bytes) : rpack :=
  match msg_read pb_header r with
  | RdErr => RErr
  | RdPanic => RPanic
  | RdMsg ty fl b rest => match of_body ty fl b with Some p => RPack p rest | None => RErr end
  end.
(** hdl_conn.go:58-79: the packets of a connection, until the first error;
    [true]: the server panics. *)
Fixpoint read_packs (fuel : nat) (r : bytes) : list pack * bool :=
  match fuel with
  | O => ([], false)
  | S f => match read_pack r with
           | RErr => ([], false)
           | RPanic => ([], true)
           | RPack p rest => let '(l, e) := read_packs f rest in (p :: l, e)
           end
  end.
