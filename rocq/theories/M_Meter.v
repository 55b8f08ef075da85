(** Model of the counters of connections and subscriptions of the server:
    server/internal/monitor.go:119-136 [Varz], pkg/metrics/counter.go:69-90 and
    their use in conn.go:87-88, 204-216, 229-236, 405-421.  The counters are kept
    beside the server of M_Conn. *)
From Verif Require Import M_Bytes M_Keys M_MsgIds M_Conn.
From Verif Require M_Subs.
Open Scope N_scope.

(** monitor.go:28-37; the int64 counters do not overflow. *)
Record meter := mkMeter { mt_conns : Z; mt_subs : Z }.
Definition meter_new : meter := mkMeter 0 0.
Definition count_by (m : meter) (conns subs : Z) : meter := mkMeter (mt_conns m + conns) (mt_subs m + subs).

(** conn.go:204-216: what one subscription adds. *)
Definition sub_gain (E : env) (s : server) (c : N) (req : bytes * N * Z) : Z :=
  let '(text, mode, delay) := req in
  match aget (v_conns s) c with
  | None => 0
  | Some k =>
      match check_sub k text, k_client k with
      | VAllowed t, Some cl =>
          match (match st_key t with [] => generate_key (id_contract cl) (st_topic t) AllowNone | ky => Some ky end) with
          | None => 0
          | Some ky =>
              let '(st, first) := M_Subs.increment (k_subs k) (st_name t) ky (le 8 (v_nsub s)) in
              if first && e_store E (st_topic t) [] then 1%Z else 0%Z
          end
      | _, _ => 0
      end
  end.
(** conn.go:229-236: what one unsubscription takes away. *)
Definition unsub_loss (s : server) (c : N) (text : bytes) : Z :=
  match aget (v_conns s) c with
  | None => 0
  | Some k =>
      match check_sub k text, k_client k with
      | VAllowed t, Some cl => if fst (snd (M_Subs.decrement (k_subs k) (st_key t))) then 1%Z else 0%Z
      | _, _ => 0
      end
  end.
(** The requests of one packet: *)
Fixpoint total {A} (f : server -> A -> option server) (g : server -> A -> Z) (s : server) (c : N) (l : list A) : Z :=
  match l with
  | [] => 0
  | x :: r => if is_stuck s c then 0%Z
              else (g s x + match f s x with None => 0 | Some s1 => total f g s1 c r end)%Z
  end.

(** conn.go:389-424 [close]: nothing for a connection that is closed already, else
    one for each of [c.subs.All()] and one for the connection. *)
Definition close_count (s : server) (c : N) (m : meter) : meter :=
  match aget (v_conns s) c with
  | Some k => if k_open k then count_by m (-1) (- Z.of_nat (length (k_subs k))) else m
  | None => m
  end.
(** The packets after which the connection is closed: hdl_conn.go:117-121 and 252-257. *)
Definition closes (E : env) (s : server) (c : N) (q : request) : bool :=
  match q with
  | QConnect (CRefused id) insecure _ _ =>
      match say (put_out (on_conn s c (set_insecure insecure)) c (KCtl tCONNECT fACK 0)) c (mkPM tClientid id) with
      | Some s1 => negb (is_stuck s1 c)
      | None => false
      end
  | QFlow ty flow id =>
      match aget (v_conns s) c with
      | None => false
      | Some k =>
          let s1 := match k_client k with Some _ => persist_in s (k_sess k) (KCtl ty flow id) | None => s end in
          (flow =? fRECEIVE) && match log_get E (v_log s1) (log_key id (k_sess k)) with None => true | Some _ => false end
      end
  | _ => false
  end.
Definition packet_count (E : env) (s : server) (c : N) (q : request) (m : meter) : meter :=
  match q with
  | QSub l id => count_by m 0 (total (fun s x => sub_one E s c id x) (fun s x => sub_gain E s c x) s c l)
  | QUnsub l id => count_by m 0 (- total (fun s x => unsub_one E s c id x) (fun s x => unsub_loss s c x) s c l)
  | _ => if closes E s c q then close_count s c m else m
  end.
Definition event_count (E : env) (s : server) (ev : event) (m : meter) : meter :=
  match ev with
  | EAccept => count_by m 1 0
  | EPacket c q =>
      match aget (v_conns s) c with
      | Some k => if k_open k && negb (k_stuck k) then packet_count E s c q m else m
      | None => m
      end
  | ELost c => close_count s c m
  | ERestart _ => meter_new                (* a new process; service.go:72 *)
  | _ => m
  end.

Definition mstep (E : env) (sm : server * meter) (ev : event) : option (server * meter) :=
  match step E (fst sm) ev with
  | None => None
  | Some s1 => Some (s1, event_count E (fst sm) ev (snd sm))
  end.
Fixpoint mrun (E : env) (sm : server * meter) (es : list event) : option (server * meter) :=
  match es with
  | [] => Some sm
  | ev :: r => match mstep E sm ev with None => None | Some sm1 => mrun E sm1 r end
  end.
