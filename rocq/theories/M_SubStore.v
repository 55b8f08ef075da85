(** Model of server/internal/store/store.go:29-165 and
    server/internal/db/unitdb/adapter.go:128-176: the subscriptions and messages of
    the server in one database, and of the parts of server/internal/conn.go that
    use them. *)
From Verif Require Import M_Bytes M_Bloom M_MemDB M_Window M_DB S_DB.
Open Scope N_scope.

(** store.go:30: [connStoreId]; store.go:125, 129, 145: the contract under which
    the subscriptions of a contract are filed. *)
Definition connStoreId : N := 4105991048.
Definition sub_contract (k : N) : N := N.lxor k connStoreId.

(** conn.go:206-209: the payload of a subscription. *)
Definition sub_payload (mode conn delay : N) : bytes := u8 mode :: le 4 conn ++ le 4 delay.

(** conn.go:265-267: what publish takes from it.  snappy.Decode makes slices
    without spare capacity (db.go:287-288), so that a shorter payload is a
    panic. *)
Notation target := (N * N * N)%type (only parsing).
Definition sub_decode (p : bytes) : option target :=
  if Nat.ltb (length p) 9 then None else Some (nth 0 p 0, unle (slice p 1 4), unle (slice p 5 4)).

(** conn.go:254-291: whom a message is sent to.  An error ends publish before the
    loop; a panic in the loop ends the server, those before have been served. *)
Inductive found := FSent (l : list target) | FFailed | FDied (l : list target).
Fixpoint sub_loop (l : list bytes) (acc : list target) : found :=
  match l with
  | [] => FSent acc
  | p :: r => match sub_decode p with None => FDied acc | Some x => sub_loop r (acc ++ [x]) end
  end.
Definition sub_found (x : dout) : found :=
  match x with
  | OGot (QItems l) => sub_loop l []
  | OGot (QErr _ _) => FFailed
  | OGot _ => FDied []
  | _ => FFailed
  end.

(** What the server asks of the database.  [TSub]: conn.go:199-213, an identifier
    and at once the subscription, the first of its connection to the topic (M_Subs
    counts them).  [TUnsub]: conn.go:230, 367, 407.  [TFind]: conn.go:254.
    [TMsg]: hdl_conn.go:461 (adapter.go:129-135), the ttl given as the time of
    expiry.  [TRelay]: hdl_conn.go:366 without "last".  [TRestart]: adapter.go:63-110,
    the server is stopped and started again.  The others are the background tasks of
    the database. *)
Inductive store_op :=
| TSub (now : Z) (k : N) (topic : bytes) (mode conn delay : N)
| TUnsub (k : N) (id topic : bytes)
| TFind (now : Z) (g : gchoice) (k : N) (topic : bytes)
| TMsg (now : Z) (k : N) (topic payload : bytes) (expires : N)
| TRelay (now : Z) (g : gchoice) (k : N) (topic : bytes)
| TTick (now : Z)
| TCommit
| TSync (now : Z) (ord : morder)
| TRestart (gens : list bloom) (now : Z) (ord : morder).

Inductive store_out := TSubbed (id : bytes) (r : dout) | TFound (f : found) | TDone (r : dout).

(** adapter.go:138-144 [PutWithID]; 129-135 [Put]; 171-175 [Delete]; 148-156 [Get] *)
Definition put_with_id (k : N) (id topic payload : bytes) : uentry := mkUE (Some id) topic payload 0 k false None 0.
Definition put_message (k : N) (topic payload : bytes) (expires : N) : uentry := mkUE None topic payload expires k false None 0.
Definition delete_with_id (k : N) (id topic : bytes) : uentry := mkUE (Some id) topic [] 0 k false None 0.
Definition query_of (k : N) (topic : bytes) : query := mkQ topic k 0 0 [].

Definition store_step (c : dcfg) (w : world) (o : store_op) : world * store_out :=
  match o with
  | TSub now k topic mode conn delay =>
      let (w1, x) := dstep c w (DoNewID now) in
      match x with
      | OId id => let (w2, r) := dstep c w1 (DoPut now (put_with_id (sub_contract k) id topic (sub_payload mode conn delay))) in
                  (w2, TSubbed id r)
      | _ => (w1, TDone x)
      end
  | TUnsub k id topic => let (w', r) := dstep c w (DoDelete (delete_with_id (sub_contract k) id topic)) in (w', TDone r)
  | TFind now g k topic => let (w', r) := dstep c w (DoGet now g (query_of (sub_contract k) topic)) in (w', TFound (sub_found r))
  | TMsg now k topic payload expires => let (w', r) := dstep c w (DoPut now (put_message k topic payload expires)) in (w', TDone r)
  | TRelay now g k topic => let (w', r) := dstep c w (DoGet now g (query_of k topic)) in (w', TDone r)
  | TTick now => let (w', r) := dstep c w (DoTick now None) in (w', TDone r)
  | TCommit => let (w', r) := dstep c w DoCommit in (w', TDone r)
  | TSync now ord => let (w', r) := dstep c w (DoSync now ord) in (w', TDone r)
  | TRestart gens now ord =>
      let (w1, _) := dstep c w DoClose in let (w2, r) := dstep c w1 (DoOpen gens now ord false false) in (w2, TDone r)
  end.

Fixpoint store_run (c : dcfg) (w : world) (ops : list store_op) : world * list store_out :=
  match ops with
  | [] => (w, [])
  | o :: r => let (w', x) := store_step c w o in let (w'', xs) := store_run c w' r in (w'', x :: xs)
  end.

(** adapter.go:82 opens the database, which is new; panics of Open do not
    concern it. *)
Definition store_start (c : dcfg) (gens : list bloom) (now : Z) (ord : morder) : world :=
  fst (dstep c (Down no_files) (DoOpen gens now ord false false)).
