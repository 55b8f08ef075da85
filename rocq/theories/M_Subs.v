(** Model of the subscription counters, server/internal/message/sub.go:73-151,
    and of their use in server/internal/conn.go:179-245. *)
From Verif Require Import M_Bytes.
Open Scope Z_scope.

(** sub.go:80-84 [Stat]; identifiers and topics are byte strings. *)
Record stat := mkStat { st_id : bytes; st_topic : bytes; st_counter : Z }.
Notation stats := (list (bytes * stat)).

Definition beq (a b : bytes) : bool := if list_eq_dec N.eq_dec a b then true else false.
Fixpoint st_get (s : stats) (k : bytes) : option stat :=
  match s with [] => None | (q, v) :: r => if beq q k then Some v else st_get r k end.
Definition st_del (s : stats) (k : bytes) : stats := filter (fun e => negb (beq (fst e) k)) s.
Definition st_put (s : stats) (k : bytes) (v : stat) : stats := (k, v) :: st_del s k.

(** sub.go:94-108 [Increment]; the int counter does not overflow. *)
Definition increment (s : stats) (topic key id : bytes) : stats * bool :=
  let st := match st_get s key with Some st => st | None => mkStat id topic 0 end in
  let st := mkStat (st_id st) (st_topic st) (st_counter st + 1) in
  (st_put s key st, st_counter st =? 1).

(** sub.go:111-125 [Decrement] *)
Definition decrement (s : stats) (key : bytes) : stats * (bool * option bytes) :=
  match st_get s key with
  | Some st =>
      let c := st_counter st - 1 in
      if c <=? 0 then (st_del s key, (true, Some (st_id st)))
      else (st_put s key (mkStat (st_id st) (st_topic st) c), (false, None))
  | None => (s, (false, None))
  end.

(** sub.go:128-136 [Exist] *)
Definition exist (s : stats) (key : bytes) : bool := match st_get s key with Some _ => true | None => false end.

(** conn.go:179-245 on a node that is not part of a cluster.  The subscription
    store is the set of stored message identifiers with their topics.
    [genkey] is [security.GenerateKey] for the contract of the connection,
    [None] its error.  [fresh] is the identifier from [Subscription.NewID] and
    [put_ok] says whether [Subscription.Put] succeeds.  [Subscription.Delete]
    is taken to remove what was put under that identifier. *)
Record conn := mkConn { c_subs : stats; c_store : list (bytes * bytes) }.
Definition conn_new : conn := mkConn [] [].

Definition subscribe (genkey : bytes -> option bytes) (c : conn) (key topic fresh : bytes) (put_ok : bool)
  : conn * bool :=
  let key' := match key with [] => genkey topic | _ => Some key end in
  match key' with
  | None => (c, false)
  | Some k =>
      let '(s, first) := increment (c_subs c) topic k fresh in
      if first
      then if put_ok then (mkConn s ((fresh, topic) :: c_store c), true)
           else (mkConn s (c_store c), false)
      else (mkConn s (c_store c), true)
  end.

(** conn.go:222-245: the key is used as it is in the request. *)
Definition unsubscribe (c : conn) (key : bytes) : conn :=
  let '(s, (last, id)) := decrement (c_subs c) key in
  match last, id with
  | true, Some id => mkConn s (filter (fun e => negb (beq (fst e) id)) (c_store c))
  | _, _ => mkConn s (c_store c)
  end.

Inductive sop := SSub (key topic fresh : bytes) (put_ok : bool) | SUnsub (key : bytes).
Definition sub_step (genkey : bytes -> option bytes) (c : conn) (o : sop) : conn :=
  match o with
  | SSub k t f ok => fst (subscribe genkey c k t f ok)
  | SUnsub k => unsubscribe c k
  end.
Definition sub_run (genkey : bytes -> option bytes) (ops : list sop) : conn :=
  fold_left (sub_step genkey) ops conn_new.
