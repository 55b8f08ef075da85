(** Model of the leader election, server/internal/cluster_leader.go: any number
    of nodes, messages in flight, lost or late. *)
From Coq Require Import List Arith Bool.
Import ListNotations.

(** Nodes are numbers.  cluster_leader.go:23-47: the fields used by the
    election.  [n_leader = None] is the empty string.  [n_elec] is the state of
    the loop of [electLeader] (votes, answers) while a node waits in it; the
    node handles nothing else then, because [run] is one goroutine. *)
Record nstate := mkN { n_term : nat; n_leader : option nat; n_elec : option (nat * nat) }.
Definition n_init : nstate := mkN 0 None None.

(** Requests carry candidate, voter and term; answers carry candidate, voter,
    the term of the election they belong to (each call has its own answer
    channel, cluster_leader.go:201-210), the vote and the voter's term; pings
    carry receiver, leader and term. *)
Inductive msg :=
  | VReq (cand voter term : nat)
  | VRep (cand voter term : nat) (result : bool) (vterm : nat)
  | Ping (to leader term : nat).
Definition msg_dec : forall a b : msg, {a = b} + {a <> b}.
Proof. repeat decide equality. Defined.

Record cluster := mkC { c_node : nat -> nstate; c_net : list msg }.
Definition c_init : cluster := mkC (fun _ => n_init) [].

Definition set_node (f : nat -> nstate) (n : nat) (s : nstate) : nat -> nstate :=
  fun m => if Nat.eqb m n then s else f m.

(** cluster_leader.go:198-200; [c.nodes] are the other nodes. *)
Definition others (nodes : list nat) (n : nat) : list nat := filter (fun m => negb (Nat.eqb m n)) nodes.
Definition nodeCount (nodes : list nat) (n : nat) : nat := length (others nodes n).
Definition expectVotes (nodes : list nat) (n : nat) : nat := Nat.div2 (nodeCount nodes n + 1) + 1.

(** cluster_leader.go:219 and 241-245: the loop goes on or the node is elected
    or not.  The second part reports an election won. *)
Definition wait_or_end (nodes : list nat) (n : nat) (term : nat) (leader : option nat) (votes i : nat)
  : nstate * option (nat * nat) :=
  if ((i <? nodeCount nodes n) && (votes <? expectVotes nodes n))%bool
  then (mkN term leader (Some (votes, i)), None)
  else if expectVotes nodes n <=? votes then (mkN term (Some n) None, Some (n, term))
       else (mkN term leader None, None).

Fixpoint take (m : msg) (l : list msg) : option (list msg) :=
  match l with
  | [] => None
  | x :: r => if msg_dec x m then Some r else match take m r with Some r' => Some (x :: r') | None => None end
  end.

Inductive event :=
  | EElect (n : nat)            (* missed heartbeats: electLeader, lines 190-216 *)
  | EVote (cand voter term : nat)           (* lines 311-328 *)
  | EReply (cand voter term : nat) (result : bool) (vterm : nat)   (* lines 221-234 *)
  | EReplyErr (n : nat)         (* an answer with call.Error set *)
  | ETimeout (n : nat)          (* lines 235-238 *)
  | ESendPings (n : nat)        (* lines 146-187, the messages only *)
  | EPing (to leader term : nat)            (* lines 271-309, without rehashing *)
  | ERestart (n : nat).         (* the process is started again; nothing is kept *)

(** One step; [None] when the event cannot happen in this state. *)
Definition do_event (nodes : list nat) (s : cluster) (e : event) : option (cluster * option (nat * nat)) :=
  match e with
  | EElect n =>
      let x := c_node s n in
      match n_elec x, existsb (Nat.eqb n) nodes with
      | None, true =>
          if (match n_leader x with Some l => Nat.eqb l n | None => false end) then None
          else let t := S (n_term x) in
               let '(x', won) := wait_or_end nodes n t None 1 0 in
               Some (mkC (set_node (c_node s) n x') (c_net s ++ map (fun v => VReq n v t) (others nodes n)), won)
      | _, _ => None
      end
  | EVote c v t =>
      let x := c_node s v in
      match n_elec x, take (VReq c v t) (c_net s) with
      | None, Some net =>
          if n_term x <? t
          then Some (mkC (set_node (c_node s) v (mkN t None None)) (VRep c v t true t :: net), None)
          else Some (mkC (c_node s) (VRep c v t false (n_term x) :: net), None)
      | _, _ => None
      end
  | EReply c v t result vt =>
      let x := c_node s c in
      match n_elec x, take (VRep c v t result vt) (c_net s) with
      | Some (votes, i), Some net =>
          if negb (Nat.eqb t (n_term x)) then None   (* an answer for an abandoned channel *)
          else let '(votes, i) :=
                 if result then (S votes, i)
                 else if n_term x <? vt then (0, nodeCount nodes c) else (votes, i) in
               let '(x', won) := wait_or_end nodes c (n_term x) (n_leader x) votes (S i) in
               Some (mkC (set_node (c_node s) c x') net, won)
      | _, _ => None
      end
  | EReplyErr n =>
      let x := c_node s n in
      match n_elec x with
      | Some (votes, i) =>
          let '(x', won) := wait_or_end nodes n (n_term x) (n_leader x) votes (S i) in
          Some (mkC (set_node (c_node s) n x') (c_net s), won)
      | None => None
      end
  | ETimeout n =>
      let x := c_node s n in
      match n_elec x with
      | Some (votes, i) =>
          let '(x', won) := wait_or_end nodes n (n_term x) (n_leader x) votes (nodeCount nodes n) in
          Some (mkC (set_node (c_node s) n x') (c_net s), won)
      | None => None
      end
  | ESendPings n =>
      let x := c_node s n in
      match n_elec x with
      | None => if (match n_leader x with Some l => Nat.eqb l n | None => false end)
                then Some (mkC (c_node s) (map (fun v => Ping v n (n_term x)) (others nodes n) ++ c_net s), None)
                else None
      | Some _ => None
      end
  | EPing v l t =>
      let x := c_node s v in
      match n_elec x, take (Ping v l t) (c_net s) with
      | None, Some net =>
          if t <? n_term x then Some (mkC (c_node s) net, None)
          else Some (mkC (set_node (c_node s) v (mkN t (Some l) None)) net, None)
      | _, _ => None
      end
  | ERestart n => Some (mkC (set_node (c_node s) n n_init) (c_net s), None)
  end.

(** Runs, with the elections won on the way. *)
Fixpoint run (nodes : list nat) (s : cluster) (es : list event) : option (cluster * list (nat * nat)) :=
  match es with
  | [] => Some (s, [])
  | e :: r => match do_event nodes s e with
              | None => None
              | Some (s1, w) =>
                  match run nodes s1 r with
                  | None => None
                  | Some (s2, ws) => Some (s2, match w with Some x => x :: ws | None => ws end)
                  end
              end
  end.
