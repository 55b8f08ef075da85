(** Model of the failover of a cluster: rings, pings, connections between the
    nodes and the ends of processes.  server/internal/cluster.go:136-262, 351-373,
    605-625 and cluster_leader.go:101-202, 260-338.  The election itself is the
    one of [M_Leader]. *)
From Verif Require Import M_Bytes M_Ring M_Leader.
Open Scope nat_scope.

(** Names of the nodes, the hash function, [strconv.Itoa], [sort.Sort] and the
    FNV-128a digest over the points (ringhash.go:94-110) are arguments. *)
Record renv := mkRE { re_name : nat -> bytes; re_hash : bytes -> N; re_itoa : nat -> bytes;
                      re_sort : list elem -> list elem; re_digest : list elem -> bytes }.
(** cluster.go:44 *)
Definition clusterHashReplicas : nat := 20.
(** cluster.go:607-625 [rehash], the ring of a list of nodes *)
Definition ring_of (R : renv) (l : list nat) : ring :=
  ring_add (newRing clusterHashReplicas (re_hash R) (re_itoa R) (re_sort R)) (map (re_name R) l).
(** ringhash.go:94-110, 140-142 *)
Definition signature (R : renv) (l : list nat) : bytes := re_digest R (r_keys (ring_of R l)).
Definition bytes_eqb (a b : bytes) : bool := if list_eq_dec N.eq_dec a b then true else false.

(** cluster_leader.go:33-54 and cluster.go:61-81.  [f_active] is
    [fo.activeNodes], [f_ring] the list the ring was made from, [f_skip] the
    variable [rehashSkipped] of [run]; [f_fail m] and [f_conn m] are [failCount]
    and [connected] of the entry for node m; [f_up]: the process runs. *)
Record fext := mkX { f_active : list nat; f_ring : list nat; f_skip : bool;
                     f_fail : nat -> nat; f_conn : nat -> bool; f_up : bool }.
(** cluster_leader.go:68-77, with the receiver *)
Record fping := mkFP { g_to : nat; g_leader : nat; g_term : nat; g_sig : bytes; g_nodes : list nat }.
(** [x_pings]: delivered to the channel of the receiver and not taken.  The
    pings in [x_el] without an entry here were lost. *)
Record fstate := mkFS { x_el : cluster; x_ext : nat -> fext; x_pings : list fping }.

(** cluster_leader.go:101-136 [failoverInit]; map order: the order of [nodes] *)
Definition fext_new (nodes : list nat) (n : nat) : fext :=
  mkX (others nodes n ++ [n]) (others nodes n ++ [n]) false (fun _ => 0) (fun _ => false) true.
Definition f_init (nodes : list nat) : fstate := mkFS c_init (fext_new nodes) [].

Definition set_ext (f : nat -> fext) (n : nat) (x : fext) : nat -> fext := fun m => if Nat.eqb m n then x else f m.
Definition upd {A} (f : nat -> A) (n : nat) (v : A) : nat -> A := fun m => if Nat.eqb m n then v else f m.
Definition fping_dec : forall a b : fping, {a = b} + {a <> b}.
Proof. repeat decide equality. Defined.
Fixpoint take_ping (p : fping) (l : list fping) : option (list fping) :=
  match l with
  | [] => None
  | q :: r => if fping_dec q p then Some r else option_map (cons q) (take_ping p r)
  end.

(** cluster.go:188-207 [call] to a node that answers or not: the process ends
    at line 194 ([log.Fatal] of zerolog calls [os.Exit]). *)
Inductive called := CalledOk | CalledErr | CalledExit.
Definition call (connected answers : bool) : called :=
  if negb connected then CalledErr else if answers then CalledOk else CalledExit.

(** cluster_leader.go:164-185, the loop of [sendPings]: failure counts, pings
    sent and whether to rehash; [None] in the last place: the process ended. *)
Fixpoint ping_loop (limit : nat) (mk : nat -> fping) (conn answers : nat -> bool) (ms : list nat)
         (fail : nat -> nat) (sent : list fping) (rehash : bool) : (nat -> nat) * list fping * option bool :=
  match ms with
  | [] => (fail, sent, Some rehash)
  | m :: r =>
      match call (conn m) (answers m) with
      | CalledOk => ping_loop limit mk conn answers r (upd fail m 0) (mk m :: sent)
                              (rehash || (limit <=? fail m))
      | CalledErr => ping_loop limit mk conn answers r (upd fail m (S (fail m))) sent
                               (rehash || (S (fail m) =? limit))
      | CalledExit => (fail, sent, None)
      end
  end.

(** cluster.go:607-618: a nil list stands for all nodes *)
Definition rehashed (nodes : list nat) (n : nat) (l : list nat) : list nat :=
  match l with [] => others nodes n ++ [n] | _ => l end.

(** cluster_leader.go:307-319, the ring of a node that takes a ping *)
Definition follow (R : renv) (nodes : list nat) (n : nat) (x : fext) (sg : bytes) (ns : list nat) : fext :=
  if bytes_eqb sg (signature R (f_ring x)) then x
  else if f_skip x then mkX (f_active x) (rehashed nodes n ns) false (f_fail x) (f_conn x) (f_up x)
  else mkX (f_active x) (f_ring x) true (f_fail x) (f_conn x) (f_up x).

Inductive fevent :=
  | FElect (n : nat)
  | FVote (cand voter term : nat)
  | FReply (cand voter term : nat) (result : bool) (vterm : nat)
  | FReplyErr (n m : nat)           (* the call of n to m failed, cluster.go:214-245 *)
  | FTimeout (n : nat)
  | FDial (n m : nat)               (* cluster.go:152-161 *)
  | FPings (n : nat) (silent : list nat)      (* [silent] do not answer *)
  | FPing (p : fping)
  | FForward (n m : nat) (answered : bool)    (* cluster.go:253-262 *)
  | FStop (n : nat)                 (* the process ends *)
  | FStart (n : nat).               (* ... and is started again *)

Definition up (s : fstate) (n : nat) : bool := f_up (x_ext s n).
Definition set_up (b : bool) (x : fext) : fext := mkX (f_active x) (f_ring x) (f_skip x) (f_fail x) (f_conn x) b.
Definition set_link (m : nat) (b : bool) (x : fext) : fext :=
  mkX (f_active x) (f_ring x) (f_skip x) (f_fail x) (upd (f_conn x) m b) (f_up x).
Definition with_ext (s : fstate) (n : nat) (x : fext) : fstate := mkFS (x_el s) (set_ext (x_ext s) n x) (x_pings s).
(** a step of the election by node [n] *)
Definition elect (nodes : list nat) (s : fstate) (n : nat) (e : event) : option (fstate * option (nat * nat)) :=
  if up s n then
    match do_event nodes (x_el s) e with
    | Some (c, w) => Some (mkFS c (x_ext s) (x_pings s), w)
    | None => None
    end
  else None.

Definition f_step (R : renv) (nodes : list nat) (limit : nat) (s : fstate) (e : fevent)
  : option (fstate * option (nat * nat)) :=
  match e with
  | FElect n => elect nodes s n (EElect n)
  | FVote c v t => elect nodes s v (EVote c v t)
  | FReply c v t r vt => elect nodes s c (EReply c v t r vt)
  | FReplyErr n m =>
      match elect nodes s n (EReplyErr n) with
      | Some (s1, w) => Some (with_ext s1 n (set_link m false (x_ext s1 n)), w)
      | None => None
      end
  | FTimeout n => elect nodes s n (ETimeout n)
  | FDial n m => if up s n && up s m then Some (with_ext s n (set_link m true (x_ext s n)), None) else None
  | FPings n silent =>
      match elect nodes s n (ESendPings n) with
      | None => None
      | Some (s1, _) =>
          let x := x_ext s n in
          let mk := fun m => mkFP m n (n_term (c_node (x_el s) n)) (signature R (f_ring x)) (f_active x) in
          let answers := fun m => up s m && negb (existsb (Nat.eqb m) silent) in
          let '(fail, sent, res) := ping_loop limit mk (f_conn x) answers (others nodes n) (f_fail x) [] false in
          let s2 := mkFS (x_el s1) (x_ext s1) (sent ++ x_pings s1) in
          let x2 := mkX (f_active x) (f_ring x) (f_skip x) fail (f_conn x) (f_up x) in
          Some (match res with
                | None => with_ext s2 n (set_up false x2)
                | Some false => with_ext s2 n x2
                | Some true =>
                    (* 187-201 *)
                    let active := filter (fun m => fail m <? limit) (others nodes n) ++ [n] in
                    with_ext s2 n (mkX active active (f_skip x) fail (f_conn x) (f_up x))
                end, None)
      end
  | FPing p =>
      let n := g_to p in
      match elect nodes s n (EPing n (g_leader p) (g_term p)), take_ping p (x_pings s) with
      | Some (s1, w), Some ps =>
          let s2 := mkFS (x_el s1) (x_ext s1) ps in
          if g_term p <? n_term (c_node (x_el s) n) then Some (s2, w)
          else Some (with_ext s2 n (follow R nodes n (x_ext s n) (g_sig p) (g_nodes p)), w)
      | _, _ => None
      end
  | FForward n m answered =>
      if up s n then
        match call (f_conn (x_ext s n) m) (up s m && answered) with
        | CalledExit => Some (with_ext s n (set_up false (x_ext s n)), None)
        | _ => Some (s, None)
        end
      else None
  | FStop n => if up s n then Some (with_ext s n (set_up false (x_ext s n)), None) else None
  | FStart n =>
      if up s n then None
      else match do_event nodes (x_el s) (ERestart n) with
           | Some (c, w) => Some (mkFS c (set_ext (x_ext s) n (fext_new nodes n))
                                   (filter (fun p => negb (g_to p =? n)) (x_pings s)), w)
           | None => None
           end
  end.

Fixpoint f_run (R : renv) (nodes : list nat) (limit : nat) (s : fstate) (es : list fevent)
  : option (fstate * list (nat * nat)) :=
  match es with
  | [] => Some (s, [])
  | e :: r => match f_step R nodes limit s e with
              | None => None
              | Some (s1, w) =>
                  match f_run R nodes limit s1 r with
                  | None => None
                  | Some (s2, ws) => Some (s2, match w with Some x => x :: ws | None => ws end)
                  end
              end
  end.

(** cluster.go:351-373 [nodeForContract], [isRemoteContract]: the node that a
    node takes for the owner of a contract *)
Definition owner (R : renv) (s : fstate) (n : nat) (contract : bytes) : bytes :=
  ring_get (ring_of R (f_ring (x_ext s n))) contract.
Definition is_remote (R : renv) (s : fstate) (n : nat) (contract : bytes) : bool :=
  negb (bytes_eqb (owner R s n contract) (re_name R n)).
(** cluster.go:298: whether node [m] takes a request that node [n] forwards *)
Definition accepts (R : renv) (s : fstate) (n m : nat) : bool :=
  bytes_eqb (signature R (f_ring (x_ext s n))) (signature R (f_ring (x_ext s m))).
