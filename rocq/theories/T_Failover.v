(** Clusters: rings, pings and processes. *)
From Verif Require Import M_Bytes M_Ring M_Leader M_Failover S_Failover P_Failover.
Open Scope nat_scope.

(** C41 with rings, connections and processes that end: *)
Theorem C41_failover : forall R nodes limit es s ws n n' t, NoDup nodes -> no_start es ->
  f_run R nodes limit (f_init nodes) es = Some (s, ws) -> In (n, t) ws -> In (n', t) ws -> n = n'.
Proof. exact elected_once_failover. Qed.
Print Assumptions C41_failover.
Example C41_failover_example : f_run R0 n4 2 (f_init n4) late_node = Some (after_late, [(0, 1); (1, 2)]) /\ no_start late_node.
Proof. split; [exact after_late_run|]. intros n. unfold late_node. cbn. intuition discriminate. Qed.

(** C90.  While one node leads, a node that has taken two of its pings about the
    ring it has now agrees with it on the owner of every contract, and keeps a
    contract for itself only if the leader takes it for the owner. *)
Theorem C90_partial : forall R nodes limit l v es1 p mid q s1 s2 s3 w1 w2 w3,
  no_clash R nodes -> In l nodes -> In v nodes -> v <> l ->
  one_leader l (es1 ++ FPing p :: mid) -> keeps_running v mid ->
  g_to p = v -> g_to q = v -> same_ring v (g_sig q) (FPing p :: mid) ->
  f_run R nodes limit (f_init nodes) es1 = Some (s1, w1) -> n_term (c_node (x_el s1) v) <= g_term p ->
  f_run R nodes limit s1 (FPing p :: mid) = Some (s2, w2) -> n_term (c_node (x_el s2) v) <= g_term q ->
  f_step R nodes limit s2 (FPing q) = Some (s3, w3) -> g_sig q = signature R (f_ring (x_ext s3 l)) ->
  accepts R s3 v l = true /\ forall contract, owner R s3 v contract = owner R s3 l contract /\
    (is_remote R s3 v contract = false <-> owner R s3 l contract = re_name R v).
Proof. exact agreement_local. Qed.
Print Assumptions C90_partial.
(** The leader 0 gives up node 3; node 1 skips the first ping about the smaller
    ring and takes it with the second. *)
Example C90_example :
  let es1 := firstn 18 late_node in let p := mkFP 1 0 1 sig3 [1; 2; 0] in
  let mid := firstn 2 (skipn 19 late_node) in let q := p in
  no_clash R0 n4 /\ one_leader 0 (es1 ++ FPing p :: mid) /\ same_ring 1 (g_sig q) (FPing p :: mid) /\
  match f_run R0 n4 2 (f_init n4) es1 with
  | Some (s1, _) =>
      match f_run R0 n4 2 s1 (FPing p :: mid) with
      | Some (s2, _) =>
          match f_step R0 n4 2 s2 (FPing q) with
          | Some (s3, _) =>
              owner R0 s2 1 [49]%N = [100]%N /\ owner R0 s3 1 [49]%N = [98]%N /\ owner R0 s3 0 [49]%N = [98]%N /\
              accepts R0 s2 1 0 = false /\ accepts R0 s3 1 0 = true
          | None => False
          end
      | None => False
      end
  | None => False
  end.
Proof.
  cbv zeta. split; [exact (R0_no_clash n4)|]. split.
  { intros n si. unfold late_node. cbn. intuition congruence. }
  split.
  { intros r Hr Ht. unfold late_node in Hr. cbn in Hr.
    repeat (destruct Hr as [Hr|Hr]; [first [discriminate Hr | assert (E : r = mkFP (g_to r) 0 1 sig3 [1; 2; 0]) by (inversion Hr; reflexivity); rewrite E; reflexivity]|]).
    contradiction. }
  vm_compute. auto 6.
Qed.
(** When a node that leads has sent its pings (and is still there), a connected node
    it had given up is in its ring again, and one it could not reach as many times
    in a row as the limit is not. *)
Theorem C90_pings_partial : forall R nodes limit s l silent s' w, NoDup nodes -> 0 < limit ->
  f_step R nodes limit s (FPings l silent) = Some (s', w) -> up s' l = true ->
  forall m, In m (others nodes l) ->
  (f_conn (x_ext s l) m = true -> limit <= f_fail (x_ext s l) m -> In m (f_ring (x_ext s' l))) /\
  (f_conn (x_ext s l) m = false -> 1 + f_fail (x_ext s l) m = limit -> ~ In m (f_ring (x_ext s' l))).
Proof. exact pings_ring. Qed.
Print Assumptions C90_pings_partial.
(** Node 3 is given up with the second pings, and taken back once it is connected. *)
Example C90_pings_example :
  match f_run R0 n4 2 (f_init n4) (firstn 18 late_node) with
  | Some (s, _) =>
      n_leader (c_node (x_el s) 0) = Some 0 /\ f_ring (x_ext s 0) = [1; 2; 0] /\ 2 <= f_fail (x_ext s 0) 3 /\
      match f_run R0 n4 2 s [FDial 0 3; FPings 0 []] with
      | Some (s', _) => up s' 0 = true /\ f_ring (x_ext s' 0) = [1; 2; 3; 0]
      | None => False
      end
  | None => False
  end.
Proof. vm_compute. auto. Qed.
(** A node that becomes leader after it has taken a ring from an earlier leader
    sends a list that is not its ring.  Nobody has failed, everybody is
    connected, and still one node goes on without agreeing with the leader, for
    as long as this leader leads and nobody fails. *)
Theorem C90_refuted : exists R nodes limit es s ws l v contract,
  all_well es /\ f_run R nodes limit (f_init nodes) es = Some (s, ws) /\
  n_leader (c_node (x_el s) l) = Some l /\ In v nodes /\ v <> l /\ (forall m, In m (others nodes l) -> f_conn (x_ext s l) m = true) /\
  forall es' s' ws', all_well es' -> one_leader l es' -> (forall m, ~ In (FReplyErr l m) es') ->
    f_run R nodes limit s es' = Some (s', ws') ->
    accepts R s' v l = false /\ owner R s' v contract = re_name R v /\ owner R s' l contract <> re_name R v.
Proof. exact late_refuted. Qed.
Print Assumptions C90_refuted.
(** Such continuations: three rounds of pings, all taken. *)
Example C90_rounds :
  match f_run R0 n4 2 after_late (round ++ round ++ round) with
  | Some (s, _) => x_pings s = [] /\ n_leader (c_node (x_el s) 3) = Some 1 /\ accepts R0 s 3 1 = false /\ accepts R0 s 2 1 = true
  | None => False
  end.
Proof. vm_compute. auto. Qed.

(** C91.  As long as no process is stopped and every call is answered, no
    process ends. *)
Theorem C91_partial : forall R nodes limit es s ws, all_well es -> f_run R nodes limit (f_init nodes) es = Some (s, ws) ->
  forall n, up s n = true.
Proof. exact nobody_ends. Qed.
Print Assumptions C91_partial.
Example C91_example : all_well late_node /\ f_run R0 n4 2 (f_init n4) late_node = Some (after_late, [(0, 1); (1, 2)]).
Proof. split; [exact late_well|exact after_late_run]. Qed.
(** One stopped process ends those that call it: the leader with its next
    pings, ... *)
Theorem C91_leader_refuted : forall R nodes limit s l m silent s' w,
  In m (others nodes l) -> f_conn (x_ext s l) m = true -> up s m = false ->
  f_step R nodes limit s (FPings l silent) = Some (s', w) -> up s l = true /\ up s' l = false.
Proof. exact leader_ends. Qed.
Print Assumptions C91_leader_refuted.
Example C91_leader_example :
  match f_run R0 n4 2 after_late [FStop 3; FPings 1 []] with
  | Some (s, _) => up s 1 = false /\ up s 0 = true
  | None => False
  end.
Proof. vm_compute. auto. Qed.
(** ... every node that forwards a request to it, and so all the others, in a
    cluster of any size. *)
Theorem C91_refuted : forall R limit nodes n, NoDup nodes -> In n nodes -> exists es s, stops es = [n] /\
  f_run R nodes limit (f_init nodes) es = Some (s, []) /\ forall m, In m nodes -> up s m = false.
Proof. exact all_end. Qed.
Print Assumptions C91_refuted.
