(** Server: leader election, ring, framing, message ids, subscriptions, sniffing. *)
From Verif Require Import M_Bytes M_Leader S_Leader P_Leader M_Ring S_Ring P_Ring M_Wire M_MsgIds M_Subs S_Server
  P_Wire P_MsgIds P_Subs M_Patricia P_Patricia.
From Coq Require Import ZArith Lia Permutation.
Import ListNotations.
Open Scope nat_scope.

(** C41.  Elections won in the same term are won by the same node ... *)
Theorem C41_elected_once : forall nodes es s ws n n' t, NoDup nodes -> no_restart es ->
  run nodes c_init es = Some (s, ws) -> In (n, t) ws -> In (n', t) ws -> n = n'.
Proof. exact elected_once. Qed.
Print Assumptions C41_elected_once.
(** ... and two nodes that take themselves for the leader are in different terms. *)
Theorem C41_leaders_agree : forall nodes es s ws n n', NoDup nodes -> no_restart es ->
  run nodes c_init es = Some (s, ws) ->
  n_leader (c_node s n) = Some n -> n_leader (c_node s n') = Some n' ->
  n_term (c_node s n) = n_term (c_node s n') -> n = n'.
Proof. exact leaders_agree. Qed.
Print Assumptions C41_leaders_agree.
(** Node 0 is elected in term 1 and pings node 1; node 2 hears nothing and wins
    term 2 with the vote of node 1: two leaders, of different terms. *)
Example C41_example :
  match run [0; 1; 2] c_init [EElect 0; EVote 0 1 1; EReply 0 1 1 true 1; ESendPings 0; EPing 1 0 1;
                              EVote 0 2 1; EElect 2; EVote 2 1 2; EReply 2 1 2 true 2] with
  | Some (s, ws) => ws = [(0, 1); (2, 2)] /\ n_leader (c_node s 0) = Some 0 /\ n_leader (c_node s 2) = Some 2
  | None => False
  end.
Proof. vm_compute. auto. Qed.

(** C53.  Term and vote are only in memory: a node that restarts votes again. *)
Theorem C53_refuted : exists nodes es s, NoDup nodes /\ run nodes c_init es = Some (s, [(0, 1); (1, 1)]) /\
  n_leader (c_node s 0) = Some 0 /\ n_leader (c_node s 1) = Some 1 /\ n_term (c_node s 0) = n_term (c_node s 1).
Proof.
  eexists [0; 1; 2], [EElect 0; EVote 0 2 1; EReply 0 2 1 true 1; ERestart 2; EElect 1; EVote 1 2 1; EReply 1 2 1 true 1], _.
  split; [repeat constructor; cbn; lia|]. vm_compute. auto.
Qed.
Print Assumptions C53_refuted.

(** C42.  The owner is the one the specification picks from the set of points, ... *)
Theorem C42_owner : forall replicas h itoa srt adds key, sorts srt -> (0 < replicas)%nat -> concat adds <> [] ->
  owns replicas h itoa (concat adds) key (ring_get (built replicas h itoa srt adds) key).
Proof. exact get_owns. Qed.
Print Assumptions C42_owner.
(** ... so it depends only on the set of nodes, ... *)
Theorem C42_same_owner : forall replicas h itoa srt srt' adds adds' key, sorts srt -> sorts srt' ->
  (0 < replicas)%nat -> concat adds <> [] -> (forall n, In n (concat adds) <-> In n (concat adds')) ->
  ring_get (built replicas h itoa srt adds) key = ring_get (built replicas h itoa srt' adds') key.
Proof. exact same_owner. Qed.
Print Assumptions C42_same_owner.
(** ... is one of them, ... *)
Theorem C42_member : forall replicas h itoa srt adds key, sorts srt -> (0 < replicas)%nat -> concat adds <> [] ->
  In (ring_get (built replicas h itoa srt adds) key) (concat adds).
Proof. exact owner_member. Qed.
Print Assumptions C42_member.
(** ... and taking nodes away moves only the keys those nodes had. *)
Theorem C42_removal : forall replicas h itoa srt adds adds' key, sorts srt -> (0 < replicas)%nat ->
  (forall n, In n (concat adds') -> In n (concat adds)) ->
  In (ring_get (built replicas h itoa srt adds) key) (concat adds') ->
  ring_get (built replicas h itoa srt adds') key = ring_get (built replicas h itoa srt adds) key.
Proof. exact owner_removal. Qed.
Print Assumptions C42_removal.
(** Equal signatures need equal points; the points are those of the set. *)
Theorem C42_points : forall replicas h itoa srt srt' adds adds', sorts srt -> sorts srt' ->
  Permutation (concat adds) (concat adds') ->
  r_keys (built replicas h itoa srt adds) = r_keys (built replicas h itoa srt' adds').
Proof. exact built_same. Qed.
Print Assumptions C42_points.
Example C42_example : sorts isort /\
  let h := fun b => (fold_left (fun a x => a * 57 + x * x + 13) b 7 mod 97)%N in
  let itoa := fun i => [N.of_nat i + 48]%N in
  map (fun k => ring_get (built 3 h itoa isort [[[65]; [66]]; [[67]]]%N) [k]) [1; 6; 8]%N = [[67]; [65]; [66]]%N /\
  map (fun k => ring_get (built 3 h itoa isort [[[67]; [66]; [65]]]%N) [k]) [1; 6; 8]%N = [[67]; [65]; [66]]%N /\
  map (fun k => ring_get (built 3 h itoa isort [[[67]; [65]]]%N) [k]) [1; 6]%N = [[67]; [65]]%N.
Proof. split; [exact isort_sorts|]. vm_compute. auto. Qed.

Open Scope N_scope.
(** C43.  Lengths below 2^28 ... *)
Theorem C43_length_partial : forall len rest, len < 2 ^ 28 ->
  decodeLength (encodeLength len ++ rest) = Some (len, rest).
Proof. exact decode_encode. Qed.
Print Assumptions C43_length_partial.
(** ... and so whole streams of messages come back, whatever follows. *)
Theorem C43_stream : forall C ms rest, hcodec_ok C ->
  Forall (fun m => match m with (ty, fl, b) => sendable ty fl b end) ms ->
  read_all C (length ms) (encode_all C ms ++ rest) = (ms, rest).
Proof. exact read_all_encode. Qed.
Print Assumptions C43_stream.
Example C43_example : decodeLength (encodeLength 300000 ++ [9; 9]) = Some (300000, [9; 9]) /\
  hcodec_ok toy_hcodec /\ sendable PUBLISH 1 [1; 2; 3] /\ sendable PINGREQ 1 [] /\
  read_all toy_hcodec 2 (encode_all toy_hcodec [(PUBLISH, 1, [1; 2; 3]); (PINGREQ, 1, [])] ++ [7])
  = ([(PUBLISH, 1, [1; 2; 3]); (PINGREQ, 1, [])], [7]).
Proof.
  split; [vm_compute; reflexivity|]. split; [exact toy_hcodec_ok|].
  split; [repeat split; cbn; try lia; intros [H|H]; discriminate|].
  split; [repeat split; cbn; lia|]. vm_compute. reflexivity.
Qed.
(** Longer lengths never come back. *)
Theorem C43_refuted : forall len rest, 2 ^ 28 <= len -> forall rest', decodeLength (encodeLength len ++ rest) <> Some (len, rest').
Proof. exact long_lost. Qed.
Print Assumptions C43_refuted.

Open Scope Z_scope.
(** C44.  Ids are fresh as long as nothing is reset, the counter does not wrap,
    and no id about to be given out is marked for resumption; ... *)
Theorem C44_fresh_partial : forall ops ty, no_reset ops -> Z.of_nat (nexts ops) + 1 < 2 ^ 31 ->
  (forall id, resumed ops id -> ~ 1 <= id <= Z.of_nat (nexts ops) + 1) ->
  exists id m', mids_step (fst (mids_run mids_new ops)) (MNext ty) = (m', Some id) /\
    id = Z.of_nat (nexts ops) + 1 /\
    ~ In id (in_use ops (snd (mids_run mids_new ops)) []) /\ ~ resumed ops id /\ getType m' id = Some ty.
Proof. exact next_fresh. Qed.
Print Assumptions C44_fresh_partial.
(** ... on the wire, where they have 16 bits, for 65535 requests. *)
Theorem C44_wire_partial : forall ops ty, no_reset ops -> Z.of_nat (nexts ops) + 1 < 2 ^ 16 ->
  (forall id, resumed ops id -> ~ 1 <= id <= Z.of_nat (nexts ops) + 1) ->
  exists id m', mids_step (fst (mids_run mids_new ops)) (MNext ty) = (m', Some id) /\
    ~ In (wire_id id) (map wire_id (in_use ops (snd (mids_run mids_new ops)) [])) /\ wire_id id <> 0.
Proof. exact next_wire_fresh. Qed.
Print Assumptions C44_wire_partial.
(** In every history the type looked up for an id is the one of the last request
    answered with it, until it is given back. *)
Theorem C44_type : forall ops id, getType (fst (mids_run mids_new ops)) id = type_of ops (snd (mids_run mids_new ops)) id None.
Proof. exact type_exact. Qed.
Print Assumptions C44_type.
Example C44_example : let ops := [MNext 1; MResume 9; MNext 2; MFree 1; MNext 3] in
  no_reset ops /\ nexts ops = 3%nat /\ snd (mids_run mids_new ops) = [Some 1; Some 0; Some 2; Some 0; Some 3] /\
  in_use ops (snd (mids_run mids_new ops)) [] = [3; 2] /\
  map (fun id => type_of ops (snd (mids_run mids_new ops)) id None) [1; 2; 3; 9] = [None; Some 2%N; Some 3%N; None].
Proof. split; [intros H; repeat destruct H as [H|H]; try discriminate; exact H|]. vm_compute. auto. Qed.
(** An id marked for resumption is never given out again, whatever is done,
    resets included. *)
Theorem C44_resumed : forall a b id i ty, resumed a id -> nth_error b i = Some (MNext ty) ->
  nth_error (snd (mids_run (fst (mids_run mids_new a)) b)) i <> Some (Some id).
Proof. exact resumed_kept. Qed.
Print Assumptions C44_resumed.
Example C44_resumed_example : resumed [MNext 1; MResume 2] 2 /\ snd (mids_run (fst (mids_run mids_new [MNext 1; MResume 2])) [MReset; MNext 7; MNext 7]) = [Some 0; Some 1; None].
Proof. split; [right; now left|reflexivity]. Qed.
(** An id marked for resumption makes the request that reaches it, and every
    later call, wait for ever. *)
Theorem C44_hang_refuted : forall ops ty, no_reset ops -> Z.of_nat (nexts ops) + 1 < 2 ^ 31 ->
  (forall id, resumed ops id -> ~ 1 <= id <= Z.of_nat (nexts ops)) ->
  resumed ops (Z.of_nat (nexts ops) + 1) ->
  forall more, Forall (fun r => r = None) (snd (mids_run (fst (mids_run mids_new ops)) (MNext ty :: more))).
Proof. exact resumed_hangs. Qed.
Print Assumptions C44_hang_refuted.
(** Ids in use repeat on the wire after 65536 requests, even with none given back, ... *)
Theorem C44_wire_refuted : forall ty, exists a b,
  nth_error (snd (mids_run mids_new (repeat (MNext ty) (N.to_nat 65537)))) 0 = Some (Some a) /\
  nth_error (snd (mids_run mids_new (repeat (MNext ty) (N.to_nat 65537)))) (N.to_nat 65536) = Some (Some b) /\
  a <> b /\ wire_id a = wire_id b.
Proof. exact wire_repeat. Qed.
Print Assumptions C44_wire_refuted.
(** ... and after a reset at once. *)
Theorem C44_reset_refuted : forall ty, snd (mids_run mids_new [MNext ty; MReset; MNext ty]) = [Some 1; Some 0; Some 1].
Proof. reflexivity. Qed.
Print Assumptions C44_reset_refuted.

(** C45.  The counters say "first" and "last" exactly, ... *)
Theorem C45_first : forall g ops k t f, Forall named ops ->
  snd (increment (c_subs (sub_run g ops)) t k f) = true <-> opened ops k = None.
Proof. exact first_exact. Qed.
Print Assumptions C45_first.
Theorem C45_last : forall g ops k, Forall named ops ->
  snd (decrement (c_subs (sub_run g ops)) k) =
  match opened ops k with Some (1%nat, (i, t)) => (true, Some i) | _ => (false, None) end.
Proof. exact last_exact. Qed.
Print Assumptions C45_last.
(** ... and what is stored is what is open, if requests name their key and the
    store works. *)
Theorem C45_store_partial : forall g ops, Forall keyed ops -> NoDup (fresh_ids ops) ->
  forall i t, In (i, t) (c_store (sub_run g ops)) <-> exists k n, opened ops k = Some (n, (i, t)).
Proof. exact store_exact. Qed.
Print Assumptions C45_store_partial.
Example C45_example : let ops := [SSub [1] [7] [100] true; SSub [2] [8] [101] true; SSub [1] [7] [102] true; SUnsub [1]; SUnsub [2]]%N in
  Forall keyed ops /\ NoDup (fresh_ids ops) /\ c_store (sub_run (fun _ => None) ops) = [([100], [7])]%N /\
  opened ops [1]%N = Some (1%nat, ([100], [7])%N).
Proof.
  split; [repeat constructor; discriminate|]. split; [|split; vm_compute; reflexivity].
  repeat constructor; cbn; intros H; repeat destruct H as [H|H]; try discriminate; exact H.
Qed.
(** Without a key, subscribing makes one up and unsubscribing does not: the
    subscription stays. *)
Theorem C45_nokey_refuted : forall g t f k, g t = Some k -> k <> [] ->
  In (f, t) (c_store (sub_run g [SSub [] t f true; SUnsub []])).
Proof. exact nokey_stays. Qed.
Print Assumptions C45_nokey_refuted.
(** A request the store refused is counted, so the next one is not stored. *)
Theorem C45_failed_refuted : forall g k t f f', k <> [] ->
  c_store (sub_run g [SSub k t f false; SSub k t f' true]) = [].
Proof. exact failed_counts. Qed.
Print Assumptions C45_failed_refuted.

(** C46 *)
Theorem C46_prefix : forall strs r, strs <> [] ->
  matchPrefix (newPatriciaTree strs) r = true <-> exists s rest, In s strs /\ r = s ++ rest.
Proof. exact matchPrefix_spec. Qed.
Print Assumptions C46_prefix.
Theorem C46_exact : forall strs r, strs <> [] -> matchExact (newPatriciaTree strs) r = true <-> In r strs.
Proof. exact matchExact_spec. Qed.
Print Assumptions C46_exact.
(** "PUT", "POST", "POSTER", "GET" *)
Example C46_example : let strs := [[80; 85; 84]; [80; 79; 83; 84]; [80; 79; 83; 84; 69; 82]; [71; 69; 84]]%N in
  matchPrefix (newPatriciaTree strs) [80; 79; 83; 84; 32; 47]%N = true /\
  matchPrefix (newPatriciaTree strs) [80; 79; 83]%N = false /\
  matchExact (newPatriciaTree strs) [80; 79; 83; 84]%N = true /\
  matchExact (newPatriciaTree strs) [80; 79; 83; 84; 69]%N = false.
Proof. vm_compute. auto. Qed.
