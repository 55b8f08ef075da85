(** Property theorems: byte streams, packets and samples of the server (C76-C79). *)
From Verif Require Import M_Bytes M_Stream M_Sniff M_Stats M_Sample S_Streams P_Stream P_Sniff P_Stats P_Sample.
From Coq Require Import Lia Sorted Permutation.
Open Scope nat_scope.

(** C76: a stream over gRPC packets, whatever the sizes of writes, packets and reads *)
Theorem C76_stream_partial : forall size ps sizes, (forall k, size = Some k -> 0 < k) ->
  Forall (fun n => 0 < n) sizes ->
  exists ms, gc_writes size ps = Some ms /\
  (forall k, size = Some k -> Forall (fun m => length m <= k) ms) /\
  let outs := fst (gc_reads (gc_new ms) sizes) in
  (exists rest, given outs ++ rest = concat ps) /\
  (In None outs -> given outs = concat ps) /\
  Forall2 (fun n o => match o with
     | Some d => length d <= n /\ (Forall (fun p => p <> []) ps -> d <> [])
     | None => True end) sizes outs.
Proof. exact stream_ok. Qed.
Print Assumptions C76_stream_partial.
Theorem C76_answer : forall size p, (forall k, size = Some k -> 0 < k) ->
  exists ms, gc_write size p = Some (ms, length p) /\ concat ms = p /\
    (forall k, size = Some k -> Forall (fun m => length m <= k) ms) /\
    (p <> [] -> Forall (fun m => m <> []) ms).
Proof. exact write_ok. Qed.
Print Assumptions C76_answer.
(** a read into an empty buffer drops a packet *)
Theorem C76_refuted : exists ps, gc_writes None ps = Some ps /\
  let outs := fst (gc_reads (gc_new ps) [0; 10; 10]) in
  In None outs /\ given outs <> concat ps.
Proof. exact zero_read. Qed.
Print Assumptions C76_refuted.
Theorem C76_chunk_refuted : forall p, p <> [] -> gc_write (Some 0) p = None.
Proof. exact chunk_zero. Qed.
Print Assumptions C76_chunk_refuted.
(** three writes in packets of two bytes, read in pieces of 1, 3, 2, 5, 5, 5 and once too often *)
Example t_stream : gc_writes (Some 2) [[1; 2; 3]; [4]; [5; 6; 7; 8]]%N = Some [[1; 2]; [3]; [4]; [5; 6]; [7; 8]]%N /\
  fst (gc_reads (gc_new [[1; 2]; [3]; [4]; [5; 6]; [7; 8]]%N) [1; 3; 2; 5; 1; 5; 5; 5])
  = [Some [1]; Some [2]; Some [3]; Some [4]; Some [5]; Some [6]; Some [7; 8]; None]%N.
Proof. vm_compute. auto. Qed.

(** C77: the connection that a protocol gets after any matchers have looked at it *)
Theorem C77_conn_partial : forall ps src i c sizes, plain src -> serve ps src = Some (i, c) ->
  let outs := fst (stream_reads c sizes) in
  (exists rest, told outs ++ rest = all_bytes src) /\
  (forall d e, In (d, Some e) outs -> d = []) /\
  (forall d, In (d, Some eof) outs -> told outs = all_bytes src).
Proof. exact served. Qed.
Print Assumptions C77_conn_partial.
Theorem C77_routed_partial : forall gs src, Forall (fun strs => strs <> []) gs -> flowing src ->
  exists j c, serve (map match_ws gs ++ [match_any]) src = Some (j, c) /\
   ((j < length gs /\ first_group gs (all_bytes src) j) \/
    (j = length gs /\ forall strs, In strs gs -> ~ begins strs (all_bytes src))).
Proof. exact routed. Qed.
Print Assumptions C77_routed_partial.
(** an error that came with the sniffed bytes is reported before they are all read *)
Theorem C77_refuted : exists src i c, serve [match_ws [[71; 69; 84]]; match_any]%N src = Some (i, c) /\
  exists d e, fst (stream_reads c [1]) = [(d, Some e)] /\ length d < length (all_bytes src).
Proof. exact early_error. Qed.
Print Assumptions C77_refuted.
(** "GE", "T /": to the first listener, and it reads everything from the start;
    a read that fails in between is not seen again *)
Example t_sniff : let src := [Data [71; 69]; Data [84; 32; 47]]%N in
  flowing src /\
  match serve [match_ws [[80; 85; 84]]; match_ws [[71; 69; 84]]; match_any]%N src with
  | Some (i, c) => i = 1 /\ fst (stream_reads c [2; 9; 9; 9]) = [([71; 69], None); ([84; 32], None); ([47], None); ([], Some 0)]%N
  | None => False
  end.
Proof. split; [repeat constructor; discriminate|]. vm_compute. auto. Qed.
Example t_sniff_fail : let src := [Data [1; 2]; Fail 9; Data [3]]%N in
  plain src /\
  match serve [match_ws [[71; 69; 84]]; match_any]%N src with
  | Some (i, c) => i = 1 /\ fst (stream_reads c [5; 5; 5]) = [([1; 2], None); ([3], None); ([], Some 0)]%N
  | None => False
  end.
Proof. split; [repeat constructor; discriminate|]. vm_compute. auto. Qed.

(** C78: packets of metrics *)
Theorem C78_packets_partial : forall cap max ops, Forall line_ok (lines ops) ->
  exists gs last,
    concat (map snd gs) ++ last = lines ops /\ Forall (fun g => fits max (snd g)) gs /\
    Forall2 datagram (t_wire (srun cap max ops)) (filter not_nil (of_fate Written gs)) /\
    map (@concat N) (of_fate Queued gs) = t_queue (srun cap max ops) /\
    concat last = t_buf (srun cap max ops) /\
    length (of_fate Lost gs) = t_lost (srun cap max ops) /\
    length (of_fate Failed gs) <= fails ops.
Proof. exact packets. Qed.
Print Assumptions C78_packets_partial.
Theorem C78_refuted : exists ops, Forall line_ok (lines ops) /\ lines ops <> [] /\
  let t := srun 10 1400 ops in
  t_wire t = [] /\ t_queue t = [] /\ t_buf t = [] /\ t_lost t = 0.
Proof. exact uncounted. Qed.
Print Assumptions C78_refuted.
(** lines of 3, 3, 3 and 9 bytes, packets of 7 bytes: two lines in the first packet *)
Example t_packets : let l1 := [97; 58; 10]%N in let l2 := [98; 58; 10]%N in let l3 := [99; 58; 10]%N in
  let l4 := [100; 1; 2; 3; 4; 5; 6; 7; 10]%N in
  t_wire (srun 2 7 [SMetric l1; SMetric l2; SMetric l3; SSend true; SMetric l4; SSend true; STick; SSend true])
  = [[97; 58; 10; 98; 58]; [99; 58]; [100; 1; 2; 3; 4; 5; 6; 7]]%N.
Proof. vm_compute. reflexivity. Qed.

(** C79: snapshots of a sample *)
Theorem C79_snapshot_partial : forall size ops, 0 < size -> (N.of_nat (length ops) < 2 ^ 64)%N ->
  exists s, fold_left sample_step ops (Some (sample_new size)) = Some s /\
  let w := newest size (since ops []) in
  Permutation w (snapshot s) /\ StronglySorted Z.le (snapshot s) /\
  (w <> [] ->
   (exists m, ts_min (snapshot s) = Some m /\ In m w /\ Forall (Z.le m) w) /\
   (exists m, ts_max (snapshot s) = Some m /\ In m w /\ Forall (fun y => y <= m)%Z w) /\
   (exists m lo hi, ts_p50 (snapshot s) = Some m /\ Permutation w (lo ++ m :: hi) /\
      Forall (fun y => y <= m)%Z lo /\ Forall (Z.le m) hi /\ length lo = length w / 2)).
Proof. exact answers. Qed.
Print Assumptions C79_snapshot_partial.
(** sum, average and range of durations *)
Theorem C79_sums_partial : forall size ops, 0 < size -> (N.of_nat (length ops) < 2 ^ 64)%N ->
  exists s, fold_left sample_step ops (Some (sample_new size)) = Some s /\
  let w := newest size (since ops []) in
  Forall (Z.le 0) w -> (total w < 2 ^ 63)%Z ->
  ts_cumulative (snapshot s) = total w /\
  (w <> [] ->
   (exists a, ts_avg (snapshot s) = Some a /\ (a * Z.of_nat (length w) <= total w < (a + 1) * Z.of_nat (length w))%Z) /\
   (exists lo hi, ts_range (snapshot s) = Some (hi - lo)%Z /\ In lo w /\ In hi w /\ Forall (fun y => lo <= y <= hi)%Z w)).
Proof. exact sums. Qed.
Print Assumptions C79_sums_partial.
(** no times yet: every answer panics *)
Theorem C79_empty_refuted : ts_min (snapshot (sample_new 50)) = None /\ ts_max (snapshot (sample_new 50)) = None /\
  ts_p50 (snapshot (sample_new 50)) = None /\ ts_avg (snapshot (sample_new 50)) = None.
Proof. exact empty_panics. Qed.
Print Assumptions C79_empty_refuted.
(** without a snapshot the answers are about the unsorted ring, zeros included *)
Theorem C79_live_refuted : exists s, fold_left sample_step [MAdd 5; MAdd 3]%Z (Some (sample_new 50)) = Some s /\
  ts_min (sm_times s) = Some 5%Z /\ ts_max (sm_times s) = Some 0%Z /\ ts_avg (sm_times s) = Some 0%Z.
Proof. exact live_wrong. Qed.
Print Assumptions C79_live_refuted.
Example t_sample : match fold_left sample_step [MAdd 9; MReset; MAdd 4; MAdd 7; MAdd 1; MAdd 8]%Z (Some (sample_new 3)) with
  | Some s => snapshot s = [1; 7; 8]%Z
  | None => False
  end.
Proof. vm_compute. reflexivity. Qed.
