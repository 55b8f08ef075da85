(** C121: percentiles of a sample, and the means of its ends. *)
From Verif Require Import M_Bytes M_Sample M_Percent S_Streams S_Percent P_Percent.
From Coq Require Import Permutation.
Open Scope nat_scope.

(** P75, P95, P99 and P999 *)
Theorem C121_percentiles : forall ops, (N.of_nat (length ops) < 2 ^ 64)%N ->
  exists s, fold_left sample_step ops (Some (sample_new 50)) = Some s /\
  let w := newest 50 (since ops []) in
  w <> [] -> forall a b, In (a, b) [(75, 100); (95, 100); (99, 100); (999, 1000)] ->
  exists m lo hi, ts_p (Z.of_nat a) (Z.of_nat b) (snapshot s) = Some m /\ Permutation w (lo ++ m :: hi) /\
    Forall (fun y => y <= m)%Z lo /\ Forall (Z.le m) hi /\ nearest (length w) a b (length lo + 1).
Proof. exact percentiles. Qed.
Print Assumptions C121_percentiles.

(** Long5p and Short5p *)
Theorem C121_ends : forall ops, (N.of_nat (length ops) < 2 ^ 64)%N ->
  exists s, fold_left sample_step ops (Some (sample_new 50)) = Some s /\
  let w := newest 50 (since ops []) in
  w <> [] -> Forall (Z.le 0) w -> (total w < 2 ^ 63)%Z ->
  (exists k l lo hi, ts_long5p (snapshot s) = Some l /\ Permutation w (lo ++ hi) /\ all_below lo hi /\
     nearest (length w) 95 100 k /\ length hi = Nat.max 1 (length w - k) /\ mean_of l hi) /\
  (exists k l lo hi, ts_short5p (snapshot s) = Some l /\ Permutation w (lo ++ hi) /\ all_below lo hi /\
     nearest (length w) 5 100 k /\ length lo = Nat.max 1 k /\ mean_of l lo).
Proof. exact ends. Qed.
Print Assumptions C121_ends.

(** The numbers shown together are in order. *)
Theorem C121_order : forall ops, (N.of_nat (length ops) < 2 ^ 64)%N ->
  exists s, fold_left sample_step ops (Some (sample_new 50)) = Some s /\
  let w := newest 50 (since ops []) in
  w <> [] -> Forall (Z.le 0) w -> (total w < 2 ^ 63)%Z ->
  exists lowest short p50 p75 p95 p99 p999 long highest,
    ts_min (snapshot s) = Some lowest /\ ts_short5p (snapshot s) = Some short /\ ts_p50 (snapshot s) = Some p50 /\
    ts_p 75 100 (snapshot s) = Some p75 /\ ts_p 95 100 (snapshot s) = Some p95 /\ ts_p 99 100 (snapshot s) = Some p99 /\
    ts_p 999 1000 (snapshot s) = Some p999 /\ ts_long5p (snapshot s) = Some long /\ ts_max (snapshot s) = Some highest /\
    (lowest <= short <= p50 /\ p50 <= p75 <= p95 /\ p95 <= p99 <= p999 /\ p999 <= highest /\ p95 <= long <= highest)%Z.
Proof. exact order. Qed.
Print Assumptions C121_order.

(** Without any time each of them panics. *)
Theorem C121_empty_refuted :
  ts_p 75 100 (snapshot (sample_new 50)) = None /\ ts_p 999 1000 (snapshot (sample_new 50)) = None /\
  ts_long5p (snapshot (sample_new 50)) = None /\ ts_short5p (snapshot (sample_new 50)) = None.
Proof. exact empty_percent. Qed.
Print Assumptions C121_empty_refuted.

(** The times 1 to 30, the longer ones first; then 70 times, of which 50 are kept. *)
Example t_percent : let ops := map (fun n => MAdd (Z.of_nat (31 - n))) (seq 1 30) in
  match fold_left sample_step ops (Some (sample_new 50)) with
  | Some s => newest 50 (since ops []) <> [] /\ ts_p 75 100 (snapshot s) = Some 23%Z /\ ts_p 95 100 (snapshot s) = Some 29%Z /\
              ts_p 99 100 (snapshot s) = Some 30%Z /\ ts_long5p (snapshot s) = Some 30%Z /\ ts_short5p (snapshot s) = Some 1%Z
  | None => False
  end.
Proof. vm_compute. repeat split; discriminate. Qed.
Example t_percent_full : let ops := map (fun n => MAdd (Z.of_nat (71 - n))) (seq 1 70) in
  match fold_left sample_step ops (Some (sample_new 50)) with
  | Some s => length (newest 50 (since ops [])) = 50 /\ ts_p 95 100 (snapshot s) = Some 48%Z /\
              ts_long5p (snapshot s) = Some 49%Z /\ ts_short5p (snapshot s) = Some 2%Z
  | None => False
  end.
Proof. vm_compute. repeat split. Qed.
