(** C120: the uptime shown is the time the database or server has been up. *)
From Verif Require Import M_Bytes M_Uptime S_Uptime P_Uptime.
Open Scope Z_scope.

Theorem C120_uptime : forall d, 0 <= d ->
  exists ps, read_parts None (uptime d) = Some ps /\ length_of ps = d / 1000000000 /\ proper ps.
Proof. exact uptime_read. Qed.
Print Assumptions C120_uptime.

(** Two times that show the same uptime are in the same second. *)
Theorem C120_tells : forall d d', 0 <= d -> 0 <= d' -> uptime d = uptime d' -> d / 1000000000 = d' / 1000000000.
Proof. exact uptime_tells. Qed.
Print Assumptions C120_tells.

(** A year, a day, two hours and some: "1y1d2h0m5s". *)
Example C120_example :
  0 <= 31629605 * 1000000000 + 7 /\
  uptime (31629605 * 1000000000 + 7) = [49; 121; 49; 100; 50; 104; 48; 109; 53; 115]%N /\
  read_parts None (uptime (31629605 * 1000000000 + 7)) = Some [(1, Years); (1, Days); (2, Hours); (0, Minutes); (5, Seconds)].
Proof. vm_compute. repeat split; discriminate. Qed.
Example C120_minute : uptime (61 * 1000000000) = [49; 109; 49; 115]%N /\ uptime 999999999 = [48; 115]%N.
Proof. vm_compute. split; reflexivity. Qed.
