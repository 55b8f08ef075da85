(** Proofs about the uptime text. *)
From Verif Require Import M_Bytes M_Uptime S_Uptime.
From Coq Require Import Lia ZifyBool ZifyNat ZifyN.
Open Scope Z_scope.

Lemma read_digits : forall fuel n acc cur, (n < 10 ^ N.of_nat fuel)%N -> (0 < fuel)%nat ->
  exists k, (n < 10 ^ k)%N /\ read_parts cur (dec_loop fuel n acc) = read_parts (Some (match cur with Some c => c | None => 0 end * 10 ^ Z.of_N k + Z.of_N n)) acc.
Proof.
  induction fuel as [|fuel IH]; intros n acc cur Hn Hf; [lia|]. cbn [dec_loop].
  pose proof (N.mod_lt n 10 ltac:(lia)) as Hm. pose proof (N.div_mod n 10 ltac:(lia)) as Hd.
  assert (Hr : forall c, read_parts c ((48 + n mod 10)%N :: acc) = read_parts (Some (match c with Some x => x | None => 0 end * 10 + Z.of_N (n mod 10))) acc).
  { intros c. cbn [read_parts]. replace ((48 <=? 48 + n mod 10) && (48 + n mod 10 <=? 57))%N%bool with true by lia.
    now replace (48 + n mod 10 - 48)%N with (n mod 10)%N by lia. }
  destruct (N.eqb_spec (n / 10) 0) as [E|E].
  - exists 1%N. rewrite Hr. split; [change (10 ^ 1)%N with 10%N; lia|]. change (10 ^ Z.of_N 1) with 10. f_equal. f_equal. rewrite E in Hd. lia.
  - assert (Hn' : (n / 10 < 10 ^ N.of_nat fuel)%N).
    { apply N.div_lt_upper_bound; [lia|]. rewrite Nnat.Nat2N.inj_succ, N.pow_succ_r' in Hn. exact Hn. }
    destruct fuel as [|fuel']; [cbn in Hn'; lia|].
    destruct (IH (n / 10)%N ((48 + n mod 10)%N :: acc) cur Hn' ltac:(lia)) as (k & Hk & ->). exists (k + 1)%N. rewrite Hr.
    rewrite N.add_1_r, N.pow_succ_r'. split; [lia|]. f_equal. f_equal. rewrite N2Z.inj_succ, Z.pow_succ_r by lia.
    assert (Hz : Z.of_N n = 10 * Z.of_N (n / 10) + Z.of_N (n mod 10)) by lia. rewrite Hz. ring.
Qed.
Lemma size_bound n : (n < 10 ^ N.of_nat (S (N.size_nat n)))%N.
Proof.
  assert (H : (n < 2 ^ N.of_nat (N.size_nat n))%N).
  { rewrite <- (N2Nat.id (N.size n)) at 1 || idtac. destruct n as [|p]; [reflexivity|]. change (N.of_nat (N.size_nat (N.pos p))) with (N.of_nat (Pos.size_nat p)).
    induction p as [p IH|p IH|]; cbn [Pos.size_nat]; rewrite ?Nnat.Nat2N.inj_succ, ?N.pow_succ_r'; lia. }
  eapply N.lt_le_trans; [exact H|]. etransitivity; [|apply N.pow_le_mono_r; [lia|]; instantiate (1 := N.of_nat (N.size_nat n)); lia].
  apply N.pow_le_mono_l. lia.
Qed.
Lemma read_dec z b u r ps : 0 <= z -> unit_of b = Some u -> (b <? 48)%N = false -> (57 <? b)%N = true -> read_parts None r = Some ps ->
  read_parts None (dec z ++ [b] ++ r) = Some ((z, u) :: ps).
Proof.
  intros Hz Hu H1 H2 Hr. unfold dec. replace (z <? 0) with false by lia.
  assert (Happ : forall fuel n acc, dec_loop fuel n acc ++ [b] ++ r = dec_loop fuel n (acc ++ [b] ++ r)).
  { induction fuel as [|fuel IH]; intros n acc; cbn [dec_loop]; [reflexivity|]. destruct (n / 10 =? 0)%N; [reflexivity|]. apply IH. }
  rewrite Happ. destruct (read_digits _ (Z.abs_N z) ([] ++ [b] ++ r) None (size_bound (Z.abs_N z)) ltac:(lia)) as (k & _ & ->).
  cbn [app read_parts]. replace ((48 <=? b) && (b <=? 57))%N%bool with false by lia. rewrite Hu, Hr.
  f_equal. f_equal. f_equal. lia.
Qed.
Lemma uptime_read d : 0 <= d -> exists ps, read_parts None (uptime d) = Some ps /\ length_of ps = d / 1000000000 /\ proper ps.
Proof.
  intros Hd. unfold uptime. cbv zeta.
  rewrite (Z.quot_div_nonneg d) by lia. set (s := d / 1000000000). assert (Hs : 0 <= s) by (apply Z.div_pos; lia). clearbody s. clear d Hd.
  rewrite (Z.quot_div_nonneg s 60), (Z.rem_mod_nonneg s 60) by lia. set (m := s / 60). set (s1 := s mod 60).
  assert (0 <= m /\ s = 60 * m + s1 /\ 0 <= s1 < 60) as (Hm & Es & Hs1) by (unfold m, s1; pose proof (Z.div_mod s 60); pose proof (Z.mod_pos_bound s 60); pose proof (Z.div_pos s 60); lia). clearbody m s1.
  rewrite (Z.quot_div_nonneg m 60), (Z.rem_mod_nonneg m 60) by lia. set (h := m / 60). set (m1 := m mod 60).
  assert (0 <= h /\ m = 60 * h + m1 /\ 0 <= m1 < 60) as (Hh & Em & Hm1) by (unfold h, m1; pose proof (Z.div_mod m 60); pose proof (Z.mod_pos_bound m 60); pose proof (Z.div_pos m 60); lia). clearbody h m1.
  rewrite (Z.quot_div_nonneg h 24), (Z.rem_mod_nonneg h 24) by lia. set (y := h / 24). set (h1 := h mod 24).
  assert (0 <= y /\ h = 24 * y + h1 /\ 0 <= h1 < 24) as (Hy & Eh & Hh1) by (unfold y, h1; pose proof (Z.div_mod h 24); pose proof (Z.mod_pos_bound h 24); pose proof (Z.div_pos h 24); lia). clearbody y h1.
  rewrite (Z.quot_div_nonneg y 365), (Z.rem_mod_nonneg y 365) by lia. set (w := y / 365). set (y1 := y mod 365).
  assert (0 <= w /\ y = 365 * w + y1 /\ 0 <= y1 < 365) as (Hw & Ey & Hy1) by (unfold w, y1; pose proof (Z.div_mod y 365); pose proof (Z.mod_pos_bound y 365); pose proof (Z.div_pos y 365); lia). clearbody w y1.
  assert (R : forall b u z r ps, 0 <= z -> unit_of b = Some u -> (b <? 48)%N = false -> (57 <? b)%N = true -> read_parts None r = Some ps -> read_parts None (dec z ++ [b] ++ r) = Some ((z, u) :: ps)) by (intros; now apply read_dec).
  destruct (Z.ltb_spec 0 w); [|destruct (Z.ltb_spec 0 y); [|destruct (Z.ltb_spec 0 h); [|destruct (Z.ltb_spec 0 m)]]].
  all: eexists; split; [rewrite <- ?app_assoc; repeat (eapply R; [lia|reflexivity|reflexivity|reflexivity|]); try reflexivity|].
  all: try (rewrite <- (app_nil_r [115%N]); eapply R; [lia|reflexivity|reflexivity|reflexivity|reflexivity]).
  all: cbn [length_of fold_right fst snd seconds proper carried below]; (split; [lia|]); repeat match goal with |- _ /\ _ => split end; try lia; try reflexivity; try exact I; try (intros; first [lia|discriminate|congruence|intuition discriminate]).
Qed.
Lemma uptime_tells d d' : 0 <= d -> 0 <= d' -> uptime d = uptime d' -> d / 1000000000 = d' / 1000000000.
Proof.
  intros H H' E. destruct (uptime_read d H) as (ps & R & L & _). destruct (uptime_read d' H') as (ps' & R' & L' & _). congruence.
Qed.
