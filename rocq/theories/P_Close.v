(** C112, C113 *)
From Coq Require Import Lia.
From Verif Require Import M_Close S_Close.

Record inv (s : cst) : Prop := {
  i_buf : c_buf s <= 1;
  i_sig : c_signal s = match c_phase s with CIdle | CSignal => false | _ => true end;
  i_gone : match c_phase s with CIdle | CSignal | CWait => True | _ => c_reader s = RGone /\ c_writer s = false end;
  i_over : c_over s = match c_phase s with CDone => true | _ => false end;
  i_subs : c_subs s = match c_phase s with CIdle | CSignal | CWait | CUnsub => true | _ => false end;
  i_cache : c_cached s = match c_phase s with CSend | CDone => false | _ => true end;
  i_tries : c_phase s = CIdle -> c_tries s = 0 -> c_reader s <> RGone /\ c_writer s = true
}.
Ltac go := cbn in *; try (split; cbn; try congruence; try lia; auto; fail).
Lemma inv_start : inv conn_start.
Proof. split; cbn; try congruence; auto. split; congruence. Qed.
Lemma inv_step : forall s ev s', inv s -> step s ev = Some s' -> inv s'.
Proof.
  intros s ev s' I H. destruct I as [Hb Hs Hg Ho Hu Hc Ht]. destruct s as [r w p n sg b ov ca su pu]. cbn in *.
  destruct ev; cbn in H.
  - destruct r as [| |[|k]|]; cbn in H.
    + destruct sg; injection H as <-; split; cbn; auto; destruct p; intuition congruence.
    + injection H as <-. split; cbn; auto.
    + injection H as <-. split; cbn; auto; destruct p; intuition congruence.
    + unfold chan_send in H. cbn in H. destruct ov; [discriminate|]. destruct b as [|b]; cbn in H; injection H as <-; split; cbn; auto; try lia; destruct p; intuition congruence.
    + injection H as <-. split; cbn; auto.
  - destruct r; injection H as <-; split; cbn; auto; destruct p; intuition congruence.
  - destruct r; injection H as <-; split; cbn; auto; destruct p; intuition congruence.
  - destruct r; injection H as <-; split; cbn; auto; destruct p; intuition congruence.
  - destruct r as [| |[|k]|]; injection H as <-; split; cbn; auto; destruct p; intuition congruence.
  - destruct w; [|injection H as <-; split; cbn; auto]. destruct b as [|b].
    + destruct ov; injection H as <-; split; cbn; auto; destruct p; intuition congruence.
    + injection H as <-; split; cbn; auto; try lia.
  - destruct w; cbn in H; [destruct sg; cbn in H|]; injection H as <-; split; cbn; auto; destruct p; intuition congruence.
  - destruct w; [|injection H as <-; split; cbn; auto]. destruct b as [|b]; injection H as <-; split; cbn; auto; try lia; destruct p; intuition congruence.
  - destruct w; injection H as <-; split; cbn; auto; destruct p; intuition congruence.
  - destruct n as [|n]; [injection H as <-; split; cbn; auto|]. destruct p; injection H as <-; split; cbn; auto; intuition congruence.
  - destruct p; cbn in H.
    + injection H as <-; split; cbn; auto.
    + destruct sg; [discriminate|]. injection H as <-; split; cbn; auto; intuition congruence.
    + destruct r; try (injection H as <-; split; cbn; auto; fail). destruct w; injection H as <-; split; cbn; auto; intuition congruence.
    + injection H as <-; split; cbn; auto; intuition congruence.
    + injection H as <-; split; cbn; auto; intuition congruence.
    + destruct ov; [discriminate|]. injection H as <-; split; cbn; auto; intuition congruence.
    + injection H as <-; split; cbn; auto.
  - destruct su; injection H as <-; split; cbn; auto.
  - destruct (nth_error pu i) as [[]|]; try (injection H as <-; split; cbn; auto; fail).
    unfold chan_send in H. cbn in H. destruct ov; [discriminate|]. destruct b as [|b]; cbn in H; injection H as <-; split; cbn; auto; lia.
Qed.
Lemma inv_run : forall es s s', inv s -> run s es = Some s' -> inv s'.
Proof.
  induction es as [|ev es IH]; cbn; intros s s' I H; [now injection H as <-|].
  destruct (step s ev) as [s1|] eqn:F; [|discriminate]. eapply IH; [|exact H]. eapply inv_step; eassumption.
Qed.
Lemma inv_reached : forall s, reached s -> inv s.
Proof. intros s (es & H). eapply inv_run; [exact inv_start|exact H]. Qed.
Lemma run_app : forall a s b, run s (a ++ b) = match run s a with Some s1 => run s1 b | None => None end.
Proof. induction a as [|x a IH]; cbn; intros; [reflexivity|]. destruct (step s x); auto. Qed.
Lemma run_split : forall a s b s', run s (a ++ b) = Some s' -> exists s1, run s a = Some s1 /\ run s1 b = Some s'.
Proof. intros a s b s' H. rewrite run_app in H. destruct (run s a) as [s1|]; [eauto|discriminate]. Qed.

(** ** A panic is that of a goroutine that published *)
Lemma panics : forall s ev, reached s -> step s ev = None ->
  exists i, ev = EPub i /\ nth_error (c_pubs s) i = Some PHas /\ ended s.
Proof.
  intros s ev R H. apply inv_reached in R. destruct R as [Hb Hs Hg Ho Hu Hc Ht]. destruct s as [r w p n sg b ov ca su pu]. cbn in *.
  unfold chan_send, ended in *. cbn in *.
  destruct ev; cbn in H.
  - destruct r as [| |[|k]|]; try discriminate. destruct ov; [|destruct b; discriminate]. destruct p; try discriminate. destruct Hg; discriminate.
  - destruct r; discriminate.
  - destruct r; discriminate.
  - destruct r; discriminate.
  - destruct r as [| |[|k]|]; discriminate.
  - destruct w, b, ov; discriminate.
  - destruct w, sg; discriminate.
  - destruct w, b; discriminate.
  - destruct w; discriminate.
  - destruct n, p; discriminate.
  - destruct p; try discriminate; [destruct sg; discriminate|destruct r, w; discriminate|destruct ov; discriminate].
  - destruct su; discriminate.
  - exists i. split; [reflexivity|]. destruct (nth_error pu i) as [[]|]; try discriminate. split; [reflexivity|].
    destruct ov; [|destruct b; discriminate]. destruct p; try discriminate. intuition.
Qed.

(** ** What has ended stays so *)
Lemma done_ended : forall s, inv s -> c_phase s = CDone -> ended s.
Proof. intros s [Hb Hs Hg Ho Hu Hc Ht] H. unfold ended. rewrite H in *. intuition. Qed.
Lemma done_step : forall s ev s', c_phase s = CDone -> step s ev = Some s' -> c_phase s' = CDone.
Proof.
  intros s ev s' D H. destruct s as [r w p n sg b ov ca su pu]. cbn in D. subst p. destruct ov, b, ev; cbn in H;
  repeat match type of H with context [match ?x with _ => _ end] => destruct x end; try discriminate; injection H as <-; reflexivity.
Qed.
Lemma done_run : forall es s s', c_phase s = CDone -> run s es = Some s' -> c_phase s' = CDone.
Proof.
  induction es as [|ev es IH]; cbn; intros s s' D H; [now injection H as <-|].
  destruct (step s ev) as [s1|] eqn:F; [|discriminate]. eapply IH; [|exact H]. eapply done_step; eassumption.
Qed.
Lemma ended_for_good : forall s es s', reached s -> c_phase s = CDone -> run s es = Some s' -> ended s /\ ended s'.
Proof.
  intros s es s' R D H. pose proof (inv_reached _ R) as I. split; [now apply done_ended|].
  apply done_ended; [eapply inv_run; eassumption|eapply done_run; eassumption].
Qed.

(** ** Once the read loop has returned, the closing ends *)
Definition rank (p : phase) : nat :=
  match p with CIdle => 0 | CSignal => 1 | CWait => 2 | CUnsub => 3 | CCache => 4 | CSend => 5 | CDone => 6 end.
Lemma gone_step : forall s ev s', step s ev = Some s' -> c_reader s = RGone ->
  c_reader s' = RGone /\ (c_writer s = false -> c_writer s' = false) /\ rank (c_phase s) <= rank (c_phase s') /\
  (ev = ETry -> 0 < c_tries s -> 1 <= rank (c_phase s')) /\
  (ev <> ETry -> c_tries s <= c_tries s').
Proof.
  intros s ev s' H G. destruct s as [r w p n sg b ov ca su pu]. cbn in G. subst r. destruct ov, b, ev; cbn in H;
  repeat match type of H with context [match ?x with _ => _ end] => destruct x end; try discriminate; injection H as <-; cbn; repeat split; auto; try lia; congruence.
Qed.
Lemma gone_run : forall es s s', run s es = Some s' -> c_reader s = RGone ->
  c_reader s' = RGone /\ (c_writer s = false -> c_writer s' = false) /\ rank (c_phase s) <= rank (c_phase s').
Proof.
  induction es as [|ev es IH]; cbn; intros s s' H G; [injection H as <-; auto|].
  destruct (step s ev) as [s1|] eqn:F; [|discriminate]. destruct (gone_step _ _ _ F G) as (G1 & W1 & R1 & _).
  destruct (IH _ _ H G1) as (A & B & C). repeat split; auto. lia.
Qed.
(** someone will close *)
Definition meant (s : cst) : Prop := c_phase s <> CIdle \/ 0 < c_tries s.
Lemma meant_step : forall s ev s', step s ev = Some s' -> c_reader s = RGone -> meant s -> meant s'.
Proof.
  intros s ev s' H G M. destruct (gone_step _ _ _ H G) as (_ & _ & R & T & U). unfold meant in *.
  destruct (c_phase s) eqn:P; try (left; intro Q; rewrite Q in R; cbn in R; lia).
  destruct M as [M|M]; [contradiction|]. destruct ev; try (right; specialize (U ltac:(discriminate)); lia).
  left. specialize (T eq_refl M). intro Q. rewrite Q in T. cbn in T. lia.
Qed.
Lemma meant_run : forall es s s', run s es = Some s' -> c_reader s = RGone -> meant s -> meant s'.
Proof.
  induction es as [|ev es IH]; cbn; intros s s' H G M; [injection H as <-; auto|].
  destruct (step s ev) as [s1|] eqn:F; [|discriminate]. eapply IH; [exact H| |].
  - now destruct (gone_step _ _ _ F G).
  - eapply meant_step; eassumption.
Qed.
Lemma close_moves : forall s s', c_reader s = RGone -> c_writer s = false -> 2 <= rank (c_phase s) -> step s EClose = Some s' ->
  c_phase s' = CDone \/ rank (c_phase s) < rank (c_phase s').
Proof.
  intros s s' G W R H. cbn in H. rewrite G, W in H. destruct (c_phase s) eqn:P; cbn in R; try lia.
  - injection H as <-. right. cbn. lia.
  - injection H as <-. right. cbn. lia.
  - injection H as <-. right. cbn. lia.
  - destruct (c_over s); [discriminate|]. injection H as <-. now left.
  - left. injection H as <-. exact P.
Qed.
Lemma closes_out : forall es s s', run s es = Some s' -> c_reader s = RGone -> c_writer s = false -> 2 <= rank (c_phase s) ->
  6 <= rank (c_phase s) + times closes es -> c_phase s' = CDone.
Proof.
  induction es as [|ev es IH]; cbn; intros s s' H G W R T.
  - injection H as <-. unfold times in T. cbn in T. destruct (c_phase s); cbn in *; try lia; reflexivity.
  - destruct (step s ev) as [s1|] eqn:F; [|discriminate]. destruct (gone_step _ _ _ F G) as (G1 & W1 & R1 & _).
    assert (D : c_phase s1 = CDone \/ (closes ev = true -> rank (c_phase s) < rank (c_phase s1))).
    { destruct ev; try (right; intro Q; discriminate Q). destruct (close_moves _ _ G W R F) as [D|D]; [now left|right; intros _; exact D]. }
    destruct D as [D|D]; [eapply done_run; eassumption|].
    apply (IH s1); auto; [lia|]. unfold times in *. cbn in T. destruct (closes ev); cbn in T; [specialize (D eq_refl)|]; lia.
Qed.
Lemma closed_when_left : forall s es s', reached s -> c_reader s = RGone -> fair es -> run s es = Some s' -> ended s'.
Proof.
  intros s es s' R G (e1 & e2 & e3 & e4 & -> & T) H. pose proof (inv_reached _ R) as I.
  assert (M : meant s).
  { unfold meant. destruct (c_phase s) eqn:P; try (left; discriminate). right. destruct (c_tries s) eqn:N; [|lia].
    destruct (i_tries _ I P N) as [Q _]. contradiction. }
  pose proof (inv_run _ _ _ I H) as I'.
  apply run_split in H. destruct H as (s1 & H1 & H). cbn [app run] in H.
  destruct (gone_run _ _ _ H1 G) as (G1 & _). pose proof (meant_run _ _ _ H1 G M) as M1.
  destruct (step s1 ETry) as [s2|] eqn:F2; [|discriminate]. destruct (gone_step _ _ _ F2 G1) as (G2 & _ & _ & T2 & _).
  assert (R2 : 1 <= rank (c_phase s2)).
  { destruct M1 as [M1|M1]; [|now apply T2]. destruct (gone_step _ _ _ F2 G1) as (_ & _ & X & _). destruct (c_phase s1); cbn in X; try lia. contradiction. }
  apply run_split in H. destruct H as (s3 & H3 & H). destruct (gone_run _ _ _ H3 G2) as (G3 & _ & R3). cbn [app run] in H.
  pose proof (inv_run _ _ _ I H1) as I1. pose proof (inv_step _ _ _ I1 F2) as I2. pose proof (inv_run _ _ _ I2 H3) as I3.
  destruct (step s3 EClose) as [s4|] eqn:F4; [|discriminate]. pose proof (inv_step _ _ _ I3 F4) as I4.
  destruct (gone_step _ _ _ F4 G3) as (G4 & _ & R4 & _).
  assert (R4' : 2 <= rank (c_phase s4)).
  { cbn in F4. destruct (c_phase s3) eqn:P; cbn in *; try lia. destruct (c_signal s3); [discriminate|]. injection F4 as <-. cbn. lia. }
  apply run_split in H. destruct H as (s5 & H5 & H). destruct (gone_run _ _ _ H5 G4) as (G5 & _ & R5). cbn [app run] in H.
  pose proof (inv_run _ _ _ I4 H5) as I5. destruct (step s5 EExit) as [s6|] eqn:F6; [|discriminate].
  destruct (gone_step _ _ _ F6 G5) as (G6 & _ & R6 & _).
  assert (W6 : c_writer s6 = false).
  { pose proof (i_sig _ I5) as S5. cbn in F6. destruct (c_writer s5) eqn:W5; [|injection F6 as <-; exact W5].
    destruct (c_phase s5); cbn in R5; try lia; rewrite S5 in F6; cbn in F6; injection F6 as <-; reflexivity. }
  apply done_ended; [exact I'|]. eapply closes_out; [exact H|exact G6|exact W6|lia|lia].
Qed.

(** ** The only way to be stuck *)
Lemma stuck_only : forall s, reached s -> blocked s -> c_phase s <> CIdle -> c_phase s <> CDone ->
  c_phase s = CWait /\ (exists k, c_reader s = RHand (S k)) /\ c_writer s = false /\ c_buf s = 1.
Proof.
  intros s R B P1 P2. apply inv_reached in R. destruct R as [Hb Hs Hg Ho Hu Hc Ht].
  pose proof (B EReader I) as B1. pose proof (B ELost I) as B2. pose proof (B EExit I) as B3. pose proof (B EClose I) as B4.
  destruct s as [r w p n sg b ov ca su pu]. cbn in *. unfold chan_send in *. cbn in *.
  destruct p; try contradiction; cbn in *; subst.
  - discriminate.
  - destruct w; cbn in B3; [discriminate|]. destruct r as [| |[|k]|]; cbn in *; try discriminate.
    destruct b as [|b]; [discriminate|]. split; [reflexivity|]. split; [now exists k|]. split; [reflexivity|]. lia.
  - discriminate.
  - discriminate.
  - discriminate.
Qed.

(** ** And then for ever *)
Definition jam (s : cst) : Prop :=
  c_phase s = CWait /\ (exists k, c_reader s = RHand (S k)) /\ c_writer s = false /\ c_buf s = 1 /\ c_over s = false /\ c_cached s = true /\ c_subs s = true.
Lemma mk_jam : forall k n sg pu, jam (mkC (RHand (S k)) false CWait n sg 1 false true true pu).
Proof. intros. repeat split. now exists k. Qed.
Lemma jam_step : forall s ev, jam s -> exists s', step s ev = Some s' /\ jam s' /\
  forall i, nth_error (c_pubs s) i = Some PHas -> nth_error (c_pubs s') i = Some PHas.
Proof.
  intros s ev J. destruct s as [r w p n sg b ov ca su pu]. destruct J as (A & (k & B) & C & D & E & F & G). cbn in *. subst.
  destruct ev; cbn; try (eexists; split; [reflexivity|]; split; [apply mk_jam|auto]; fail).
  - destruct n; (eexists; split; [reflexivity|]; split; [apply mk_jam|auto]).
  - eexists. split; [reflexivity|]. split; [apply mk_jam|]. cbn. intros i H. rewrite nth_error_app1; [assumption|].
    apply nth_error_Some. congruence.
  - destruct (nth_error pu i) as [[]|] eqn:Hi; try (eexists; split; [reflexivity|]; split; [apply mk_jam|auto]; fail).
    eexists. split; [reflexivity|]. split; [apply mk_jam|]. cbn. intros j H. unfold upd.
    destruct (nth_error_split _ _ Hi) as (l1 & l2 & -> & L). subst i.
    rewrite firstn_app, Nat.sub_diag, firstn_all, firstn_O, app_nil_r.
    replace (skipn (S (length l1)) (l1 ++ PFind :: l2)) with l2.
    2:{ rewrite skipn_app, skipn_all2 by lia. replace (S (length l1) - length l1) with 1 by lia. reflexivity. }
    destruct (Nat.lt_ge_cases j (length l1)) as [Q|Q].
    + rewrite nth_error_app1 in * by assumption. assumption.
    + rewrite nth_error_app2 in * by assumption. destruct (j - length l1); [discriminate H|exact H].
Qed.
Lemma jam_run : forall es s, jam s -> exists s', run s es = Some s' /\ jam s' /\
  forall i, nth_error (c_pubs s) i = Some PHas -> nth_error (c_pubs s') i = Some PHas.
Proof.
  induction es as [|ev es IH]; intros s J; [exists s; cbn; auto|].
  destruct (jam_step s ev J) as (s1 & F & J1 & K1). destruct (IH s1 J1) as (s2 & F2 & J2 & K2).
  exists s2. cbn. rewrite F. auto.
Qed.
(** The client sends PINGREQ, DISCONNECT, PINGREQ. *)
Definition es_jam : list event :=
  [EReader; EPacket 1; EReader; EReader; EReader; EDisconnect; EReader; EPacket 1; ETry; EClose; EExit; EReader].
Definition s_jam : cst := mkC (RHand 1) false CWait 0 true 1 false true true [].
Lemma jam_reached : run conn_start es_jam = Some s_jam.
Proof. vm_compute. reflexivity. Qed.
Lemma jam_s : jam s_jam.
Proof. repeat split. now exists 0. Qed.
Lemma never_closed : exists es s, Forall own es /\ times (fun ev => match ev with EDisconnect => true | _ => false end) es = 1 /\
  run conn_start es = Some s /\ c_phase s = CWait /\
  forall es', exists s', run s es' = Some s' /\ c_phase s' = CWait /\ c_subs s' = true /\ c_cached s' = true.
Proof.
  exists es_jam, s_jam. split; [repeat constructor|]. split; [reflexivity|]. split; [exact jam_reached|]. split; [reflexivity|].
  intro es'. destruct (jam_run es' _ jam_s) as (s' & H & J & _). exists s'. split; [assumption|]. unfold jam in J. intuition.
Qed.

(** ** Those who publish *)
Lemma waits_for_ever : exists s, reached s /\ forall es s1, run s es = Some s1 ->
  exists s2, run s1 [EPublish; EPub (length (c_pubs s1))] = Some s2 /\ nth_error (c_pubs s2) (length (c_pubs s1)) = Some PHas /\
  forall es' s3, run s2 es' = Some s3 -> nth_error (c_pubs s3) (length (c_pubs s1)) = Some PHas.
Proof.
  exists s_jam. split; [exists es_jam; exact jam_reached|]. intros es s1 H.
  destruct (jam_run es _ jam_s) as (s1' & H1 & J1 & _). rewrite H in H1. injection H1 as <-.
  destruct (jam_run [EPublish; EPub (length (c_pubs s1))] _ J1) as (s2 & H2 & J2 & _). exists s2. split; [assumption|].
  assert (P : nth_error (c_pubs s2) (length (c_pubs s1)) = Some PHas).
  { destruct J1 as (_ & _ & _ & _ & _ & Ca & Su). cbn in H2. rewrite Su in H2. cbn in H2.
    rewrite nth_error_app2, Nat.sub_diag in H2 by lia. cbn in H2. rewrite Ca in H2. injection H2 as <-. cbn. unfold upd.
    rewrite nth_error_app2, firstn_length_le by (rewrite ?firstn_length, ?app_length; cbn; lia). now rewrite Nat.sub_diag. }
  split; [exact P|]. intros es' s3 H3. destruct (jam_run es' _ J2) as (s3' & H3' & _ & K). rewrite H3 in H3'. injection H3' as <-. auto.
Qed.
(** DISCONNECT; two publications come before the client closes its socket *)
Definition es_crash : list event :=
  [EReader; EDisconnect; EReader; ETry; EClose; EExit; EPublish; EPub 0; EPub 0; EPublish; EPub 1; EPub 1; ELost; EClose; EClose; EClose; EClose].
Lemma crash : exists es s, run conn_start es = Some s /\ times (fun ev => match ev with EDisconnect => true | _ => false end) es = 1 /\
  (forall k, ~ In (EPacket k) es) /\ exists i, step s (EPub i) = None.
Proof.
  exists es_crash. eexists. split; [vm_compute; reflexivity|]. split; [reflexivity|]. split.
  - intros k H. cbn in H. intuition discriminate.
  - exists 1. vm_compute. reflexivity.
Qed.
(** While the write loop runs, a goroutine that has the connection gets rid of its message. *)
Lemma upd_same : forall (l : list publ) i x y, nth_error l i = Some y -> nth_error (upd l i x) i = Some x.
Proof.
  induction l as [|a l IH]; intros [|i] x y H; cbn in *; try discriminate; [reflexivity|]. unfold upd in IH. eapply IH; exact H.
Qed.
Lemma sent_on : forall s i, reached s -> c_writer s = true -> nth_error (c_pubs s) i = Some PHas ->
  exists s', run s [ETake; EPub i] = Some s' /\ nth_error (c_pubs s') i = Some POver.
Proof.
  intros s i R W P. apply inv_reached in R. destruct R as [Hb Hs Hg Ho Hu Hc Ht].
  assert (Ov : c_over s = false).
  { destruct (c_phase s); try assumption. destruct Hg; congruence. }
  clear Ho Hs Hu Hc Hg. destruct s as [r w p n sg b ov ca su pu]. cbn in *. subst w ov. destruct b as [|b].
  - exists (mkC r true p n sg 1 false ca su (upd pu i POver)). split; [|cbn [c_pubs]; eapply upd_same; exact P].
    change (match step (mkC r true p n sg 0 false ca su pu) (EPub i) with Some s1 => Some s1 | None => None end = Some (mkC r true p n sg 1 false ca su (upd pu i POver))).
    unfold step. cbn [c_pubs]. rewrite P. reflexivity.
  - assert (b = 0) by lia. subst b. exists (mkC r true p n sg 1 false ca su (upd pu i POver)).
    split; [|cbn [c_pubs]; eapply upd_same; exact P].
    change (match step (mkC r true p n sg 0 false ca su pu) (EPub i) with Some s1 => Some s1 | None => None end = Some (mkC r true p n sg 1 false ca su (upd pu i POver))).
    unfold step. cbn [c_pubs]. rewrite P. reflexivity.
Qed.
(** After the end nobody gets the connection. *)
Lemma none_after : forall s i s', reached s -> c_phase s = CDone -> nth_error (c_pubs s) i = Some PFind ->
  step s (EPub i) = Some s' -> nth_error (c_pubs s') i = Some POver.
Proof.
  intros s i s' R D P H. apply inv_reached in R. pose proof (i_cache _ R) as C. rewrite D in C. cbn in H. rewrite P, C in H.
  injection H as <-. cbn. eapply upd_same; exact P.
Qed.

(** ** DISCONNECT with the socket left open *)
Definition left_open (s : cst) : Prop :=
  c_phase s = CWait /\ c_reader s = RRead /\ c_over s = false /\ c_cached s = true /\ c_subs s = true.
Lemma open_step : forall s ev, left_open s -> ~ of_client ev -> exists s', step s ev = Some s' /\ left_open s'.
Proof.
  intros s ev J N. destruct s as [r w p n sg b ov ca su pu]. destruct J as (A & B & C & D & E). cbn in A, B, C, D, E. subst.
  destruct b, ev; cbn in N; try tauto; unfold step, chan_send; cbn;
  repeat match goal with |- context [match ?x with _ => _ end] => destruct x end; eexists; (split; [reflexivity|]); repeat split.
Qed.
Lemma open_run : forall es s, left_open s -> Forall (fun ev => ~ of_client ev) es -> exists s', run s es = Some s' /\ left_open s'.
Proof.
  induction es as [|ev es IH]; intros s J N; [exists s; auto|]. inversion N as [|? ? N1 N2]; subst.
  destruct (open_step s ev J N1) as (s1 & F & J1). destruct (IH s1 J1 N2) as (s2 & F2 & J2). exists s2. cbn [run]. rewrite F. auto.
Qed.
Lemma waits_for_client : exists es s, run conn_start es = Some s /\ In EDisconnect es /\ c_phase s = CWait /\
  forall es', Forall (fun ev => ~ of_client ev) es' ->
  exists s', run s es' = Some s' /\ c_phase s' = CWait /\ c_subs s' = true /\ c_cached s' = true.
Proof.
  exists [EReader; EDisconnect; EReader; ETry; EClose; EExit]. eexists. split; [vm_compute; reflexivity|].
  split; [cbn; tauto|]. split; [reflexivity|]. intros es' N.
  destruct (open_run es' (mkC RRead false CWait 0 true 0 false true true [])) as (s' & H & J); [repeat split|exact N|].
  exists s'. split; [exact H|]. unfold left_open in J. tauto.
Qed.
