(** Lemmas about [M_Failover]. *)
From Verif Require Import M_Bytes M_Ring S_Ring P_Ring M_Leader S_Leader P_Leader M_Failover S_Failover.
From Coq Require Import Lia Permutation.
Open Scope nat_scope.

Lemma set_ext_same f n x : set_ext f n x n = x.
Proof. unfold set_ext. rewrite Nat.eqb_refl. reflexivity. Qed.
Lemma set_ext_other f n x m : m <> n -> set_ext f n x m = f m.
Proof. intros H. unfold set_ext. destruct (Nat.eqb_spec m n); [contradiction|reflexivity]. Qed.
Lemma bytes_eqb_iff a b : bytes_eqb a b = true <-> a = b.
Proof. unfold bytes_eqb. destruct (list_eq_dec N.eq_dec a b); split; congruence. Qed.

Lemma f_run_app R nodes limit : forall es1 es2 s s2 ws, f_run R nodes limit s (es1 ++ es2) = Some (s2, ws) ->
  exists s1 w1 w2, f_run R nodes limit s es1 = Some (s1, w1) /\ f_run R nodes limit s1 es2 = Some (s2, w2) /\ ws = w1 ++ w2.
Proof.
  induction es1 as [|e es1 IH]; intros es2 s s2 ws H.
  - exists s, [], ws. auto.
  - cbn [app f_run] in H. destruct (f_step R nodes limit s e) as [[s1 w]|] eqn:E; [|discriminate].
    destruct (f_run R nodes limit s1 (es1 ++ es2)) as [[s3 w3]|] eqn:E2; [|discriminate].
    injection H as <- <-. apply IH in E2 as (sa & wa & wb & A & B & C).
    exists sa, (match w with Some x => x :: wa | None => wa end), wb. cbn [f_run]. rewrite E, A.
    split; [reflexivity|]. split; [exact B|]. subst w3. destruct w; reflexivity.
Qed.

(** ** What a step leaves alone *)
Lemma elect_ext nodes s n e s' w : elect nodes s n e = Some (s', w) ->
  x_ext s' = x_ext s /\ x_pings s' = x_pings s /\ up s n = true /\
  exists c, do_event nodes (x_el s) e = Some (c, w) /\ x_el s' = c.
Proof.
  unfold elect. destruct (up s n); [|discriminate]. destruct (do_event nodes (x_el s) e) as [[c w0]|]; [|discriminate].
  injection 1 as <- <-. cbn. repeat split; eauto.
Qed.
Lemma ping_loop_sent limit mk conn answers : forall ms fail sent rh fail' sent' res,
  ping_loop limit mk conn answers ms fail sent rh = (fail', sent', res) ->
  forall p, In p sent' -> In p sent \/ exists m, In m ms /\ p = mk m.
Proof.
  induction ms as [|m ms IH]; intros fail sent rh fail' sent' res; cbn [ping_loop].
  - injection 1 as <- <- <-. auto.
  - destruct (call (conn m) (answers m)); intros H p Hp.
    + apply (IH _ _ _ _ _ _ H) in Hp as [[<-|Hp]|(k & Hk & ->)]; [right; exists m; cbn; auto|auto|right; exists k; cbn; auto].
    + apply (IH _ _ _ _ _ _ H) in Hp as [Hp|(k & Hk & ->)]; [auto|right; exists k; cbn; auto].
    + injection H as <- <- <-. auto.
Qed.
Lemma take_ping_in p : forall l l', take_ping p l = Some l' -> In p l /\ forall q, In q l' -> In q l.
Proof.
  induction l as [|q l IH]; intros l'; cbn [take_ping]; [discriminate|].
  destruct (fping_dec q p) as [->|Hn].
  - injection 1 as <-. cbn. auto.
  - destruct (take_ping p l) as [r|]; [|discriminate]. cbn [option_map]. injection 1 as <-.
    destruct (IH r eq_refl) as [A B]. split; [right; exact A|]. intros x [->|Hx]; cbn; auto.
Qed.

(** ** One leader *)
Record led (R : renv) (nodes : list nat) (l : nat) (s : fstate) : Prop := {
  ld_ring : f_ring (x_ext s l) = f_active (x_ext s l);
  ld_some : f_active (x_ext s l) <> [];
  ld_incl : forall n, In n nodes -> incl (f_ring (x_ext s n)) nodes;
  ld_ping : forall p, In p (x_pings s) -> g_to p <> l /\ g_nodes p <> [] /\ g_sig p = signature R (g_nodes p) /\
            incl (g_nodes p) nodes }.

Lemma others_incl nodes n : In n nodes -> incl (others nodes n ++ [n]) nodes.
Proof.
  intros Hn x Hx. apply in_app_or in Hx as [Hx|[<-|[]]]; [|exact Hn].
  apply others_spec in Hx. tauto.
Qed.
Lemma app_one_nil {A} (l : list A) x : l ++ [x] <> [].
Proof. destruct l; discriminate. Qed.

Lemma led_init R nodes l : led R nodes l (f_init nodes).
Proof.
  split; cbn.
  - reflexivity.
  - apply app_one_nil.
  - intros n. apply others_incl.
  - contradiction.
Qed.

Lemma follow_ring R nodes n x sg ns : f_ring (follow R nodes n x sg ns) = f_ring x \/
  f_ring (follow R nodes n x sg ns) = rehashed nodes n ns.
Proof. unfold follow. destruct (bytes_eqb sg _); [auto|]. destruct (f_skip x); cbn; auto. Qed.
Lemma follow_active R nodes n x sg ns : f_active (follow R nodes n x sg ns) = f_active x.
Proof. unfold follow. destruct (bytes_eqb sg _); [auto|]. destruct (f_skip x); reflexivity. Qed.
Lemma rehashed_some nodes n ns : ns <> [] -> rehashed nodes n ns = ns.
Proof. destruct ns; [congruence|reflexivity]. Qed.

(** A change of one node that touches neither its ring nor its list. *)
Lemma led_with R nodes l s n x : led R nodes l s -> f_ring x = f_ring (x_ext s n) -> f_active x = f_active (x_ext s n) ->
  led R nodes l (with_ext s n x).
Proof.
  intros [A B C D] Hr Ha. split; cbn.
  - destruct (Nat.eq_dec l n) as [->|Hn]; [rewrite set_ext_same; congruence|rewrite set_ext_other by exact Hn; exact A].
  - destruct (Nat.eq_dec l n) as [->|Hn]; [rewrite set_ext_same; congruence|rewrite set_ext_other by exact Hn; exact B].
  - intros m Hm. destruct (Nat.eq_dec m n) as [->|Hn]; [rewrite set_ext_same, Hr|rewrite set_ext_other by exact Hn]; auto.
  - exact D.
Qed.
Lemma led_ext R nodes l s s' : led R nodes l s -> x_ext s' = x_ext s -> (forall p, In p (x_pings s') -> In p (x_pings s)) ->
  led R nodes l s'.
Proof. intros [A B C D] E P. split; rewrite ?E; auto. Qed.

Lemma filter_incl {A} (f : A -> bool) l : incl (filter f l) l.
Proof. intros x Hx. apply filter_In in Hx. tauto. Qed.

Lemma led_step R nodes limit l s e s' w : In l nodes -> led R nodes l s -> one_leader l [e] ->
  f_step R nodes limit s e = Some (s', w) -> led R nodes l s'.
Proof.
  intros Hl Hs Ho. destruct e as [n|c v t|c v t r vt|n m|n|n m|n silent|p|n m ok|n|n]; cbn [f_step].
  1,2,3,5: intros H; apply elect_ext in H as (A & B & _); apply (led_ext _ _ _ _ _ Hs A); rewrite B; auto.
  - destruct (elect nodes s n (EReplyErr n)) as [[s1 w1]|] eqn:E; [|discriminate]. injection 1 as <- <-.
    apply elect_ext in E as (A & B & _). apply led_with; [|reflexivity|reflexivity].
    apply (led_ext _ _ _ _ _ Hs A). rewrite B. auto.
  - destruct (up s n && up s m)%bool; [|discriminate]. injection 1 as <- <-. apply led_with; [exact Hs|reflexivity|reflexivity].
  - assert (n = l) as -> by (apply (Ho n silent); left; reflexivity). clear Ho.
    destruct (elect nodes s l (ESendPings l)) as [[s1 w1]|] eqn:E; [|discriminate].
    apply elect_ext in E as (A & B & _). cbv zeta.
    set (mk := fun m => mkFP m l _ _ _). set (answers := fun m => _).
    destruct (ping_loop limit mk (f_conn (x_ext s l)) answers (others nodes l) (f_fail (x_ext s l)) [] false)
      as [[fail sent] res] eqn:EL. injection 1 as <- <-.
    assert (L2 : led R nodes l (mkFS (x_el s1) (x_ext s1) (sent ++ x_pings s1))).
    { destruct Hs as [C1 C2 C3 C4]. split; cbn; rewrite ?A; auto. intros p Hp. apply in_app_or in Hp as [Hp|Hp].
      - apply (ping_loop_sent _ _ _ _ _ _ _ _ _ _ _ EL) in Hp as [[]|(m & Hm & ->)]. cbn.
        apply others_spec in Hm. rewrite <- C1. repeat split; try tauto. + rewrite C1. exact C2. + apply C3, Hl.
      - rewrite B in Hp. apply C4, Hp. }
    destruct res as [[|]|].
    + destruct L2 as [C1 C2 C3 C4]. split; cbn; rewrite ?set_ext_same; cbn.
      * reflexivity.
      * apply app_one_nil.
      * intros m Hm. destruct (Nat.eq_dec m l) as [->|Hn]; [rewrite set_ext_same|rewrite set_ext_other by exact Hn; apply C3, Hm].
        cbn. intros x Hx. apply (others_incl nodes l Hl). apply in_app_or in Hx as [Hx|Hx]; apply in_or_app; [left|right; exact Hx].
        apply filter_incl in Hx. exact Hx.
      * exact C4.
    + apply led_with; [exact L2| |]; cbn; rewrite A; reflexivity.
    + apply led_with; [exact L2| |]; cbn; rewrite A; reflexivity.
  - destruct (elect nodes s (g_to p) _) as [[s1 w1]|] eqn:E; [|discriminate].
    destruct (take_ping p (x_pings s)) as [ps|] eqn:ET; [|discriminate].
    apply elect_ext in E as (A & B & _). apply take_ping_in in ET as (Hin & Hsub). cbv zeta.
    assert (L2 : led R nodes l (mkFS (x_el s1) (x_ext s1) ps)) by (apply (led_ext _ _ _ _ _ Hs); cbn; auto).
    destruct (ld_ping _ _ _ _ Hs p Hin) as (P1 & P2 & P3 & P4).
    destruct (g_term p <? n_term (c_node (x_el s) (g_to p))); injection 1 as <- <-; [exact L2|].
    destruct L2 as [C1 C2 C3 C4]. split; cbn.
    + rewrite set_ext_other by congruence. exact C1.
    + rewrite set_ext_other by congruence. exact C2.
    + intros m Hm. destruct (Nat.eq_dec m (g_to p)) as [->|Hn]; [rewrite set_ext_same|rewrite set_ext_other by exact Hn; apply C3, Hm].
      destruct (follow_ring R nodes (g_to p) (x_ext s (g_to p)) (g_sig p) (g_nodes p)) as [->| ->].
      * rewrite <- A. apply C3, Hm.
      * rewrite rehashed_some by exact P2. exact P4.
    + exact C4.
  - destruct (up s n); [|discriminate].
    destruct (call _ _); injection 1 as <- <-; [exact Hs|exact Hs|]. apply led_with; [exact Hs|reflexivity|reflexivity].
  - destruct (up s n); [|discriminate]. injection 1 as <- <-. apply led_with; [exact Hs|reflexivity|reflexivity].
  - destruct (up s n); [discriminate|]. cbn [do_event]. injection 1 as <- <-. destruct Hs as [C1 C2 C3 C4]. split; cbn.
    + destruct (Nat.eq_dec l n) as [->|Hn]; [rewrite set_ext_same; reflexivity|rewrite set_ext_other by exact Hn; exact C1].
    + destruct (Nat.eq_dec l n) as [->|Hn]; [rewrite set_ext_same; apply app_one_nil|rewrite set_ext_other by exact Hn; exact C2].
    + intros m Hm. destruct (Nat.eq_dec m n) as [->|Hn]; [rewrite set_ext_same; apply others_incl, Hm|].
      rewrite set_ext_other by exact Hn. apply C3, Hm.
    + intros p Hp. apply filter_In in Hp as [Hp _]. apply C4, Hp.
Qed.

Lemma led_run R nodes limit l : In l nodes -> forall es s s' ws, led R nodes l s -> one_leader l es ->
  f_run R nodes limit s es = Some (s', ws) -> led R nodes l s'.
Proof.
  intros Hl. induction es as [|e es IH]; intros s s' ws Hs Ho H; cbn [f_run] in H; [injection H as <- <-; exact Hs|].
  destruct (f_step R nodes limit s e) as [[s1 w]|] eqn:E; [|discriminate].
  destruct (f_run R nodes limit s1 es) as [[s2 w2]|] eqn:E2; [|discriminate]. injection H as <- <-.
  apply (IH s1 s2 w2); [|intros n si Hn; apply (Ho n si); right; exact Hn|exact E2].
  apply (led_step R nodes limit l s e s1 w Hl Hs); [|exact E]. intros n si [->|[]]. apply (Ho n si). left. reflexivity.
Qed.

(** ** A follower that takes pings about one ring *)
Definition heard (R : renv) (sg : bytes) (x : fext) : Prop := signature R (f_ring x) = sg \/ f_skip x = true.

Lemma follow_heard R nodes n x sg ns : ns <> [] -> sg = signature R ns -> heard R sg (follow R nodes n x sg ns).
Proof.
  intros Hn Hs. unfold heard, follow. destruct (bytes_eqb sg (signature R (f_ring x))) eqn:E.
  - left. apply bytes_eqb_iff in E. congruence.
  - destruct (f_skip x); cbn; [|auto]. left. rewrite rehashed_some by exact Hn. congruence.
Qed.
Lemma follow_agrees R nodes n x sg ns : ns <> [] -> sg = signature R ns -> heard R sg x ->
  signature R (f_ring (follow R nodes n x sg ns)) = sg.
Proof.
  intros Hn Hs Hh. unfold follow. destruct (bytes_eqb sg (signature R (f_ring x))) eqn:E.
  - apply bytes_eqb_iff in E. congruence.
  - destruct Hh as [Hh|Hh].
    + exfalso. assert (bytes_eqb sg (signature R (f_ring x)) = true) by (apply bytes_eqb_iff; congruence). congruence.
    + rewrite Hh. cbn. rewrite rehashed_some by exact Hn. congruence.
Qed.

(** What a step does to the ring and the mark of node [v], which is not the leader. *)
Lemma step_other R nodes limit l s e s' w v : one_leader l [e] -> v <> l -> e <> FStart v ->
  f_step R nodes limit s e = Some (s', w) ->
  (f_ring (x_ext s' v) = f_ring (x_ext s v) /\ f_skip (x_ext s' v) = f_skip (x_ext s v)) \/
  exists p, e = FPing p /\ g_to p = v /\ In p (x_pings s) /\ n_term (c_node (x_el s) v) <= g_term p /\
    x_ext s' v = follow R nodes v (x_ext s v) (g_sig p) (g_nodes p).
Proof.
  intros Ho Hv Hst. destruct e as [n|c v' t|c v' t r vt|n m|n|n m|n silent|p|n m ok|n|n]; cbn [f_step].
  1,2,3,5: intros H; apply elect_ext in H as (A & B & _); left; rewrite A; auto.
  - destruct (elect nodes s n (EReplyErr n)) as [[s1 w1]|] eqn:E; [|discriminate]. injection 1 as <- <-.
    apply elect_ext in E as (A & B & _). left. cbn. rewrite A. unfold set_ext. destruct (Nat.eqb_spec v n) as [->|]; auto.
  - destruct (up s n && up s m)%bool; [|discriminate]. injection 1 as <- <-. left. cbn. unfold set_ext.
    destruct (Nat.eqb_spec v n) as [->|]; auto.
  - assert (n = l) as -> by (apply (Ho n silent); left; reflexivity).
    destruct (elect nodes s l (ESendPings l)) as [[s1 w1]|] eqn:E; [|discriminate].
    apply elect_ext in E as (A & B & _). cbv zeta.
    destruct (ping_loop _ _ _ _ _ _ _ _) as [[fail sent] res]. injection 1 as <- <-.
    left. destruct res as [[|]|]; cbn; rewrite set_ext_other, A by exact Hv; auto.
  - destruct (elect nodes s (g_to p) _) as [[s1 w1]|] eqn:E; [|discriminate].
    destruct (take_ping p (x_pings s)) as [ps|] eqn:ET; [|discriminate].
    apply elect_ext in E as (A & B & _). apply take_ping_in in ET as (Hin & Hsub). cbv zeta.
    destruct (Nat.ltb_spec (g_term p) (n_term (c_node (x_el s) (g_to p)))) as [Hlt|Hge]; injection 1 as <- <-.
    + left. cbn. rewrite A. auto.
    + destruct (Nat.eq_dec v (g_to p)) as [->|Hn].
      * right. exists p. cbn. rewrite set_ext_same. auto.
      * left. cbn. rewrite set_ext_other, A by exact Hn. auto.
  - destruct (up s n); [|discriminate]. destruct (call _ _); injection 1 as <- <-; auto.
    left. cbn. unfold set_ext. destruct (Nat.eqb_spec v n) as [->|]; auto.
  - destruct (up s n); [|discriminate]. injection 1 as <- <-. left. cbn. unfold set_ext. destruct (Nat.eqb_spec v n) as [->|]; auto.
  - destruct (up s n); [discriminate|]. cbn [do_event]. injection 1 as <- <-. left. cbn.
    rewrite set_ext_other by congruence. auto.
Qed.

Lemma heard_run R nodes limit l v sg : In l nodes -> v <> l -> forall es s s' ws, led R nodes l s -> one_leader l es ->
  keeps_running v es -> same_ring v sg es -> heard R sg (x_ext s v) ->
  f_run R nodes limit s es = Some (s', ws) -> heard R sg (x_ext s' v).
Proof.
  intros Hl Hv. induction es as [|e es IH]; intros s s' ws Hs Ho Hk Hr Hh H; cbn [f_run] in H; [injection H as <- <-; exact Hh|].
  destruct (f_step R nodes limit s e) as [[s1 w]|] eqn:E; [|discriminate].
  destruct (f_run R nodes limit s1 es) as [[s2 w2]|] eqn:E2; [|discriminate]. injection H as <- <-.
  assert (Ho1 : one_leader l [e]) by (intros n si [->|[]]; apply (Ho n si); left; reflexivity).
  apply (IH s1 s2 w2); [| | | | |exact E2].
  - apply (led_step R nodes limit l s e s1 w Hl Hs Ho1 E).
  - intros n si Hn. apply (Ho n si). right. exact Hn.
  - intros Hin. apply Hk. right. exact Hin.
  - intros p Hp. apply Hr. right. exact Hp.
  - assert (Hne : e <> FStart v) by (intros ->; apply Hk; left; reflexivity).
    destruct (step_other R nodes limit l s e s1 w v Ho1 Hv Hne E) as [[A B]|(p & -> & Hp & Hin & Ht & ->)].
    + unfold heard in *. rewrite A, B. exact Hh.
    + destruct (ld_ping _ _ _ _ Hs p Hin) as (P1 & P2 & P3 & P4).
      assert (g_sig p = sg) as <- by (apply Hr; [left; reflexivity|exact Hp]). apply follow_heard; assumption.
Qed.

Lemma ping_taken R nodes limit l s p s' w v : one_leader l [FPing p] -> g_to p = v ->
  n_term (c_node (x_el s) v) <= g_term p -> f_step R nodes limit s (FPing p) = Some (s', w) ->
  In p (x_pings s) /\ x_ext s' v = follow R nodes v (x_ext s v) (g_sig p) (g_nodes p).
Proof.
  intros Ho <- Ht. cbn [f_step]. destruct (elect nodes s (g_to p) _) as [[s1 w1]|] eqn:E; [|discriminate].
  destruct (take_ping p (x_pings s)) as [ps|] eqn:ET; [|discriminate].
  apply elect_ext in E as (A & B & _). apply take_ping_in in ET as (Hin & Hsub). cbv zeta.
  destruct (Nat.ltb_spec (g_term p) (n_term (c_node (x_el s) (g_to p)))) as [Hlt|Hge]; [lia|]. injection 1 as <- <-.
  split; [exact Hin|]. cbn. apply set_ext_same.
Qed.

(** Two pings about the same ring, and the ring is that one. *)
Lemma two_pings R nodes limit l v es1 p mid q s1 s2 s3 w1 w2 w3 :
  In l nodes -> v <> l -> one_leader l (es1 ++ FPing p :: mid) -> keeps_running v mid ->
  g_to p = v -> g_to q = v -> same_ring v (g_sig q) (FPing p :: mid) ->
  f_run R nodes limit (f_init nodes) es1 = Some (s1, w1) -> n_term (c_node (x_el s1) v) <= g_term p ->
  f_run R nodes limit s1 (FPing p :: mid) = Some (s2, w2) -> n_term (c_node (x_el s2) v) <= g_term q ->
  f_step R nodes limit s2 (FPing q) = Some (s3, w3) ->
  signature R (f_ring (x_ext s3 v)) = g_sig q /\ led R nodes l s3.
Proof.
  intros Hl Hv Ho Hk Hp Hq Hr R1 T1 R2 T2 R3.
  assert (L1 : led R nodes l s1).
  { apply (led_run R nodes limit l Hl es1 (f_init nodes) s1 w1); [apply led_init| |exact R1].
    intros n si Hn. apply (Ho n si). apply in_or_app. left. exact Hn. }
  assert (Ho2 : one_leader l (FPing p :: mid)) by (intros n si Hn; apply (Ho n si); apply in_or_app; right; exact Hn).
  assert (L2 : led R nodes l s2) by (apply (led_run R nodes limit l Hl _ s1 s2 w2 L1 Ho2 R2)).
  assert (Hop : one_leader l [FPing p]) by (intros n si [Hn|[]]; discriminate).
  assert (Hoq : one_leader l [FPing q]) by (intros n si [Hn|[]]; discriminate).
  cbn [f_run] in R2. destruct (f_step R nodes limit s1 (FPing p)) as [[sa wa]|] eqn:EA; [|discriminate].
  destruct (f_run R nodes limit sa mid) as [[sb wb]|] eqn:EB; [|discriminate].
  assert (sb = s2) as -> by congruence.
  destruct (ping_taken R nodes limit l s1 p sa wa v Hop Hp T1 EA) as (Hin & Ex).
  destruct (ld_ping _ _ _ _ L1 p Hin) as (P1 & P2 & P3 & P4).
  assert (Hsg : g_sig p = g_sig q) by (apply (Hr p); [left; reflexivity|exact Hp]).
  assert (HA : heard R (g_sig q) (x_ext sa v)) by (rewrite Ex, <- Hsg; apply follow_heard; assumption).
  assert (LA : led R nodes l sa) by (apply (led_step R nodes limit l s1 (FPing p) sa wa Hl L1 Hop EA)).
  assert (HB : heard R (g_sig q) (x_ext s2 v)).
  { apply (heard_run R nodes limit l v (g_sig q) Hl Hv mid sa s2 wb LA); [| exact Hk| |exact HA|exact EB].
    - intros n si Hn. apply (Ho2 n si). right. exact Hn.
    - intros p' Hp'. apply Hr. right. exact Hp'. }
  destruct (ping_taken R nodes limit l s2 q s3 w3 v Hoq Hq T2 R3) as (Hin3 & Ex3).
  destruct (ld_ping _ _ _ _ L2 q Hin3) as (Q1 & Q2 & Q3 & Q4).
  split; [|apply (led_step R nodes limit l s2 (FPing q) s3 w3 Hl L2 Hoq R3)].
  rewrite Ex3. apply follow_agrees; assumption.
Qed.

Lemma same_keys_owner R a b c : r_keys (ring_of R a) = r_keys (ring_of R b) -> ring_get (ring_of R a) c = ring_get (ring_of R b) c.
Proof. intros H. unfold ring_get. rewrite H. reflexivity. Qed.

Lemma agreement R nodes limit l v es1 p mid q s1 s2 s3 w1 w2 w3 :
  no_clash R nodes -> In l nodes -> In v nodes -> v <> l ->
  one_leader l (es1 ++ FPing p :: mid) -> keeps_running v mid ->
  g_to p = v -> g_to q = v -> same_ring v (g_sig q) (FPing p :: mid) ->
  f_run R nodes limit (f_init nodes) es1 = Some (s1, w1) -> n_term (c_node (x_el s1) v) <= g_term p ->
  f_run R nodes limit s1 (FPing p :: mid) = Some (s2, w2) -> n_term (c_node (x_el s2) v) <= g_term q ->
  f_step R nodes limit s2 (FPing q) = Some (s3, w3) -> g_sig q = signature R (f_ring (x_ext s3 l)) ->
  accepts R s3 v l = true /\ forall contract, owner R s3 v contract = owner R s3 l contract.
Proof.
  intros Hc Hl Hvn Hv Ho Hk Hp Hq Hr R1 T1 R2 T2 R3 Hsame.
  destruct (two_pings R nodes limit l v es1 p mid q s1 s2 s3 w1 w2 w3) as [A L3]; try assumption.
  split.
  - unfold accepts. apply bytes_eqb_iff. congruence.
  - intros contract. unfold owner. apply same_keys_owner. apply Hc; [| |congruence].
    + apply (ld_incl _ _ _ _ L3), Hvn.
    + apply (ld_incl _ _ _ _ L3), Hl.
Qed.

Lemma agreement_local R nodes limit l v es1 p mid q s1 s2 s3 w1 w2 w3 :
  no_clash R nodes -> In l nodes -> In v nodes -> v <> l ->
  one_leader l (es1 ++ FPing p :: mid) -> keeps_running v mid ->
  g_to p = v -> g_to q = v -> same_ring v (g_sig q) (FPing p :: mid) ->
  f_run R nodes limit (f_init nodes) es1 = Some (s1, w1) -> n_term (c_node (x_el s1) v) <= g_term p ->
  f_run R nodes limit s1 (FPing p :: mid) = Some (s2, w2) -> n_term (c_node (x_el s2) v) <= g_term q ->
  f_step R nodes limit s2 (FPing q) = Some (s3, w3) -> g_sig q = signature R (f_ring (x_ext s3 l)) ->
  accepts R s3 v l = true /\ forall contract, owner R s3 v contract = owner R s3 l contract /\
    (is_remote R s3 v contract = false <-> owner R s3 l contract = re_name R v).
Proof.
  intros. destruct (agreement R nodes limit l v es1 p mid q s1 s2 s3 w1 w2 w3) as [A B]; try assumption.
  split; [exact A|]. intros contract. split; [apply B|]. unfold is_remote. rewrite (B contract).
  rewrite Bool.negb_false_iff. apply bytes_eqb_iff.
Qed.

(** ** The election is the one of [M_Leader] *)
Lemma f_step_el R nodes limit s e s' w : f_step R nodes limit s e = Some (s', w) -> (forall n, e <> FStart n) ->
  (x_el s' = x_el s /\ w = None) \/
  exists e', (forall n, e' <> ERestart n) /\ do_event nodes (x_el s) e' = Some (x_el s', w).
Proof.
  destruct e as [n|c v t|c v t r vt|n m|n|n m|n silent|p|n m ok|n|n]; cbn [f_step]; intros H Hst.
  1,2,3,5: apply elect_ext in H as (_ & _ & _ & c' & D & ->); right; eexists; split; [|exact D]; discriminate.
  - destruct (elect nodes s n (EReplyErr n)) as [[s1 w1]|] eqn:E; [|discriminate]. injection H as <- <-.
    apply elect_ext in E as (_ & _ & _ & c' & D & E'). right. exists (EReplyErr n). split; [discriminate|]. cbn. rewrite E'. exact D.
  - destruct (up s n && up s m)%bool; [|discriminate]. injection H as <- <-. left. auto.
  - destruct (elect nodes s n (ESendPings n)) as [[s1 w1]|] eqn:E; [|discriminate].
    apply elect_ext in E as (_ & _ & _ & c' & D & E'). cbv zeta in H.
    destruct (ping_loop _ _ _ _ _ _ _ _) as [[fail sent] res].
    assert (w1 = None).
    { cbn [do_event] in D. destruct (n_elec _); [discriminate|]. destruct (match n_leader _ with Some _ => _ | None => _ end); [|discriminate]. congruence. }
    right. exists (ESendPings n). split; [discriminate|]. subst w1. rewrite D. destruct res as [[|]|]; injection H as <- <-; cbn; congruence.
  - destruct (elect nodes s (g_to p) _) as [[s1 w1]|] eqn:E; [|discriminate].
    destruct (take_ping p (x_pings s)) as [ps|] eqn:ET; [|discriminate].
    apply elect_ext in E as (_ & _ & _ & c' & D & E'). cbv zeta in H. right.
    exists (EPing (g_to p) (g_leader p) (g_term p)). split; [discriminate|]. rewrite D.
    destruct (g_term p <? _); injection H as <- <-; cbn; congruence.
  - destruct (up s n); [|discriminate]. destruct (call _ _); injection H as <- <-; left; auto.
  - destruct (up s n); [|discriminate]. injection H as <- <-. left; auto.
  - exfalso. apply (Hst n). reflexivity.
Qed.
Lemma f_run_el R nodes limit : forall es s s' ws, no_start es -> f_run R nodes limit s es = Some (s', ws) ->
  exists es', no_restart es' /\ run nodes (x_el s) es' = Some (x_el s', ws).
Proof.
  induction es as [|e es IH]; intros s s' ws Hn H; cbn [f_run] in H.
  - injection H as <- <-. exists []. split; [intros n []|reflexivity].
  - destruct (f_step R nodes limit s e) as [[s1 w]|] eqn:E; [|discriminate].
    destruct (f_run R nodes limit s1 es) as [[s2 w2]|] eqn:E2; [|discriminate].
    assert (Hn1 : forall n, e <> FStart n) by (intros n ->; apply (Hn n); left; reflexivity).
    assert (Hn2 : no_start es) by (intros n Hin; apply (Hn n); right; exact Hin).
    destruct (IH s1 s2 w2 Hn2 E2) as (es' & N1 & R1). injection H as <- <-.
    destruct (f_step_el R nodes limit s e s1 w E Hn1) as [[Hel ->]|(e' & N2 & D)].
    + exists es'. split; [exact N1|]. rewrite <- Hel. exact R1.
    + exists (e' :: es'). split.
      * intros n [->|Hin]; [apply (N2 n); reflexivity|apply (N1 n Hin)].
      * cbn [run]. rewrite D, R1. reflexivity.
Qed.
Lemma elected_once_failover R nodes limit es s ws n n' t : NoDup nodes -> no_start es ->
  f_run R nodes limit (f_init nodes) es = Some (s, ws) -> In (n, t) ws -> In (n', t) ws -> n = n'.
Proof.
  intros Hd Hn H. destruct (f_run_el R nodes limit es _ _ _ Hn H) as (es' & N & R'). cbn in R'.
  apply (elected_once nodes es' (x_el s) ws n n' t Hd N R').
Qed.

(** ** Processes end only when somebody stops or does not answer *)
Lemma ping_loop_well limit mk conn answers : (forall m, answers m = true) -> forall ms fail sent rh,
  exists fail' sent' b, ping_loop limit mk conn answers ms fail sent rh = (fail', sent', Some b).
Proof.
  intros Ha. induction ms as [|m ms IH]; intros fail sent rh; cbn [ping_loop]; [eauto|].
  rewrite Ha. unfold call. destruct (conn m); cbn; apply IH.
Qed.
Lemma well_step R nodes limit s e s' w : (forall n, up s n = true) -> all_well [e] ->
  f_step R nodes limit s e = Some (s', w) -> forall n, up s' n = true.
Proof.
  intros Hu Hw H n. specialize (Hw e (or_introl eq_refl)). destruct e as [k|c v t|c v t r vt|k m|k|k m|k silent|p|k m ok|k|k]; cbn [f_step] in H.
  1,2,3,5: apply elect_ext in H as (A & _); unfold up; rewrite A; apply Hu.
  - destruct (elect nodes s k (EReplyErr k)) as [[s1 w1]|] eqn:E; [|discriminate]. injection H as <- <-.
    apply elect_ext in E as (A & _). unfold up. cbn. rewrite A. unfold set_ext. destruct (n =? k); apply Hu.
  - destruct (up s k && up s m)%bool; [|discriminate]. injection H as <- <-. unfold up. cbn. unfold set_ext. destruct (n =? k); apply Hu.
  - destruct (elect nodes s k (ESendPings k)) as [[s1 w1]|] eqn:E; [|discriminate].
    apply elect_ext in E as (A & _). cbv zeta in H. subst silent.
    set (mk := fun m => mkFP m k _ _ _) in H. set (answers := fun m => (up s m && negb (existsb (Nat.eqb m) []))%bool) in H.
    destruct (ping_loop_well limit mk (f_conn (x_ext s k)) answers) with (ms := others nodes k) (fail := f_fail (x_ext s k)) (sent := @nil fping) (rh := false)
      as (f' & s'' & b & EL). { intros m. unfold answers. rewrite Hu. reflexivity. }
    rewrite EL in H. injection H as <- <-. unfold up. destruct b; cbn; rewrite A; unfold set_ext; destruct (n =? k); apply Hu.
  - destruct (elect nodes s (g_to p) _) as [[s1 w1]|] eqn:E; [|discriminate].
    destruct (take_ping p (x_pings s)) as [ps|] eqn:ET; [|discriminate].
    apply elect_ext in E as (A & _). cbv zeta in H. destruct (g_term p <? _); injection H as <- <-; unfold up; cbn; rewrite A; [apply Hu|].
    unfold set_ext. destruct (Nat.eqb_spec n (g_to p)) as [->|]; [|apply Hu].
    unfold follow. destruct (bytes_eqb _ _); [apply Hu|]. destruct (f_skip _); apply Hu.
  - rewrite Hu in H. subst ok. rewrite Hu in H. unfold call in H. destruct (f_conn (x_ext s k) m); cbn in H; injection H as <- <-; apply Hu.
  - contradiction.
  - rewrite Hu in H. discriminate.
Qed.
Lemma well_run R nodes limit : forall es s s' ws, (forall n, up s n = true) -> all_well es ->
  f_run R nodes limit s es = Some (s', ws) -> forall n, up s' n = true.
Proof.
  induction es as [|e es IH]; intros s s' ws Hu Hw H; cbn [f_run] in H; [injection H as <- <-; exact Hu|].
  destruct (f_step R nodes limit s e) as [[s1 w]|] eqn:E; [|discriminate].
  destruct (f_run R nodes limit s1 es) as [[s2 w2]|] eqn:E2; [|discriminate]. injection H as <- <-.
  apply (IH s1 s2 w2); [|intros x Hx; apply Hw; right; exact Hx|exact E2].
  apply (well_step R nodes limit s e s1 w Hu); [|exact E]. intros x [<-|[]]. apply Hw. left. reflexivity.
Qed.
Lemma nobody_ends R nodes limit es s ws : all_well es -> f_run R nodes limit (f_init nodes) es = Some (s, ws) ->
  forall n, up s n = true.
Proof. intros Hw H. apply (well_run R nodes limit es (f_init nodes) s ws); [reflexivity|exact Hw|exact H]. Qed.

(** ** A leader whose list is not its ring *)
Lemma ping_loop_quiet limit mk conn answers : forall ms fail sent,
  (forall m, In m ms -> conn m = true /\ answers m = true /\ fail m < limit) -> 0 < limit ->
  exists fail', ping_loop limit mk conn answers ms fail sent false = (fail', rev (map mk ms) ++ sent, Some false) /\
                forall m, fail m < limit -> fail' m < limit.
Proof.
  induction ms as [|m ms IH]; intros fail sent H Hl; cbn [ping_loop].
  - exists fail. auto.
  - destruct (H m (or_introl eq_refl)) as (A & B & C). rewrite A, B. cbn [call negb].
    destruct (Nat.leb_spec limit (fail m)) as [Hbad|_]; [lia|]. cbn [orb].
    destruct (IH (upd fail m 0) (mk m :: sent)) as (f' & E & F).
    { intros k Hk. destruct (H k (or_intror Hk)) as (A' & B' & C'). repeat split; auto.
      unfold upd. destruct (k =? m); [exact Hl|exact C']. } { exact Hl. }
    exists f'. rewrite E. split; [cbn [map rev]; rewrite <- app_assoc; reflexivity|].
    intros k Hk. apply F. unfold upd. destruct (k =? m); [exact Hl|exact Hk].
Qed.

Record stuck (R : renv) (nodes : list nat) (limit l v : nat) (rl act : list nat) (s : fstate) : Prop := {
  sk_up : forall n, up s n = true;
  sk_ring : f_ring (x_ext s l) = rl;
  sk_active : f_active (x_ext s l) = act;
  sk_conn : forall m, In m (others nodes l) -> f_conn (x_ext s l) m = true /\ f_fail (x_ext s l) m < limit;
  sk_other : r_keys (ring_of R (f_ring (x_ext s v))) = r_keys (ring_of R act);
  sk_ping : forall p, In p (x_pings s) -> g_to p <> l /\ (g_to p = v -> g_nodes p = act) }.

(** What the events of [es] must not be. *)
Definition undisturbed (l : nat) (es : list fevent) : Prop :=
  all_well es /\ one_leader l es /\ forall m, ~ In (FReplyErr l m) es.

Lemma stuck_keep R nodes limit l v rl act s s' : stuck R nodes limit l v rl act s ->
  (forall n, up s' n = true) -> (forall p, In p (x_pings s') -> In p (x_pings s)) ->
  x_ext s' l = x_ext s l -> f_ring (x_ext s' v) = f_ring (x_ext s v) -> stuck R nodes limit l v rl act s'.
Proof. intros [A B C D E F] U P L V. split; rewrite ?L, ?V; auto. Qed.

Lemma stuck_step R nodes limit l v rl act s e s' w : 0 < limit -> v <> l -> act <> [] ->
  stuck R nodes limit l v rl act s -> undisturbed l [e] ->
  f_step R nodes limit s e = Some (s', w) -> stuck R nodes limit l v rl act s'.
Proof.
  intros Hlim Hv Hact Hs (Hw & Ho & Hr) H.
  pose proof (well_step R nodes limit s e s' w (sk_up _ _ _ _ _ _ _ _ Hs) Hw H) as Hup.
  specialize (Hw e (or_introl eq_refl)).
  destruct e as [k|c v' t|c v' t r vt|k m|k|k m|k silent|p|k m ok|k|k]; cbn [f_step] in H.
  1,2,3,5: apply elect_ext in H as (A & B & _); apply (stuck_keep _ _ _ _ _ _ _ s _ Hs Hup); rewrite ?A, ?B; auto.
  - destruct (elect nodes s k (EReplyErr k)) as [[s1 w1]|] eqn:E; [|discriminate]. injection H as <- <-.
    apply elect_ext in E as (A & B & _). apply (stuck_keep _ _ _ _ _ _ _ s _ Hs Hup); cbn.
    + rewrite B. auto.
    + rewrite set_ext_other, A; [reflexivity|]. intros ->. apply (Hr m). left. reflexivity.
    + rewrite A. unfold set_ext. destruct (Nat.eqb_spec v k) as [->|]; reflexivity.
  - destruct (up s k && up s m)%bool; [|discriminate]. injection H as <- <-. destruct Hs as [A B C D E F].
    split; cbn; auto; unfold set_ext.
    + destruct (Nat.eqb_spec l k) as [->|]; exact B.
    + destruct (Nat.eqb_spec l k) as [->|]; exact C.
    + intros q Hq. destruct (D q Hq) as [D1 D2]. destruct (Nat.eqb_spec l k) as [->|]; [|auto]. cbn.
      split; [|exact D2]. unfold upd. destruct (q =? m); [reflexivity|exact D1].
    + destruct (Nat.eqb_spec v k) as [->|]; exact E.
  - assert (k = l) as -> by (apply (Ho k silent); left; reflexivity). subst silent.
    destruct (elect nodes s l (ESendPings l)) as [[s1 w1]|] eqn:E; [|discriminate].
    apply elect_ext in E as (A & B & _). cbv zeta in H. destruct Hs as [C1 C2 C3 C4 C5 C6].
    set (mk := fun m => mkFP m l _ _ _) in H. set (answers := fun m => _) in H.
    destruct (ping_loop_quiet limit mk (f_conn (x_ext s l)) answers (others nodes l) (f_fail (x_ext s l)) []) as (f' & EL & Hf).
    { intros m Hm. destruct (C4 m Hm) as [D1 D2]. repeat split; auto. unfold answers. rewrite C1. reflexivity. } { exact Hlim. }
    rewrite EL in H. injection H as <- <-. split; cbn; rewrite ?set_ext_same; cbn; auto.
    + intros m Hm. destruct (C4 m Hm). auto.
    + rewrite set_ext_other, A by exact Hv. exact C5.
    + intros p Hp. rewrite app_nil_r in Hp. apply in_app_or in Hp as [Hp|Hp].
      * apply in_rev, in_map_iff in Hp as (m & <- & Hm). cbn. apply others_spec in Hm. split; [tauto|]. intros _. exact C3.
      * rewrite B in Hp. apply C6, Hp.
  - destruct (elect nodes s (g_to p) _) as [[s1 w1]|] eqn:E; [|discriminate].
    destruct (take_ping p (x_pings s)) as [ps|] eqn:ET; [|discriminate].
    apply elect_ext in E as (A & B & _). apply take_ping_in in ET as (Hin & Hsub). cbv zeta in H.
    destruct (sk_ping _ _ _ _ _ _ _ _ Hs p Hin) as [P1 P2].
    destruct (g_term p <? n_term (c_node (x_el s) (g_to p))); injection H as <- <-.
    + apply (stuck_keep _ _ _ _ _ _ _ s _ Hs Hup); cbn; rewrite ?A; auto.
    + destruct Hs as [C1 C2 C3 C4 C5 C6]. split; cbn; auto.
      * rewrite set_ext_other, A by congruence. exact C2.
      * rewrite set_ext_other, A by congruence. exact C3.
      * rewrite set_ext_other, A by congruence. exact C4.
      * destruct (Nat.eq_dec v (g_to p)) as [->|Hn]; [rewrite set_ext_same|rewrite set_ext_other, A by exact Hn; exact C5].
        destruct (follow_ring R nodes (g_to p) (x_ext s (g_to p)) (g_sig p) (g_nodes p)) as [->| ->]; [exact C5|].
        rewrite (P2 eq_refl), rehashed_some by exact Hact. reflexivity.
  - rewrite (sk_up _ _ _ _ _ _ _ _ Hs) in H. subst ok. rewrite (sk_up _ _ _ _ _ _ _ _ Hs) in H. unfold call in H.
    destruct (f_conn (x_ext s k) m); cbn in H; injection H as <- <-; exact Hs.
  - contradiction.
  - rewrite (sk_up _ _ _ _ _ _ _ _ Hs) in H. discriminate.
Qed.
Lemma stuck_run R nodes limit l v rl act : 0 < limit -> v <> l -> act <> [] -> forall es s s' ws,
  stuck R nodes limit l v rl act s -> undisturbed l es ->
  f_run R nodes limit s es = Some (s', ws) -> stuck R nodes limit l v rl act s'.
Proof.
  intros Hlim Hv Hact. induction es as [|e es IH]; intros s s' ws Hs (Hw & Ho & Hr) H; cbn [f_run] in H; [injection H as <- <-; exact Hs|].
  destruct (f_step R nodes limit s e) as [[s1 w]|] eqn:E; [|discriminate].
  destruct (f_run R nodes limit s1 es) as [[s2 w2]|] eqn:E2; [|discriminate]. injection H as <- <-.
  apply (IH s1 s2 w2); [| |exact E2].
  - apply (stuck_step R nodes limit l v rl act s e s1 w Hlim Hv Hact Hs); [|exact E].
    split; [|split].
    + intros x [<-|[]]. apply Hw. left. reflexivity.
    + intros n si [->|[]]. apply (Ho n si). left. reflexivity.
    + intros m [->|[]]. apply (Hr m). left. reflexivity.
  - split; [|split].
    + intros x Hx. apply Hw. right. exact Hx.
    + intros n si Hn. apply (Ho n si). right. exact Hn.
    + intros m Hm. apply (Hr m). right. exact Hm.
Qed.

(** FNV-1a with 32 bits, decimal numerals, names "a", "b", ...; the points
    themselves as their digest. *)
Definition fnv32a (b : bytes) : N := fold_left (fun h x => (N.lxor h x * 16777619) mod 4294967296)%N b 2166136261%N.
Definition itoa20 (i : nat) : bytes :=
  if i <? 10 then [48 + N.of_nat i]%N else [48 + N.of_nat (Nat.div i 10); 48 + N.of_nat (Nat.modulo i 10)]%N.
Definition R0 : renv := mkRE (fun n => [97 + N.of_nat n])%N fnv32a itoa20 isort (flat_map (fun e => e_hash e :: e_key e)).

Definition n4 : list nat := [0; 1; 2; 3].
Definition sigAll : bytes := Eval vm_compute in signature R0 n4.
Definition sig3 : bytes := Eval vm_compute in signature R0 [0; 1; 2].
(** Node 3 is reached late: the leader 0 goes on without it; node 1, which has
    taken the smaller ring from the pings of 0, is the next leader. *)
Definition late_node : list fevent :=
  [FDial 0 1; FDial 0 2; FDial 1 0; FDial 1 2; FDial 2 0; FDial 2 1;
   FElect 0; FVote 0 1 1; FReply 0 1 1 true 1; FVote 0 2 1; FReply 0 2 1 true 1;
   FPings 0 []; FPing (mkFP 1 0 1 sigAll [1; 2; 3; 0]); FPing (mkFP 2 0 1 sigAll [1; 2; 3; 0]);
   FPings 0 []; FPing (mkFP 1 0 1 sigAll [1; 2; 3; 0]); FPing (mkFP 2 0 1 sigAll [1; 2; 3; 0]);
   FPings 0 []; FPing (mkFP 1 0 1 sig3 [1; 2; 0]); FPing (mkFP 2 0 1 sig3 [1; 2; 0]);
   FPings 0 []; FPing (mkFP 1 0 1 sig3 [1; 2; 0]); FPing (mkFP 2 0 1 sig3 [1; 2; 0]);
   FDial 0 3; FDial 1 3; FDial 2 3; FDial 3 0; FDial 3 1; FDial 3 2;
   FElect 1; FVote 1 0 2; FReply 1 0 2 true 2; FVote 1 2 2; FReply 1 2 2 true 2].
Definition after_late : fstate := match f_run R0 n4 2 (f_init n4) late_node with Some (s, _) => s | None => f_init n4 end.
Lemma after_late_run : f_run R0 n4 2 (f_init n4) late_node = Some (after_late, [(0, 1); (1, 2)]).
Proof.
  unfold after_late.
  assert (H : option_map snd (f_run R0 n4 2 (f_init n4) late_node) = Some [(0, 1); (1, 2)]) by (vm_compute; reflexivity).
  destruct (f_run R0 n4 2 (f_init n4) late_node) as [[s ws]|]; [|discriminate]. cbn in H. congruence.
Qed.
Lemma late_well : all_well late_node.
Proof. intros e He. repeat (destruct He as [<-|He]; [exact I || reflexivity|]). destruct He. Qed.
Lemma late_stuck : stuck R0 n4 2 1 3 [1; 2; 0] [0; 2; 3; 1] after_late.
Proof.
  split.
  - apply (nobody_ends R0 n4 2 late_node _ _ late_well after_late_run).
  - vm_compute. reflexivity.
  - vm_compute. reflexivity.
  - intros m Hm. assert (E : others n4 1 = [0; 2; 3]) by reflexivity. rewrite E in Hm.
    destruct Hm as [<-|[<-|[<-|[]]]].
    + assert (H : f_conn (x_ext after_late 1) 0 = true /\ f_fail (x_ext after_late 1) 0 = 0) by (vm_compute; auto). destruct H as [A B]. rewrite A, B. auto.
    + assert (H : f_conn (x_ext after_late 1) 2 = true /\ f_fail (x_ext after_late 1) 2 = 0) by (vm_compute; auto). destruct H as [A B]. rewrite A, B. auto.
    + assert (H : f_conn (x_ext after_late 1) 3 = true /\ f_fail (x_ext after_late 1) 3 = 0) by (vm_compute; auto). destruct H as [A B]. rewrite A, B. auto.
  - vm_compute. reflexivity.
  - assert (H : x_pings after_late = []) by (vm_compute; reflexivity). rewrite H. contradiction.
Qed.

Lemma never_agree es s ws : undisturbed 1 es -> f_run R0 n4 2 after_late es = Some (s, ws) ->
  accepts R0 s 3 1 = false /\ owner R0 s 3 [49]%N = re_name R0 3 /\ owner R0 s 1 [49]%N = re_name R0 1.
Proof.
  intros Hu H.
  assert (S : stuck R0 n4 2 1 3 [1; 2; 0] [0; 2; 3; 1] s).
  { apply (stuck_run R0 n4 2 1 3 [1; 2; 0] [0; 2; 3; 1]) with (es := es) (s := after_late) (ws := ws); [lia|lia|discriminate|exact late_stuck|exact Hu|exact H]. }
  destruct S as [_ S2 _ _ S5 _]. unfold accepts, owner, signature. rewrite (same_keys_owner _ _ _ [49]%N S5), S5, S2.
  vm_compute. auto.
Qed.
Lemma late_refuted : exists R nodes limit es s ws l v contract,
  all_well es /\ f_run R nodes limit (f_init nodes) es = Some (s, ws) /\
  n_leader (c_node (x_el s) l) = Some l /\ In v nodes /\ v <> l /\ (forall m, In m (others nodes l) -> f_conn (x_ext s l) m = true) /\
  forall es' s' ws', all_well es' -> one_leader l es' -> (forall m, ~ In (FReplyErr l m) es') ->
    f_run R nodes limit s es' = Some (s', ws') ->
    accepts R s' v l = false /\ owner R s' v contract = re_name R v /\ owner R s' l contract <> re_name R v.
Proof.
  exists R0, n4, 2, late_node, after_late, [(0, 1); (1, 2)], 1, 3, [49]%N.
  split; [exact late_well|]. split; [exact after_late_run|]. split; [vm_compute; reflexivity|].
  split; [cbn; auto|]. split; [discriminate|]. split; [intros m Hm; apply (sk_conn _ _ _ _ _ _ _ _ late_stuck m Hm)|].
  intros es' s' ws' A B C D. destruct (never_agree es' s' ws' (conj A (conj B C)) D) as (X & Y & Z).
  split; [exact X|]. split; [exact Y|]. rewrite Z. intros E. discriminate E.
Qed.
(** Ping rounds of node 1 after that. *)
Definition round : list fevent :=
  [FPings 1 []; FPing (mkFP 0 1 2 sig3 [0; 2; 3; 1]); FPing (mkFP 2 1 2 sig3 [0; 2; 3; 1]); FPing (mkFP 3 1 2 sig3 [0; 2; 3; 1])].

(** ** One process that stops takes the others with it *)
Lemma ping_loop_silent limit mk conn answers k : conn k = true -> answers k = false -> forall ms fail sent rh,
  In k ms -> exists fail' sent', ping_loop limit mk conn answers ms fail sent rh = (fail', sent', None).
Proof.
  intros Hc Ha. induction ms as [|m ms IH]; intros fail sent rh Hk; [contradiction|]. cbn [ping_loop].
  destruct (Nat.eq_dec m k) as [->|Hn].
  - rewrite Hc, Ha. cbn. eauto.
  - destruct Hk as [Hk|Hk]; [congruence|]. destruct (call (conn m) (answers m)); eauto.
Qed.
Lemma leader_ends R nodes limit s l m silent s' w : In m (others nodes l) -> f_conn (x_ext s l) m = true -> up s m = false ->
  f_step R nodes limit s (FPings l silent) = Some (s', w) -> up s l = true /\ up s' l = false.
Proof.
  intros Hm Hc Hu H. cbn [f_step] in H. destruct (elect nodes s l (ESendPings l)) as [[s1 w1]|] eqn:E; [|discriminate].
  apply elect_ext in E as (A & B & U & _). cbv zeta in H.
  set (mk := fun m => mkFP m l _ _ _) in H. set (answers := fun m => _) in H.
  destruct (ping_loop_silent limit mk (f_conn (x_ext s l)) answers m) with (ms := others nodes l) (fail := f_fail (x_ext s l)) (sent := @nil fping) (rh := false)
    as (f' & s'' & EL); [exact Hc|unfold answers; rewrite Hu; reflexivity|exact Hm|].
  rewrite EL in H. injection H as <- <-. split; [exact U|]. unfold up. cbn. rewrite set_ext_same. reflexivity.
Qed.
Lemma forward_ends R nodes limit s n m answered s' w : f_conn (x_ext s n) m = true -> up s m = false ->
  f_step R nodes limit s (FForward n m answered) = Some (s', w) -> up s n = true /\ up s' n = false.
Proof.
  intros Hc Hu H. cbn [f_step] in H. destruct (up s n) eqn:U; [|discriminate]. rewrite Hc, Hu in H. cbn in H.
  injection H as <- <-. split; [reflexivity|]. unfold up. cbn. rewrite set_ext_same. reflexivity.
Qed.

Lemma dial_all R nodes limit m : forall ms s, (forall n, up s n = true) ->
  exists s', f_run R nodes limit s (map (fun n => FDial n m) ms) = Some (s', []) /\ (forall n, up s' n = true) /\
    (forall n k, f_conn (x_ext s n) k = true -> f_conn (x_ext s' n) k = true) /\
    forall n, In n ms -> f_conn (x_ext s' n) m = true.
Proof.
  induction ms as [|n ms IH]; intros s Hu; cbn [map f_run].
  - exists s. repeat split; auto; contradiction.
  - cbn [f_step]. rewrite !Hu. cbn [andb]. set (s1 := with_ext s n _).
    assert (U1 : forall k, up s1 k = true) by (intros k; unfold up, s1; cbn; unfold set_ext; destruct (k =? n); apply Hu).
    destruct (IH s1 U1) as (s' & E & U' & K & C). exists s'. rewrite E. split; [reflexivity|]. split; [exact U'|].
    assert (K1 : forall a k, f_conn (x_ext s a) k = true -> f_conn (x_ext s1 a) k = true).
    { intros a k Hk. unfold s1. cbn. unfold set_ext. destruct (Nat.eqb_spec a n) as [->|]; [|exact Hk].
      cbn. unfold upd. destruct (k =? m); [reflexivity|exact Hk]. }
    split; [intros a k Hk; apply K, K1, Hk|].
    intros a [->|Ha]; [|apply C, Ha]. apply K. unfold s1. cbn. rewrite set_ext_same. cbn. unfold upd. rewrite Nat.eqb_refl. reflexivity.
Qed.
Lemma forward_all R nodes limit m : forall ms s, NoDup ms -> ~ In m ms -> up s m = false ->
  (forall n, In n ms -> up s n = true /\ f_conn (x_ext s n) m = true) ->
  exists s', f_run R nodes limit s (map (fun n => FForward n m true) ms) = Some (s', []) /\
    (forall n, up s n = false -> up s' n = false) /\ forall n, In n ms -> up s' n = false.
Proof.
  induction ms as [|n ms IH]; intros s Hd Hm Hu H; cbn [map f_run].
  - exists s. repeat split; auto; contradiction.
  - destruct (H n (or_introl eq_refl)) as [A B]. cbn [f_step]. rewrite A, B, Hu. cbn [andb call negb].
    set (s1 := with_ext s n _). inversion_clear Hd as [|? ? Hnot Hd'].
    assert (K1 : forall k, up s k = false -> up s1 k = false).
    { intros k Hk. unfold up, s1. cbn. unfold set_ext. destruct (k =? n); [reflexivity|exact Hk]. }
    destruct (IH s1 Hd') as (s' & E & K & C).
    + intros Hin. apply Hm. right. exact Hin.
    + apply K1, Hu.
    + intros k Hk. assert (k <> n) by congruence. unfold up, s1. cbn. rewrite set_ext_other by assumption.
      apply (H k). right. exact Hk.
    + exists s'. rewrite E. split; [reflexivity|]. split; [intros k Hk; apply K, K1, Hk|].
      intros k [->|Hk]; [|apply C, Hk]. apply K. unfold up, s1. cbn. rewrite set_ext_same. reflexivity.
Qed.
(** In a cluster of any size: *)
Lemma all_end R limit nodes n : NoDup nodes -> In n nodes -> exists es s, stops es = [n] /\
  f_run R nodes limit (f_init nodes) es = Some (s, []) /\ forall m, In m nodes -> up s m = false.
Proof.
  intros Hd Hn. set (ms := others nodes n).
  assert (Hms : NoDup ms) by (apply NoDup_filter, Hd).
  assert (Hnot : ~ In n ms) by (intros Hi; apply others_spec in Hi; tauto).
  destruct (dial_all R nodes limit n ms (f_init nodes)) as (s1 & E1 & U1 & _ & C1); [reflexivity|].
  set (s2 := with_ext s1 n (set_up false (x_ext s1 n))).
  assert (E2 : f_step R nodes limit s1 (FStop n) = Some (s2, None)) by (cbn [f_step]; rewrite U1; reflexivity).
  destruct (forward_all R nodes limit n ms s2 Hms Hnot) as (s3 & E3 & K & C3).
  - unfold up, s2. cbn. rewrite set_ext_same. reflexivity.
  - intros k Hk. assert (k <> n) by congruence. unfold up, s2. cbn. rewrite set_ext_other by assumption. split; [apply U1|apply C1, Hk].
  - exists (map (fun k => FDial k n) ms ++ FStop n :: map (fun k => FForward k n true) ms), s3.
    split; [|split].
    + unfold stops. rewrite flat_map_app. cbn [flat_map].
      assert (X : forall l, flat_map (fun e => match e with FStop k => [k] | _ => [] end) (map (fun k => FDial k n) l) = [])
        by (induction l; cbn; auto).
      assert (Y : forall l, flat_map (fun e => match e with FStop k => [k] | _ => [] end) (map (fun k => FForward k n true) l) = [])
        by (induction l; cbn; auto).
      rewrite X, Y. reflexivity.
    + assert (App : forall es1 s sa es2 r, f_run R nodes limit s es1 = Some (sa, []) -> f_run R nodes limit sa es2 = Some (r, []) ->
               f_run R nodes limit s (es1 ++ es2) = Some (r, [])).
      { induction es1 as [|e es1 IH]; intros s sa es2 r A B; cbn [app f_run] in *; [congruence|].
        destruct (f_step R nodes limit s e) as [[sb w]|]; [|discriminate].
        destruct (f_run R nodes limit sb es1) as [[sc w2]|] eqn:Ec; [|discriminate].
        destruct w as [x|]; [discriminate|]. assert (w2 = []) by congruence. subst w2. assert (sc = sa) by congruence. subst sc.
        rewrite (IH sb sa es2 r Ec B). reflexivity. }
      apply (App _ _ s1); [exact E1|]. cbn [f_run]. rewrite E2, E3. reflexivity.
    + intros m Hm. destruct (Nat.eq_dec m n) as [->|Hne].
      * apply K. unfold up, s2. cbn. rewrite set_ext_same. reflexivity.
      * apply C3. apply others_spec. auto.
Qed.

(** The digest of [R0] tells rings apart. *)
Lemma digest0_inj : forall a b, Forall (fun e => length (e_key e) = 1) a -> Forall (fun e => length (e_key e) = 1) b ->
  flat_map (fun e => e_hash e :: e_key e) a = flat_map (fun e => e_hash e :: e_key e) b -> a = b.
Proof.
  induction a as [|[ka ha] a IH]; intros [|[kb hb] b] Ha Hb H; cbn in H; try discriminate; [reflexivity|].
  inversion_clear Ha as [|? ? A1 A2]. inversion_clear Hb as [|? ? B1 B2]. cbn in A1, B1.
  destruct ka as [|x [|]]; try discriminate A1. destruct kb as [|y [|]]; try discriminate B1. cbn in H.
  injection H as H1 H2 H3. rewrite H1, H2. f_equal. apply IH; assumption.
Qed.
Lemma ring0_keys l : Forall (fun e => length (e_key e) = 1) (r_keys (ring_of R0 l)).
Proof.
  unfold ring_of, ring_add, newRing. cbn [r_keys r_sort app].
  destruct (isort_sorts (flat_map (points clusterHashReplicas (re_hash R0) (re_itoa R0)) (map (re_name R0) l))) as [P _].
  apply Forall_forall. intros e He. apply (Permutation_in _ (Permutation_sym P)) in He.
  apply in_flat_map in He as (k & Hk & He). apply in_map_iff in Hk as (n & <- & _).
  apply in_map_iff in He as (i & <- & _). reflexivity.
Qed.
Lemma R0_no_clash nodes : no_clash R0 nodes.
Proof. intros a b _ _ H. apply digest0_inj; [apply ring0_keys|apply ring0_keys|exact H]. Qed.

(** ** The ring after pings *)
Lemma ping_loop_after limit mk conn answers : forall ms fail sent rh fail' sent' b, NoDup ms ->
  ping_loop limit mk conn answers ms fail sent rh = (fail', sent', Some b) ->
  (rh = true -> b = true) /\ (forall m, ~ In m ms -> fail' m = fail m) /\
  forall m, In m ms ->
    (conn m = true -> fail' m = 0 /\ (limit <= fail m -> b = true)) /\
    (conn m = false -> fail' m = S (fail m) /\ (S (fail m) = limit -> b = true)).
Proof.
  induction ms as [|x ms IH]; intros fail sent rh fail' sent' b ND H; cbn [ping_loop] in H.
  - injection H as <- <- <-. split; [auto|]. split; [auto|]. intros m [].
  - inversion ND as [|? ? Nx ND']; subst. unfold call in H.
    assert (U : forall v m, m <> x -> upd fail x v m = fail m).
    { intros v m D. unfold upd. destruct (Nat.eqb_spec m x); [congruence|reflexivity]. }
    assert (V : forall v, upd fail x v x = v) by (intros v; unfold upd; rewrite Nat.eqb_refl; reflexivity).
    destruct (conn x) eqn:C; cbn [negb] in H; [destruct (answers x) eqn:An; [|discriminate]|].
    + destruct (IH _ _ _ _ _ _ ND' H) as [R [O A]]. split; [intros ->; apply R; reflexivity|]. split.
      * intros m Nm. rewrite O by (intro; apply Nm; right; assumption). apply U. intros ->. apply Nm. left. reflexivity.
      * intros m [<-|Im].
        -- split; [|congruence]. intros _. split; [rewrite (O _ Nx); apply V|]. intros L. apply R.
           rewrite (proj2 (Nat.leb_le _ _) L). apply orb_true_r.
        -- specialize (A m Im). rewrite !(U _ m) in A by (intros ->; contradiction). exact A.
    + destruct (IH _ _ _ _ _ _ ND' H) as [R [O A]]. split; [intros ->; apply R; reflexivity|]. split.
      * intros m Nm. rewrite O by (intro; apply Nm; right; assumption). apply U. intros ->. apply Nm. left. reflexivity.
      * intros m [<-|Im].
        -- split; [congruence|]. intros _. split; [rewrite (O _ Nx); apply V|]. intros L. apply R.
           rewrite (proj2 (Nat.eqb_eq _ _) L). apply orb_true_r.
        -- specialize (A m Im). rewrite !(U _ m) in A by (intros ->; contradiction). exact A.
Qed.
Lemma pings_ring R nodes limit s l silent s' w : NoDup nodes -> 0 < limit ->
  f_step R nodes limit s (FPings l silent) = Some (s', w) -> up s' l = true ->
  forall m, In m (others nodes l) ->
  (f_conn (x_ext s l) m = true -> limit <= f_fail (x_ext s l) m -> In m (f_ring (x_ext s' l))) /\
  (f_conn (x_ext s l) m = false -> S (f_fail (x_ext s l) m) = limit -> ~ In m (f_ring (x_ext s' l))).
Proof.
  intros ND Lp H U m Im. cbn [f_step] in H. destruct (elect nodes s l (ESendPings l)) as [[s1 w1]|] eqn:EL; [|discriminate].
  cbv zeta in H. destruct (ping_loop _ _ _ _ _ _ _ _) as [[fail sent] [[|]|]] eqn:PL.
  - assert (NO : NoDup (others nodes l)) by (apply NoDup_filter; exact ND).
    destruct (ping_loop_after _ _ _ _ _ _ _ _ _ _ _ NO PL) as [_ [_ A]]. destruct (A m Im) as [A1 A2].
    injection H as <- _. unfold with_ext. cbn [x_ext]. unfold set_ext. rewrite Nat.eqb_refl. cbn [f_ring].
    split.
    + intros C _. apply in_or_app. left. apply filter_In. split; [exact Im|]. apply Nat.ltb_lt. destruct (A1 C). lia.
    + intros C L I. apply in_app_or in I. destruct I as [I|[I|[]]].
      * apply filter_In in I. destruct I as [_ I]. apply Nat.ltb_lt in I. destruct (A2 C). lia.
      * subst m. apply filter_In in Im. destruct Im as [_ Im]. rewrite Nat.eqb_refl in Im. discriminate.
  - assert (NO : NoDup (others nodes l)) by (apply NoDup_filter; exact ND).
    destruct (ping_loop_after _ _ _ _ _ _ _ _ _ _ _ NO PL) as [_ [_ A]]. destruct (A m Im) as [A1 A2].
    split; intros C L; [destruct (A1 C) as [_ Q]|destruct (A2 C) as [_ Q]]; specialize (Q L); discriminate.
  - exfalso. injection H as <- _. unfold up, with_ext in U. cbn [x_ext] in U. unfold set_ext in U. rewrite Nat.eqb_refl in U. discriminate.
Qed.
