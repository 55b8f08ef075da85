(** Proofs about connections of a cluster that end: runs. *)
From Coq Require Import Lia ZifyBool ZifyNat ZifyN.
From Verif Require Import M_Bytes P_Bytes M_Keys M_MsgIds M_Conn S_Conn S_SubLife P_Conn P_SubLife M_Route S_Route P_Client P_Route S_Gone P_Gone.
From Verif Require M_Subs.
Open Scope N_scope.

Section RUNS.
  Variable RC : rings.
  Variable E : env.
  Variable ES : list cevent.
  Variable A : nat -> N -> Prop.
  Hypothesis A1 : forall n m c, A n c -> A m c -> n = m.
  Variable o : nat.
  Variable c kc : N.
  Hypothesis Ao : A o c.

  Definition absent (G : net) : Prop := forall n, nosub c (cn_srv (G n)) /\ aget (v_conns (cn_srv (G n))) c = None.
  Lemma step_absent G ev G' : all_ok ES A G -> absent G -> c_running ev ->
    (forall n, ev = CAccept n -> u32 (v_next (cn_srv (G n)) + 1) <> c) -> c_step RC E G ev = Some G' -> absent G'.
  Proof.
    intros O H0 Hr Ha H.
    assert (Fr : forall G1, gfr c G G1 -> absent G1).
    { intros G1 F n. destruct (H0 n) as [P Q]. split; [eapply fr_nosub; [apply (F n)|exact P]|eapply fr_absent; [apply (F n)|exact Q]]. }
    destruct (step_kind RC E ES A A1 o c kc Ao _ _ _ O Hr Ha H) as [F|[(q & k & -> & Hk & Op & F)|[(s & -> & F & ->)|[(G1 & k & id & p & t & F1 & Hk & Hid & Rm & F)|(a & d & -> & L & Hd & ->)]]]].
    - now apply Fr.
    - destruct (H0 o). congruence.
    - unfold close_conn in F. rewrite (proj2 (H0 o)) in F. injection F as <-. intros n.
      destruct (Nat.eq_dec n o) as [->|D]; [rewrite put_same; apply H0|rewrite put_other by assumption; apply H0].
    - destruct (Fr _ F1 o). congruence.
    - cbv zeta. set (G1 := put_node G a _).
      assert (S1 : forall n, cn_srv (G1 n) = cn_srv (G n)).
      { intros n. unfold G1. destruct (Nat.eq_dec n a) as [->|D]; [now rewrite put_same|now rewrite put_other]. }
      intros n. destruct (Nat.eq_dec n d) as [->|D]; [|rewrite put_other by assumption; rewrite (S1 n); apply H0].
      rewrite put_same. unfold gone, live. rewrite (S1 d), (proj2 (H0 d)). destruct (aget (cn_remote (G1 d)) c); rewrite (S1 d); apply H0.
  Qed.
  Lemma run_keep (P : net -> Prop) (Q : cevent -> Prop) :
    (forall G ev G', all_ok ES A G -> P G -> Q ev -> (forall n, ev = CAccept n -> u32 (v_next (cn_srv (G n)) + 1) <> c) -> c_step RC E G ev = Some G' -> P G') ->
    forall es G G', incl es ES -> all_ok ES A G -> (forall n x, In x (numbers n (v_next (cn_srv (G n))) es) -> A n x /\ x <> c) ->
    Forall Q es -> P G -> c_run RC E G es = Some G' ->
    all_ok ES A G' /\ P G' /\ forall n rest, numbers n (v_next (cn_srv (G n))) (es ++ rest) = numbers n (v_next (cn_srv (G n))) es ++ numbers n (v_next (cn_srv (G' n))) rest.
  Proof.
    intros Hs. induction es as [|ev es IH]; intros G G' HES O HA HQ HP H; cbn [c_run] in H.
    { assert (X : G' = G) by (injection H as <-; reflexivity). subst. auto. }
    destruct (c_step RC E G ev) as [G1|] eqn:F; [|discriminate]. inversion HQ as [|? ? Q1 Q2]; subst.
    assert (Hn : forall n, ev = CAccept n -> A n (u32 (v_next (cn_srv (G n)) + 1)) /\ u32 (v_next (cn_srv (G n)) + 1) <> c).
    { intros n ->. apply HA. cbn [numbers]. rewrite Nat.eqb_refl. now left. }
    destruct (step_ok RC E ES A A1 G ev G1 O) as [O1 N1].
    - intros e [<-|[]]. apply HES. now left.
    - intros n En. now apply Hn.
    - exact F.
    - assert (HP1 : P G1) by (refine (Hs _ _ _ O HP Q1 _ F); intros n En; now apply Hn).
      destruct (IH G1 G') as (R1 & R2 & R3); try assumption.
      + intros e He. apply HES. now right.
      + intros n x Hx. apply HA. rewrite N1 in Hx. destruct ev as [a|a c0 q|a i|a c0|a c0|a c0 d|a c0|a k]; cbn [numbers]; try exact Hx;
          destruct (Nat.eqb a n); try exact Hx. now right.
      + split; [exact R1|]. split; [exact R2|]. intros n rest. specialize (R3 n rest). rewrite N1 in R3.
        destruct ev as [a|a c0 q|a i|a c0|a c0|a c0 d|a c0|a k]; cbn [app numbers]; try exact R3; destruct (Nat.eqb a n); try exact R3.
        cbn [app]. now rewrite R3.
  Qed.
End RUNS.

Lemma nodup_mid {T} (l1 l2 : list T) x : NoDup (l1 ++ x :: l2) -> ~ In x l1 /\ ~ In x l2.
Proof. intros H. apply NoDup_remove_2 in H. rewrite in_app_iff in H. tauto. Qed.

Lemma gone_leaves_none RC E starts o contract es1 es2 es3 G0 G G' :
  let c := u32 (v_next (cn_srv (G0 o)) + 1) in
  let es := es1 ++ CAccept o :: es2 ++ CGone o c (rc_ring RC o contract) :: es3 in
  apart starts es -> NoDup (numbers o (starts o) es) -> Forall c_running es -> Forall (c_one_contract o c contract) es2 ->
  c_run RC E (fresh starts) es1 = Some G0 -> c_run RC E G0 (CAccept o :: es2) = Some G -> c_ended G o c ->
  c_run RC E G (CGone o c (rc_ring RC o contract) :: es3) = Some G' -> none_left G' c.
Proof.
  intros c es Ap Nd Hr Ho H1 H2 He H3. set (g := CGone o c (rc_ring RC o contract)) in *.
  set (A := fun n x => In x (numbers n (starts n) es)).
  assert (A1 : forall n m x, A n x -> A m x -> n = m) by (intros n m x; apply Ap).
  assert (O0 : all_ok es A (fresh starts)) by (intro n; apply node_new_ok).
  (* the first part, without any invariant *)
  assert (N1 : all_ok es A G0 /\ forall n rest, numbers n (starts n) (es1 ++ rest) = numbers n (starts n) es1 ++ numbers n (v_next (cn_srv (G0 n))) rest).
  { destruct (run_keep RC E es A A1 (2 ^ 32) (fun _ => True) (fun _ => True) (fun _ _ _ _ _ _ _ _ => I) es1 (fresh starts) G0) as (P & _ & Q).
    - intros e Hx. unfold es. apply in_app_iff. now left.
    - exact O0.
    - intros n x Hx. cbn [fresh cnode_new cn_srv server_new v_next] in Hx. split.
      + unfold A, es. rewrite app_assoc_reverse || idtac.
        assert (Y : forall a b k, In x (numbers n k a) -> In x (numbers n k (a ++ b))).
        { clear. induction a as [|ev a IH]; intros b k; [contradiction|]. destruct ev; cbn [app numbers]; try apply IH; destruct (Nat.eqb _ n); try apply IH.
          intros [->|Hx]; [now left|right; now apply IH]. }
        now apply Y.
      + intros ->. assert (Y : forall a k, In (2 ^ 32) (numbers n k a) -> False).
        { clear. induction a as [|ev a IH]; intros k; [contradiction|]. destruct ev; cbn [numbers]; try apply IH; destruct (Nat.eqb _ n); try apply IH.
          intros [X|X]; [|now apply IH in X]. pose proof (u32_lt (k + 1)). lia. }
        now apply Y in Hx.
    - apply Forall_forall. auto.
    - exact I.
    - exact H1.
    - split; [exact P|]. intros n rest. specialize (Q n rest). exact Q. }
  destruct N1 as [OG0 N1].
  assert (Nes : numbers o (starts o) es = numbers o (starts o) es1 ++ c :: numbers o c (es2 ++ g :: es3)).
  { unfold es. rewrite N1. cbn [numbers]. rewrite Nat.eqb_refl. reflexivity. }
  rewrite Nes in Nd. destruct (nodup_mid _ _ _ Nd) as [Nd1 Nd2].
  assert (Ao : A o c) by (unfold A; rewrite Nes, in_app_iff; right; now left).
  assert (Foreign : forall n x, n <> o -> In x (numbers n (starts n) es) -> x <> c).
  { intros n x Hn Hx ->. apply Hn. exact (A1 _ _ _ Hx Ao). }
  unfold es in Hr. apply Forall_app in Hr. destruct Hr as [Hr1 Hr]. inversion Hr as [|? ? _ Hr2]. subst. apply Forall_app in Hr2. destruct Hr2 as [Hr2 Hr3].
  inversion Hr3 as [|? ? _ Hr4]. subst.
  (* before the connection *)
  destruct (run_keep RC E es A A1 c (absent c) c_running) with (es := es1) (G := fresh starts) (G' := G0) as (OG & Ab & _).
  { intros K ev K' O P Q W F. exact (step_absent RC E es A A1 o c contract Ao _ _ _ O P Q W F). }
  { intros e Hx. unfold es. apply in_app_iff. now left. }
  { exact O0. }
  { intros n x Hx. cbn [fresh cnode_new cn_srv server_new v_next] in Hx.
    assert (Hx' : In x (numbers n (starts n) es)) by (unfold es; rewrite N1, in_app_iff; now left). split; [exact Hx'|].
    destruct (Nat.eq_dec n o) as [->|D]; [intros ->; contradiction|now apply (Foreign n)]. }
  { exact Hr1. }
  { intros n. split; [intros x []|reflexivity]. }
  { exact H1. }
  (* it is accepted *)
  cbn [c_run] in H2. destruct (c_step RC E G0 (CAccept o)) as [Ga|] eqn:Fa; [|discriminate].
  destruct (step_ok RC E es A A1 G0 (CAccept o) Ga OG) as [Oa Na].
  { intros e [<-|[]]. unfold es. apply in_app_iff. right. now left. }
  { intros n [= <-]. exact Ao. }
  { exact Fa. }
  assert (Ha : exists b, here_ok RC o c contract b Ga).
  { exists true. unfold c_step in Fa. cbn [step] in Fa. fold c in Fa. set (x := mkCN _ _ _ _) in Fa.
    assert (X : Ga = put_node G0 o x) by (injection Fa as <-; reflexivity). rewrite X. split.
    - rewrite put_same. exists (conn_new c). unfold x. cbn [cn_srv v_conns v_subs]. split; [rewrite aget_aput, N.eqb_refl; reflexivity|].
      split; [reflexivity|]. split; [discriminate|]. split; [discriminate|]. intros y Hy Ey. exfalso. exact (proj1 (Ab o) _ Hy Ey).
    - rewrite put_same. intros d Hd. exfalso. unfold x in Hd. cbn [cn_told v_next] in Hd. unfold adel in Hd. apply filter_In in Hd.
      cbn [fst] in Hd. rewrite N.eqb_refl in Hd. destruct Hd. discriminate.
    - intros n Hn. apply aw_none; rewrite put_other by assumption; [apply Ab|]. unfold live. now rewrite (proj2 (Ab n)). }
  assert (Nx : forall n rest, numbers n (starts n) (es1 ++ CAccept o :: rest) = numbers n (starts n) es1 ++ (if Nat.eqb o n then [c] else []) ++ numbers n (v_next (cn_srv (Ga n))) rest).
  { intros n rest. rewrite N1. f_equal. rewrite Na. cbn [numbers]. destruct (Nat.eqb o n) eqn:B; [|reflexivity].
    assert (n = o) by lia. subst n. reflexivity. }
  assert (In2 : forall n x, In x (numbers n (v_next (cn_srv (Ga n))) (es2 ++ g :: es3)) -> A n x /\ x <> c).
  { intros n x Hx. assert (Hx' : A n x) by (unfold A, es; rewrite Nx, !in_app_iff; auto). split; [exact Hx'|].
    destruct (Nat.eq_dec n o) as [->|D]; [|now apply (Foreign n)]. intros ->. apply Nd2. rewrite Na, Nat.eqb_refl in Hx. exact Hx. }
  assert (Pre : forall n a b k x, In x (numbers n k a) -> In x (numbers n k (a ++ b))).
  { clear. intros n. induction a as [|ev a IH]; intros b k x; [contradiction|]. destruct ev; cbn [app numbers]; try apply IH; destruct (Nat.eqb _ n); try apply IH.
    intros [->|Hx]; [now left|right; now apply IH]. }
  (* until it ends *)
  destruct (run_keep RC E es A A1 c (fun K => exists b, here_ok RC o c contract b K) (fun ev => c_running ev /\ c_one_contract o c contract ev))
    with (es := es2) (G := Ga) (G' := G) as (OG2 & (b & Hb) & N3).
  { intros K ev K' O (b & P) [Q1 Q2] W F. exact (step_here RC E es A A1 o c contract Ao _ _ _ _ O P Q1 Q2 W F). }
  { intros e Hx. unfold es. rewrite in_app_iff. right. right. apply in_app_iff. now left. }
  { exact Oa. }
  { intros n x Hx. apply In2. now apply Pre. }
  { rewrite Forall_forall in *. auto. }
  { exact Ha. }
  { exact H2. }
  assert (In3 : forall n x, In x (numbers n (v_next (cn_srv (G n))) (g :: es3)) -> A n x /\ x <> c).
  { intros n x Hx. apply In2. rewrite N3, in_app_iff. now right. }
  (* its end is told *)
  assert (b = false).
  { destruct (h_own _ _ _ _ _ _ Hb) as (k & Hk & Hopen & _). rewrite <- Hopen. exact (He _ Hk). }
  subst b. cbn [c_run] in H3. destruct (c_step RC E G g) as [Gg|] eqn:Fg; [|discriminate].
  destruct (step_ok RC E es A A1 G g Gg OG2) as [Og Ng].
  { intros e [<-|[]]. unfold es. rewrite in_app_iff. right. right. apply in_app_iff. right. now left. }
  { intros n [=]. }
  { exact Fg. }
  assert (Ov : over o c contract Gg).
  { assert (L : live (cn_srv (G o)) c = None).
    { unfold live. destruct (aget (v_conns (cn_srv (G o))) c) as [k|] eqn:Hk; [|reflexivity]. now rewrite (He _ Hk). }
    unfold g, c_step in Fg. assert (X : Gg = conn_gone G o c (rc_ring RC o contract)) by (injection Fg as <-; reflexivity). unfold conn_gone in X. rewrite L in X.
    destruct (existsb (fun e => (fst e =? c) && Nat.eqb (snd e) (rc_ring RC o contract)) (cn_told (G o))) eqn:B.
    - assert (Hd : In (c, rc_ring RC o contract) (cn_told (G o))).
      { apply existsb_exists in B. destruct B as ([c1 d1] & B1 & B2). cbn [fst snd] in B2. apply andb_prop in B2. destruct B2 as [B2 B3].
        assert (c1 = c) by lia. assert (d1 = rc_ring RC o contract) by lia. now subst. }
      destruct (here_gone RC es A A1 o c contract Ao false G o _ OG2 Hb L Hd) as [P Q]. rewrite <- X in P, Q. specialize (Q eq_refl).
      split; [exact (h_own _ _ _ _ _ _ P)|]. intros n. destruct (Nat.eq_dec n o) as [->|D]; [exact (own_closed _ _ _ (h_own _ _ _ _ _ _ P))|now apply Q].
    - rewrite X. split; [exact (h_own _ _ _ _ _ _ Hb)|]. intros n.
      destruct (Nat.eq_dec n o) as [->|D]; [exact (own_closed _ _ _ (h_own _ _ _ _ _ _ Hb))|].
      destruct (h_away _ _ _ _ _ _ Hb n D) as [P Q|P Q M R S]; [exact P|]. exfalso.
      apply Bool.not_true_iff_false in B. apply B. apply existsb_exists. exists (c, rc_ring RC o contract). split; [exact S|]. cbn [fst snd].
      rewrite N.eqb_refl, Nat.eqb_refl. reflexivity. }
  (* and afterwards *)
  destruct (run_keep RC E es A A1 c (over o c contract) c_running) with (es := es3) (G := Gg) (G' := G') as (_ & [_ Hn] & _).
  { intros K ev K' O P Q W F. exact (step_over RC E es A A1 o c contract Ao _ _ _ O P Q W F). }
  { intros e Hx. unfold es. rewrite in_app_iff. right. right. apply in_app_iff. right. now right. }
  { exact Og. }
  { intros n x Hx. apply In3. rewrite Ng in Hx. exact Hx. }
  { exact Hr4. }
  { exact Ov. }
  { exact H3. }
  exact Hn.
Qed.
