(** At most one leader per term. *)
From Coq Require Import List Arith Bool Lia.
From Verif Require Import M_Leader S_Leader.
Import ListNotations.

Lemma take_split m l l' : take m l = Some l' -> exists a b, l = a ++ m :: b /\ l' = a ++ b.
Proof.
  revert l'. induction l as [|x l IH]; intros l' H; [discriminate|]. cbn in H.
  destruct (msg_dec x m) as [->|N].
  - injection H as <-. exists [], l. auto.
  - destruct (take m l) as [r|]; [|discriminate]. injection H as <-. destruct (IH r eq_refl) as (a & b & -> & ->).
    exists (x :: a), b. auto.
Qed.

(** Messages about the vote of [v] in the election of [c] in term [t]. *)
Definition about (c t v : nat) (m : msg) : bool :=
  match m with
  | VReq c' v' t' => (Nat.eqb c c' && Nat.eqb v v' && Nat.eqb t t')%bool
  | VRep c' v' t' _ _ => (Nat.eqb c c' && Nat.eqb v v' && Nat.eqb t t')%bool
  | Ping _ _ _ => false
  end.
Definition cnt (net : list msg) (c t v : nat) : nat := length (filter (about c t v) net).
Lemma cnt_app a b c t v : cnt (a ++ b) c t v = cnt a c t v + cnt b c t v.
Proof. unfold cnt. rewrite filter_app, app_length. reflexivity. Qed.
Lemma cnt_cons m b c t v : cnt (m :: b) c t v = (if about c t v m then 1 else 0) + cnt b c t v.
Proof. unfold cnt. cbn. destruct (about c t v m); reflexivity. Qed.
Lemma cnt_zero net c t v : (forall m, In m net -> about c t v m = false) -> cnt net c t v = 0.
Proof.
  intros H. unfold cnt. induction net as [|m net IH]; [reflexivity|]. cbn.
  rewrite (H m) by (left; reflexivity). apply IH. intros m' Hm. apply H. right. exact Hm.
Qed.

Definition vote := (nat * nat * nat)%type. (* voter, term, candidate *)

Record inv (nodes : list nat) (s : cluster) (won : list (nat * nat)) (votes : list vote) : Prop := {
  i_fun : forall v t c c', In (v, t, c) votes -> In (v, t, c') votes -> c = c';
  i_term : forall v t c, In (v, t, c) votes -> t <= n_term (c_node s v);
  i_req : forall c v t, In (VReq c v t) (c_net s) -> In v nodes /\ v <> c /\ t <= n_term (c_node s c);
  i_rep : forall c v t r vt, In (VRep c v t r vt) (c_net s) ->
            In v nodes /\ v <> c /\ t <= n_term (c_node s c) /\ (r = true -> In (v, t, c) votes);
  i_elec : forall c k i, n_elec (c_node s c) = Some (k, i) ->
            In c nodes /\ (forall v, cnt (c_net s) c (n_term (c_node s c)) v <= 1) /\
            exists L, NoDup L /\ incl L nodes /\ In c L /\ length L = k /\
              forall v, In v L -> In (v, n_term (c_node s c), c) votes /\
                                 cnt (c_net s) c (n_term (c_node s c)) v = 0;
  i_won : forall n t, In (n, t) won ->
            exists L, NoDup L /\ incl L nodes /\ length nodes < 2 * length L /\ forall v, In v L -> In (v, t, n) votes;
  i_ping : forall v l t, In (Ping v l t) (c_net s) -> In (l, t) won;
  i_lead : forall n, n_leader (c_node s n) = Some n -> In (n, n_term (c_node s n)) won
}.

Lemma majority (nodes L1 L2 : list nat) : NoDup L1 -> NoDup L2 -> incl L1 nodes -> incl L2 nodes ->
  length nodes < 2 * length L1 -> length nodes < 2 * length L2 -> exists v, In v L1 /\ In v L2.
Proof.
  intros N1 N2 I1 I2 H1 H2.
  destruct (existsb (fun v => existsb (Nat.eqb v) L2) L1) eqn:E.
  - apply existsb_exists in E. destruct E as (v & Hv & E). apply existsb_exists in E. destruct E as (w & Hw & E).
    apply Nat.eqb_eq in E. subst w. exists v. auto.
  - exfalso.
    assert (D : forall v, In v L1 -> ~ In v L2).
    { intros v Hv Hw. assert (existsb (fun v => existsb (Nat.eqb v) L2) L1 = true); [|congruence].
      apply existsb_exists. exists v. split; [exact Hv|]. apply existsb_exists. exists v. split; [exact Hw|apply Nat.eqb_refl]. }
    assert (ND : NoDup (L1 ++ L2)).
    { clear -N1 N2 D. induction L1 as [|x L1 IH]; [exact N2|]. inversion N1; subst. cbn. constructor.
      - rewrite in_app_iff. intros [H|H]; [contradiction|]. exact (D x (or_introl eq_refl) H).
      - apply IH; [assumption|]. intros v Hv. apply D. right. exact Hv. }
    assert (length (L1 ++ L2) <= length nodes).
    { apply NoDup_incl_length; [exact ND|]. intros v Hv. apply in_app_or in Hv. destruct Hv; auto. }
    rewrite app_length in H. lia.
Qed.

Lemma one_per_term nodes s won votes n n' t : inv nodes s won votes -> In (n, t) won -> In (n', t) won -> n = n'.
Proof.
  intros I H H'. destruct (i_won _ _ _ _ I _ _ H) as (L & N1 & I1 & M1 & V1).
  destruct (i_won _ _ _ _ I _ _ H') as (L' & N2 & I2 & M2 & V2).
  destruct (majority nodes L L' N1 N2 I1 I2 M1 M2) as (v & Hv & Hv').
  exact (i_fun _ _ _ _ I v t n n' (V1 v Hv) (V2 v Hv')).
Qed.

Lemma others_spec nodes n v : In v (others nodes n) <-> In v nodes /\ v <> n.
Proof.
  unfold others. rewrite filter_In, negb_true_iff, Nat.eqb_neq. tauto.
Qed.
Lemma count_others nodes n : NoDup nodes -> In n nodes -> nodeCount nodes n + 1 = length nodes.
Proof.
  unfold nodeCount. induction 1 as [|x l Hx ND IH]; [intros []|]. intros Hn. cbn.
  destruct (Nat.eqb_spec x n) as [->|N]; cbn.
  - rewrite Nat.add_1_r. f_equal. f_equal. unfold others. clear -Hx. induction l as [|y l IH]; [reflexivity|]. cbn.
    destruct (Nat.eqb_spec y n) as [->|]; [exfalso; apply Hx; left; reflexivity|]. cbn. f_equal. apply IH.
    intros H. apply Hx. right. exact H.
  - destruct Hn as [->|Hn]; [congruence|]. rewrite <- (IH Hn). reflexivity.
Qed.
Lemma expect_majority nodes n : NoDup nodes -> In n nodes -> length nodes < 2 * expectVotes nodes n.
Proof.
  intros ND Hn. unfold expectVotes. rewrite (count_others nodes n ND Hn).
  pose proof (Nat.div2_odd (length nodes)). destruct (Nat.odd (length nodes)); cbn [Nat.b2n] in *; lia.
Qed.

(** The end of an election. *)
Lemma wait_cases nodes n t l k i x won : wait_or_end nodes n t l k i = (x, won) ->
  n_term x = t /\
  ((won = None /\ n_leader x = l /\ (n_elec x = None \/ n_elec x = Some (k, i))) \/
   (won = Some (n, t) /\ n_leader x = Some n /\ n_elec x = None /\ expectVotes nodes n <= k)).
Proof.
  unfold wait_or_end. destruct (_ && _)%bool.
  - intros [= <- <-]. cbn. auto 6.
  - destruct (Nat.leb_spec (expectVotes nodes n) k); intros [= <- <-]; cbn; auto 8.
Qed.

Lemma set_same f n x : set_node f n x n = x. Proof. unfold set_node. rewrite Nat.eqb_refl. reflexivity. Qed.
Lemma set_other f n x m : m <> n -> set_node f n x m = f m.
Proof. intros H. unfold set_node. apply Nat.eqb_neq in H. rewrite H. reflexivity. Qed.

Definition add_won (w : option (nat * nat)) (won : list (nat * nat)) : list (nat * nat) :=
  match w with Some x => x :: won | None => won end.

(** A step inside an election: term kept, the voters counted are [L]. *)
Lemma inv_election nodes s won votes c k i L net w x : NoDup nodes -> inv nodes s won votes ->
  n_elec (c_node s c) <> None ->
  (k <> 0 -> NoDup L /\ incl L nodes /\ In c L /\ length L = k /\
     forall v, In v L -> In (v, n_term (c_node s c), c) votes /\ cnt net c (n_term (c_node s c)) v = 0) ->
  (k = 0 -> nodeCount nodes c <= i) ->
  (forall m, In m net -> In m (c_net s)) ->
  (forall c t v, cnt net c t v <= cnt (c_net s) c t v) ->
  wait_or_end nodes c (n_term (c_node s c)) (n_leader (c_node s c)) k i = (x, w) ->
  inv nodes (mkC (set_node (c_node s) c x) net) (add_won w won) votes.
Proof.
  intros ND I El HL Hk0 Hsub Hcnt Hw.
  destruct (n_elec (c_node s c)) as [[k0 i0]|] eqn:E0; [|congruence]. clear El.
  destruct (i_elec _ _ _ _ I c k0 i0 E0) as (Hc & HC1 & _).
  pose proof (wait_cases _ _ _ _ _ _ _ _ Hw) as [Ht Hcase].
  assert (TM : forall m, n_term (set_node (c_node s) c x m) = n_term (c_node s m)).
  { intros m. destruct (Nat.eq_dec m c) as [->|N]; [rewrite set_same; exact Ht|rewrite set_other by exact N; reflexivity]. }
  assert (WI : forall p, In p won -> In p (add_won w won)) by (intros p Hp; destruct w; [right; exact Hp|exact Hp]).
  assert (EX : expectVotes nodes c <> 0) by (unfold expectVotes; lia).
  constructor; cbn [c_node c_net].
  - apply (i_fun _ _ _ _ I).
  - intros v t d H. rewrite TM. exact (i_term _ _ _ _ I _ _ _ H).
  - intros d v t H. rewrite TM. exact (i_req _ _ _ _ I _ _ _ (Hsub _ H)).
  - intros d v t r vt H. rewrite TM. exact (i_rep _ _ _ _ I _ _ _ _ _ (Hsub _ H)).
  - intros d k' i' E. destruct (Nat.eq_dec d c) as [->|N].
    + rewrite set_same in *. split; [exact Hc|]. rewrite Ht. split.
      { intros v. etransitivity; [apply Hcnt|apply HC1]. }
      destruct Hcase as [(_ & _ & [E2|E2])|(_ & _ & E2 & _)]; try congruence.
      assert (k' = k) by congruence. subst k'. assert (i' = i) by congruence. subst i'.
      assert (k <> 0).
      { intros ->. specialize (Hk0 eq_refl). unfold wait_or_end in Hw.
        destruct (Nat.ltb_spec i (nodeCount nodes c)); [lia|]. cbn [andb] in Hw.
        destruct (Nat.leb_spec (expectVotes nodes c) 0); [lia|].
        assert (x = mkN (n_term (c_node s c)) (n_leader (c_node s c)) None) by congruence. subst x. discriminate. }
      exists L. exact (HL H).
    + rewrite set_other in * by exact N. destruct (i_elec _ _ _ _ I d k' i' E) as (A & B & L' & C1 & C2 & C3 & C4 & C5).
      split; [exact A|]. split; [intros v; etransitivity; [apply Hcnt|apply B]|].
      exists L'. repeat (split; [assumption|]). intros v Hv. destruct (C5 v Hv) as [C5a C5b]. split; [exact C5a|].
      pose proof (Hcnt d (n_term (c_node s d)) v). lia.
  - intros n t H. destruct w as [p|]; [|exact (i_won _ _ _ _ I _ _ H)]. destruct H as [->|H]; [|exact (i_won _ _ _ _ I _ _ H)].
    destruct Hcase as [(E & _)|(E & _ & _ & Hge)]; [discriminate|]. injection E as -> ->.
    assert (k <> 0) by lia. destruct (HL H) as (L1 & L2 & L3 & L4 & L5). exists L. split; [exact L1|]. split; [exact L2|].
    split; [pose proof (expect_majority nodes c ND Hc); lia|]. intros v Hv. apply L5, Hv.
  - intros v l t H. apply WI, (i_ping _ _ _ _ I v l t), Hsub, H.
  - intros n H. rewrite TM. destruct (Nat.eq_dec n c) as [->|N].
    + rewrite set_same in H. destruct Hcase as [(_ & E & _)|(-> & _)].
      * rewrite E in H. apply WI, (i_lead _ _ _ _ I), H.
      * left. reflexivity.
    + rewrite set_other in H by exact N. apply WI, (i_lead _ _ _ _ I), H.
Qed.

Lemma step_inv nodes s won votes e s' w : NoDup nodes -> inv nodes s won votes ->
  (match e with ERestart _ => False | _ => True end) ->
  do_event nodes s e = Some (s', w) -> exists votes', inv nodes s' (add_won w won) votes'.
Proof.
  intros ND I NR H. destruct e as [n|c v t|c v t r vt|n|n|n|v l t|n]; cbn [do_event] in H.
  - (* EElect *)
    destruct (n_elec (c_node s n)) eqn:E0; [discriminate|]. destruct (existsb (Nat.eqb n) nodes) eqn:En; [|discriminate].
    assert (Hn : In n nodes).
    { apply existsb_exists in En. destruct En as (y & Hy & Ey). apply Nat.eqb_eq in Ey. congruence. }
    destruct (match n_leader (c_node s n) with Some l => l =? n | None => false end) eqn:Ell; [discriminate|].
    destruct (wait_or_end nodes n (S (n_term (c_node s n))) None 1 0) as [x won1] eqn:Hw. injection H as <- <-.
    assert (exists t, t = S (n_term (c_node s n))) as [t Etd] by (eexists; reflexivity). rewrite <- Etd in *.
    exists ((n, t, n) :: votes). pose proof (wait_cases _ _ _ _ _ _ _ _ Hw) as [Ht Hcase].
    assert (TM : forall m, n_term (c_node s m) <= n_term (set_node (c_node s) n x m)).
    { intros m. destruct (Nat.eq_dec m n) as [->|N]; [rewrite set_same; lia|rewrite set_other by exact N; lia]. }
    assert (WI : forall p, In p won -> In p (add_won won1 won)) by (intros p Hp; destruct won1; [right; exact Hp|exact Hp]).
    assert (C0 : forall v, cnt (c_net s) n t v = 0).
    { intros v. apply cnt_zero. intros m Hm. destruct m as [c' v' t'|c' v' t' r' vt'|]; cbn; try reflexivity.
      - destruct (Nat.eqb_spec n c') as [<-|]; [|reflexivity]. apply (i_req _ _ _ _ I) in Hm.
        destruct (Nat.eqb_spec t t') as [<-|]; [lia|apply andb_false_r].
      - destruct (Nat.eqb_spec n c') as [<-|]; [|reflexivity]. apply (i_rep _ _ _ _ I) in Hm.
        destruct (Nat.eqb_spec t t') as [<-|]; [lia|apply andb_false_r]. }
    assert (CR : forall c' t' v, cnt (map (fun v => VReq n v t) (others nodes n)) c' t' v <=
                   if (Nat.eqb c' n && Nat.eqb t' t)%bool then (if Nat.eqb v n then 0 else 1) else 0).
    { intros c' t' v. destruct (Nat.eqb_spec c' n) as [->|Nc]; cbn [andb].
      - destruct (Nat.eqb_spec t' t) as [->|Nt].
        + assert (ND2 : NoDup (others nodes n)) by (apply NoDup_filter, ND).
          assert (NI : ~ In n (others nodes n)) by (rewrite others_spec; tauto).
          clear -ND2 NI. induction (others nodes n) as [|y l IH]; [cbn; lia|]. cbn [map]. rewrite cnt_cons. cbn [about].
          rewrite !Nat.eqb_refl, andb_true_r. cbn [andb].
          inversion ND2; subst. specialize (IH H2 (fun H => NI (or_intror H))).
          destruct (Nat.eqb_spec v y) as [->|].
          * destruct (Nat.eqb_spec y n) as [->|]; [exfalso; apply NI; left; reflexivity|].
            assert (cnt (map (fun v => VReq n v t) l) n t y = 0); [|lia].
            apply cnt_zero. intros m Hm. apply in_map_iff in Hm. destruct Hm as (z & <- & Hz). cbn.
            destruct (Nat.eqb_spec y z) as [<-|]; [contradiction|]. rewrite andb_false_r. reflexivity.
          * cbn. exact IH.
        + rewrite cnt_zero; [lia|]. intros m Hm. apply in_map_iff in Hm. destruct Hm as (z & <- & Hz). cbn.
          destruct (Nat.eqb_spec t' t); [congruence|apply andb_false_r].
      - rewrite cnt_zero; [lia|]. intros m Hm. apply in_map_iff in Hm. destruct Hm as (z & <- & Hz). cbn.
        destruct (Nat.eqb_spec c' n); [congruence|reflexivity]. }
    assert (NV : forall t' c', In (n, t', c') votes -> t' < t).
    { intros t' c' Hv. apply (i_term _ _ _ _ I) in Hv. lia. }
    constructor; cbn [c_node c_net].
    + intros v t' c c' H H'. destruct H as [E|H], H' as [E'|H'].
      * congruence.
      * injection E as <- <- <-. apply NV in H'. lia.
      * injection E' as <- <- <-. apply NV in H. lia.
      * exact (i_fun _ _ _ _ I _ _ _ _ H H').
    + intros v t' c [E|H].
      * injection E as <- <- <-. rewrite set_same. lia.
      * etransitivity; [exact (i_term _ _ _ _ I _ _ _ H)|apply TM].
    + intros c v t' H. apply in_app_or in H. destruct H as [H|H].
      * destruct (i_req _ _ _ _ I _ _ _ H) as (A & B & C). split; [exact A|]. split; [exact B|]. etransitivity; [exact C|apply TM].
      * apply in_map_iff in H. destruct H as (y & E & Hy). injection E as <- <- <-. apply others_spec in Hy.
        rewrite set_same. split; [tauto|]. split; [tauto|]. lia.
    + intros c v t' r vt H. apply in_app_or in H. destruct H as [H|H].
      * destruct (i_rep _ _ _ _ I _ _ _ _ _ H) as (A & B & C & D). split; [exact A|]. split; [exact B|].
        split; [etransitivity; [exact C|apply TM]|]. intros Hr. right. exact (D Hr).
      * apply in_map_iff in H. destruct H as (y & E & Hy). discriminate.
    + intros c k i E. destruct (Nat.eq_dec c n) as [->|N].
      * rewrite set_same in *. rewrite Ht. split; [exact Hn|]. split.
        { intros v. rewrite cnt_app, C0. specialize (CR n t v). rewrite !Nat.eqb_refl in CR. cbn in CR. destruct (v =? n); lia. }
        destruct Hcase as [(_ & _ & [E2|E2])|(_ & _ & E2 & _)]; try congruence.
        assert (k = 1) by congruence. subst k.
        exists [n]. split; [constructor; [intros []|constructor]|]. split; [intros y [<-|[]]; exact Hn|].
        split; [left; reflexivity|]. split; [reflexivity|]. intros v [<-|[]]. split; [left; reflexivity|].
        rewrite cnt_app, C0. specialize (CR n t n). rewrite !Nat.eqb_refl in CR. cbn in CR. lia.
      * rewrite set_other in * by exact N. destruct (i_elec _ _ _ _ I c k i E) as (A & B & L' & C1 & C2 & C3 & C4 & C5).
        assert (CE : forall t' v, cnt (c_net s ++ map (fun v => VReq n v t) (others nodes n)) c t' v = cnt (c_net s) c t' v).
        { intros t' v. rewrite cnt_app. specialize (CR c t' v). apply Nat.eqb_neq in N. rewrite N in CR. cbn in CR. lia. }
        split; [exact A|]. split; [intros v; rewrite CE; apply B|].
        exists L'. repeat (split; [assumption|]). intros v Hv. rewrite CE. destruct (C5 v Hv). split; [right; assumption|assumption].
    + intros m t' H. assert (OLD : In (m, t') won -> exists L, NoDup L /\ incl L nodes /\ length nodes < 2 * length L /\ forall v, In v L -> In (v, t', m) ((n, t, n) :: votes)).
      { intros H'. destruct (i_won _ _ _ _ I _ _ H') as (L & A & B & C & D). exists L. repeat (split; [assumption|]). intros v Hv. right. apply D, Hv. }
      destruct won1 as [p|]; [|apply OLD, H]. destruct H as [->|H]; [|apply OLD, H].
      destruct Hcase as [(E & _)|(E & _ & _ & Hge)]; [discriminate|]. injection E as -> ->.
      exists [n]. split; [constructor; [intros []|constructor]|]. split; [intros y [<-|[]]; exact Hn|].
      split; [pose proof (expect_majority nodes n ND Hn); cbn [length]; lia|]. intros v [<-|[]]. left. reflexivity.
    + intros v l t' H. apply in_app_or in H. destruct H as [H|H]; [apply WI, (i_ping _ _ _ _ I v l t'), H|].
      apply in_map_iff in H. destruct H as (y & E & Hy). discriminate.
    + intros m H. destruct (Nat.eq_dec m n) as [->|N].
      * rewrite set_same in *. rewrite Ht. destruct Hcase as [(_ & E & _)|(-> & _)]; [congruence|left; reflexivity].
      * rewrite set_other in * by exact N. apply WI, (i_lead _ _ _ _ I), H.
  - (* EVote *)
    destruct (n_elec (c_node s v)) eqn:E0; [discriminate|]. destruct (take (VReq c v t) (c_net s)) as [net|] eqn:Et; [|discriminate].
    apply take_split in Et. destruct Et as (a & b & En & ->).
    assert (Hin : In (VReq c v t) (c_net s)) by (rewrite En; apply in_or_app; right; left; reflexivity).
    destruct (i_req _ _ _ _ I _ _ _ Hin) as (Rv & Rne & Rt).
    assert (Hsub : forall m, In m (a ++ b) -> In m (c_net s)).
    { intros m Hm. rewrite En. apply in_app_or in Hm. apply in_or_app. destruct Hm; [left|right; right]; assumption. }
    assert (CE : forall r vt c' t' v', cnt (VRep c v t r vt :: a ++ b) c' t' v' = cnt (c_net s) c' t' v').
    { intros r vt c' t' v'. rewrite En, cnt_cons, !cnt_app, cnt_cons. cbn [about]. lia. }
    destruct (Nat.ltb_spec (n_term (c_node s v)) t) as [Hlt|Hge]; injection H as <- <-; cbn [add_won].
    + exists ((v, t, c) :: votes).
      assert (TM : forall m, n_term (c_node s m) <= n_term (set_node (c_node s) v (mkN t None None) m)).
      { intros m. destruct (Nat.eq_dec m v) as [->|N]; [rewrite set_same; cbn; lia|rewrite set_other by exact N; lia]. }
      constructor; cbn [c_node c_net].
      * intros v' t' d d' H H'. destruct H as [E|H], H' as [E'|H'].
        -- congruence.
        -- injection E as <- <- <-. apply (i_term _ _ _ _ I) in H'. lia.
        -- injection E' as <- <- <-. apply (i_term _ _ _ _ I) in H. lia.
        -- exact (i_fun _ _ _ _ I _ _ _ _ H H').
      * intros v' t' d [E|H].
        -- injection E as <- <- <-. rewrite set_same. cbn. lia.
        -- etransitivity; [exact (i_term _ _ _ _ I _ _ _ H)|apply TM].
      * intros d v' t' [H|H]; [discriminate|]. destruct (i_req _ _ _ _ I _ _ _ (Hsub _ H)) as (A & B & C).
        split; [exact A|]. split; [exact B|]. etransitivity; [exact C|apply TM].
      * intros d v' t' r vt [H|H].
        -- injection H as <- <- <- <- <-. split; [exact Rv|]. split; [exact Rne|]. split; [etransitivity; [exact Rt|apply TM]|].
           intros _. left. reflexivity.
        -- destruct (i_rep _ _ _ _ I _ _ _ _ _ (Hsub _ H)) as (A & B & C & D). split; [exact A|]. split; [exact B|].
           split; [etransitivity; [exact C|apply TM]|]. intros Hr. right. exact (D Hr).
      * intros d k i E. destruct (Nat.eq_dec d v) as [->|N]; [rewrite set_same in E; discriminate|].
        rewrite set_other in * by exact N. destruct (i_elec _ _ _ _ I d k i E) as (A & B & L' & C1 & C2 & C3 & C4 & C5).
        split; [exact A|]. split; [intros v'; rewrite CE; apply B|].
        exists L'. repeat (split; [assumption|]). intros v' Hv. rewrite CE. destruct (C5 v' Hv). split; [right; assumption|assumption].
      * intros m t' H. destruct (i_won _ _ _ _ I _ _ H) as (L & A & B & C & D). exists L. repeat (split; [assumption|]). intros v' Hv. right. apply D, Hv.
      * intros v' l t' [H|H]; [discriminate|]. apply (i_ping _ _ _ _ I v' l t'), Hsub, H.
      * intros m H. destruct (Nat.eq_dec m v) as [->|N]; [rewrite set_same in H; discriminate|].
        rewrite set_other in * by exact N. apply (i_lead _ _ _ _ I), H.
    + exists votes. constructor; cbn [c_node c_net].
      * apply (i_fun _ _ _ _ I).
      * apply (i_term _ _ _ _ I).
      * intros d v' t' [H|H]; [discriminate|]. exact (i_req _ _ _ _ I _ _ _ (Hsub _ H)).
      * intros d v' t' r vt [H|H].
        -- injection H as <- <- <- <- <-. split; [exact Rv|]. split; [exact Rne|]. split; [exact Rt|]. discriminate.
        -- exact (i_rep _ _ _ _ I _ _ _ _ _ (Hsub _ H)).
      * intros d k i E. destruct (i_elec _ _ _ _ I d k i E) as (A & B & L' & C1 & C2 & C3 & C4 & C5).
        split; [exact A|]. split; [intros v'; rewrite CE; apply B|].
        exists L'. repeat (split; [assumption|]). intros v' Hv. rewrite CE. apply C5, Hv.
      * apply (i_won _ _ _ _ I).
      * intros v' l t' [H|H]; [discriminate|]. apply (i_ping _ _ _ _ I v' l t'), Hsub, H.
      * apply (i_lead _ _ _ _ I).
  - (* EReply *)
    destruct (n_elec (c_node s c)) as [[k i]|] eqn:E0; [|discriminate].
    destruct (take (VRep c v t r vt) (c_net s)) as [net|] eqn:Et; [|discriminate].
    apply take_split in Et. destruct Et as (a & b & En & ->).
    destruct (Nat.eqb_spec t (n_term (c_node s c))) as [Eq|]; [|discriminate]. cbn [negb] in H.
    assert (Hin : In (VRep c v t r vt) (c_net s)) by (rewrite En; apply in_or_app; right; left; reflexivity).
    destruct (i_rep _ _ _ _ I _ _ _ _ _ Hin) as (Rv & Rne & Rt & Ryes).
    destruct (i_elec _ _ _ _ I c k i E0) as (Hc & HC1 & L & L1 & L2 & L3 & L4 & L5).
    assert (Hsub : forall m, In m (a ++ b) -> In m (c_net s)).
    { intros m Hm. rewrite En. apply in_app_or in Hm. apply in_or_app. destruct Hm; [left|right; right]; assumption. }
    assert (Hcnt : forall c' t' v', cnt (a ++ b) c' t' v' + (if about c' t' v' (VRep c v t r vt) then 1 else 0) = cnt (c_net s) c' t' v').
    { intros c' t' v'. rewrite En, !cnt_app, cnt_cons. lia. }
    assert (Hcv : cnt (a ++ b) c t v = 0).
    { specialize (Hcnt c t v). cbn [about] in Hcnt. rewrite !Nat.eqb_refl in Hcnt. cbn in Hcnt. specialize (HC1 v). rewrite <- Eq in HC1. lia. }
    exists votes. destruct r.
    + destruct (wait_or_end nodes c (n_term (c_node s c)) (n_leader (c_node s c)) (S k) (S i)) as [x won1] eqn:Hw.
      injection H as <- <-. apply (inv_election nodes s won votes c (S k) (S i) (v :: L) (a ++ b)); try assumption.
      * congruence.
      * intros _. assert (Nv : ~ In v L).
        { intros Hv. destruct (L5 v Hv) as [_ Z]. specialize (Hcnt c t v). cbn [about] in Hcnt. rewrite !Nat.eqb_refl in Hcnt.
          cbn in Hcnt. rewrite <- Eq in Z. lia. }
        split; [constructor; assumption|]. split; [intros y [<-|Hy]; [exact Rv|apply L2, Hy]|].
        split; [right; exact L3|]. split; [cbn; lia|]. intros y [<-|Hy].
        -- rewrite <- Eq. split; [apply Ryes; reflexivity|exact Hcv].
        -- destruct (L5 y Hy) as [A B]. split; [exact A|]. specialize (Hcnt c (n_term (c_node s c)) y). lia.
      * discriminate.
      * intros c' t' v'. specialize (Hcnt c' t' v'). lia.
    + destruct (Nat.ltb_spec (n_term (c_node s c)) vt) as [Hlt|Hge].
      * destruct (wait_or_end nodes c (n_term (c_node s c)) (n_leader (c_node s c)) 0 (S (nodeCount nodes c))) as [x won1] eqn:Hw.
        injection H as <- <-. apply (inv_election nodes s won votes c 0 (S (nodeCount nodes c)) L (a ++ b)); try assumption.
        -- congruence.
        -- congruence.
        -- intros _. lia.
        -- intros c' t' v'. specialize (Hcnt c' t' v'). lia.
      * destruct (wait_or_end nodes c (n_term (c_node s c)) (n_leader (c_node s c)) k (S i)) as [x won1] eqn:Hw.
        injection H as <- <-. apply (inv_election nodes s won votes c k (S i) L (a ++ b)); try assumption.
        -- congruence.
        -- intros _. repeat (split; [assumption|]). intros y Hy. destruct (L5 y Hy) as [A B]. split; [exact A|].
           specialize (Hcnt c (n_term (c_node s c)) y). lia.
        -- intros ->. destruct L; [destruct L3|discriminate].
        -- intros c' t' v'. specialize (Hcnt c' t' v'). lia.
  - (* EReplyErr *)
    destruct (n_elec (c_node s n)) as [[k i]|] eqn:E0; [|discriminate].
    destruct (wait_or_end nodes n (n_term (c_node s n)) (n_leader (c_node s n)) k (S i)) as [x won1] eqn:Hw.
    injection H as <- <-. exists votes. destruct (i_elec _ _ _ _ I n k i E0) as (Hc & HC1 & L & L1 & L2 & L3 & L4 & L5).
    apply (inv_election nodes s won votes n k (S i) L (c_net s)); try assumption; try congruence.
    + intros _. auto 8.
    + intros ->. destruct L; [destruct L3|discriminate].
    + auto.
  - (* ETimeout *)
    destruct (n_elec (c_node s n)) as [[k i]|] eqn:E0; [|discriminate].
    destruct (wait_or_end nodes n (n_term (c_node s n)) (n_leader (c_node s n)) k (nodeCount nodes n)) as [x won1] eqn:Hw.
    injection H as <- <-. exists votes. destruct (i_elec _ _ _ _ I n k i E0) as (Hc & HC1 & L & L1 & L2 & L3 & L4 & L5).
    apply (inv_election nodes s won votes n k (nodeCount nodes n) L (c_net s)); try assumption; try congruence.
    + intros _. auto 8.
    + intros ->. destruct L; [destruct L3|discriminate].
    + auto.
  - (* ESendPings *)
    destruct (n_elec (c_node s n)) eqn:E0; [discriminate|].
    destruct (n_leader (c_node s n)) as [l|] eqn:El; [|discriminate]. destruct (Nat.eqb_spec l n) as [->|]; [|discriminate].
    injection H as <- <-. exists votes. cbn [add_won].
    assert (CE : forall c' t' v', cnt (map (fun v => Ping v n (n_term (c_node s n))) (others nodes n) ++ c_net s) c' t' v' = cnt (c_net s) c' t' v').
    { intros. rewrite cnt_app, cnt_zero; [reflexivity|]. intros m Hm. apply in_map_iff in Hm. destruct Hm as (y & <- & _). reflexivity. }
    assert (SP : forall m, In m (map (fun v => Ping v n (n_term (c_node s n))) (others nodes n) ++ c_net s) ->
                 (exists v, m = Ping v n (n_term (c_node s n))) \/ In m (c_net s)).
    { intros m Hm. apply in_app_or in Hm. destruct Hm as [Hm|Hm]; [left|right; exact Hm].
      apply in_map_iff in Hm. destruct Hm as (y & <- & _). eexists. reflexivity. }
    constructor; cbn [c_node c_net].
    + apply (i_fun _ _ _ _ I).
    + apply (i_term _ _ _ _ I).
    + intros d v' t' H. apply SP in H. destruct H as [(y & H)|H]; [discriminate|]. exact (i_req _ _ _ _ I _ _ _ H).
    + intros d v' t' r vt H. apply SP in H. destruct H as [(y & H)|H]; [discriminate|]. exact (i_rep _ _ _ _ I _ _ _ _ _ H).
    + intros d k i E. destruct (i_elec _ _ _ _ I d k i E) as (A & B & L' & C1 & C2 & C3 & C4 & C5).
      split; [exact A|]. split; [intros v'; rewrite CE; apply B|].
      exists L'. repeat (split; [assumption|]). intros v' Hv. rewrite CE. apply C5, Hv.
    + apply (i_won _ _ _ _ I).
    + intros v' l t' H. apply SP in H. destruct H as [(y & H)|H].
      * injection H as -> -> ->. apply (i_lead _ _ _ _ I), El.
      * apply (i_ping _ _ _ _ I v' l t'), H.
    + apply (i_lead _ _ _ _ I).
  - (* EPing *)
    destruct (n_elec (c_node s v)) eqn:E0; [discriminate|]. destruct (take (Ping v l t) (c_net s)) as [net|] eqn:Et; [|discriminate].
    apply take_split in Et. destruct Et as (a & b & En & ->).
    assert (Hin : In (Ping v l t) (c_net s)) by (rewrite En; apply in_or_app; right; left; reflexivity).
    pose proof (i_ping _ _ _ _ I _ _ _ Hin) as Hwon.
    assert (Hsub : forall m, In m (a ++ b) -> In m (c_net s)).
    { intros m Hm. rewrite En. apply in_app_or in Hm. apply in_or_app. destruct Hm; [left|right; right]; assumption. }
    assert (CE : forall c' t' v', cnt (a ++ b) c' t' v' = cnt (c_net s) c' t' v').
    { intros c' t' v'. rewrite En, !cnt_app, cnt_cons. cbn [about]. lia. }
    exists votes.
    destruct (Nat.ltb_spec t (n_term (c_node s v))) as [Hlt|Hge]; injection H as <- <-; cbn [add_won].
    + constructor; cbn [c_node c_net].
      * apply (i_fun _ _ _ _ I).
      * apply (i_term _ _ _ _ I).
      * intros d v' t' H. exact (i_req _ _ _ _ I _ _ _ (Hsub _ H)).
      * intros d v' t' r vt H. exact (i_rep _ _ _ _ I _ _ _ _ _ (Hsub _ H)).
      * intros d k i E. destruct (i_elec _ _ _ _ I d k i E) as (A & B & L' & C1 & C2 & C3 & C4 & C5).
        split; [exact A|]. split; [intros v'; rewrite CE; apply B|].
        exists L'. repeat (split; [assumption|]). intros v' Hv. rewrite CE. apply C5, Hv.
      * apply (i_won _ _ _ _ I).
      * intros v' l' t' H. apply (i_ping _ _ _ _ I v' l' t'), Hsub, H.
      * apply (i_lead _ _ _ _ I).
    + assert (TM : forall m, n_term (c_node s m) <= n_term (set_node (c_node s) v (mkN t (Some l) None) m)).
      { intros m. destruct (Nat.eq_dec m v) as [->|N]; [rewrite set_same; cbn; lia|rewrite set_other by exact N; lia]. }
      constructor; cbn [c_node c_net].
      * apply (i_fun _ _ _ _ I).
      * intros v' t' d H. etransitivity; [exact (i_term _ _ _ _ I _ _ _ H)|apply TM].
      * intros d v' t' H. destruct (i_req _ _ _ _ I _ _ _ (Hsub _ H)) as (A & B & C).
        split; [exact A|]. split; [exact B|]. etransitivity; [exact C|apply TM].
      * intros d v' t' r vt H. destruct (i_rep _ _ _ _ I _ _ _ _ _ (Hsub _ H)) as (A & B & C & D).
        split; [exact A|]. split; [exact B|]. split; [etransitivity; [exact C|apply TM]|exact D].
      * intros d k i E. destruct (Nat.eq_dec d v) as [->|N]; [rewrite set_same in E; discriminate|].
        rewrite set_other in * by exact N. destruct (i_elec _ _ _ _ I d k i E) as (A & B & L' & C1 & C2 & C3 & C4 & C5).
        split; [exact A|]. split; [intros v'; rewrite CE; apply B|].
        exists L'. repeat (split; [assumption|]). intros v' Hv. rewrite CE. apply C5, Hv.
      * apply (i_won _ _ _ _ I).
      * intros v' l' t' H. apply (i_ping _ _ _ _ I v' l' t'), Hsub, H.
      * intros m H. destruct (Nat.eq_dec m v) as [->|N].
        -- rewrite set_same in *. cbn in *. injection H as ->. exact Hwon.
        -- rewrite set_other in * by exact N. apply (i_lead _ _ _ _ I), H.
  - contradiction.
Qed.


Lemma run_inv nodes : NoDup nodes -> forall es s won votes s' ws, inv nodes s won votes -> no_restart es ->
  run nodes s es = Some (s', ws) ->
  exists won' votes', inv nodes s' won' votes' /\ (forall p, In p won' <-> In p won \/ In p ws).
Proof.
  intros ND. induction es as [|e es IH]; intros s won votes s' ws I NR H; cbn [run] in H.
  - injection H as <- <-. exists won, votes. split; [exact I|]. intros p. cbn. tauto.
  - destruct (do_event nodes s e) as [[s1 w]|] eqn:E; [|discriminate].
    destruct (run nodes s1 es) as [[s2 ws']|] eqn:R; [|discriminate]. injection H as <- <-.
    destruct (step_inv nodes s won votes e s1 w ND I) as [votes1 I1]; [|exact E|].
    { destruct e; try exact Logic.I. apply (NR n). left. reflexivity. }
    destruct (IH s1 (add_won w won) votes1 s2 ws' I1) as (won' & votes' & I' & W'); [|exact R|].
    { intros n H. apply (NR n). right. exact H. }
    exists won', votes'. split; [exact I'|]. intros p. rewrite W'. destruct w as [q|]; cbn; tauto.
Qed.

Lemma init_inv nodes : inv nodes c_init [] [].
Proof. constructor; cbn; intros; try contradiction; discriminate. Qed.

Lemma elected_once nodes es s ws n n' t : NoDup nodes -> no_restart es -> run nodes c_init es = Some (s, ws) ->
  In (n, t) ws -> In (n', t) ws -> n = n'.
Proof.
  intros ND NR R H H'. destruct (run_inv nodes ND es _ _ _ _ _ (init_inv nodes) NR R) as (won & votes & I & W).
  eapply one_per_term; [exact I| |]; apply W; right; eassumption.
Qed.
Lemma leaders_agree nodes es s ws n n' : NoDup nodes -> no_restart es -> run nodes c_init es = Some (s, ws) ->
  n_leader (c_node s n) = Some n -> n_leader (c_node s n') = Some n' ->
  n_term (c_node s n) = n_term (c_node s n') -> n = n'.
Proof.
  intros ND NR R H H' E. destruct (run_inv nodes ND es _ _ _ _ _ (init_inv nodes) NR R) as (won & votes & I & W).
  eapply one_per_term; [exact I|apply (i_lead _ _ _ _ I), H|]. rewrite E. apply (i_lead _ _ _ _ I), H'.
Qed.
