(** Proofs about the topic tree, for any parts. *)
From Verif Require Import M_Bytes M_Topic M_Trie.
From Coq Require Import Lia ZifyBool ZifyNat ZifyN.
Open Scope N_scope.

Lemma part_eqb_spec a b : reflect (a = b) (part_eqb a b).
Proof.
  destruct a as [h w], b as [h' w']. unfold part_eqb; cbn.
  destruct (N.eqb_spec h h'); cbn; [|constructor; congruence].
  destruct (N.eqb_spec w w'); cbn; constructor; congruence.
Qed.
Lemma part_eqb_refl a : part_eqb a a = true.
Proof. destruct (part_eqb_spec a a); congruence. Qed.

Lemma parts_dec (a b : list part) : {a = b} + {a <> b}.
Proof. apply list_eq_dec. intros x y. destruct (part_eqb_spec x y); [left|right]; assumption. Qed.

(** Induction over nodes with their children. *)
Lemma node_rect' (P : node -> Prop) :
  (forall d ts ch, Forall (fun pc => P (snd pc)) ch -> P (Node d ts ch)) -> forall n, P n.
Proof.
  intros H. fix IH 1. intros [d ts ch]. apply H. induction ch as [|[p c] ch IHc]; constructor; [apply IH|exact IHc].
Qed.

(** * Well formed nodes: keys of children differ *)
Inductive nwf : node -> Prop :=
| nwf_node d ts ch : NoDup (map fst ch) -> Forall (fun pc => nwf (snd pc)) ch -> nwf (Node d ts ch).
Lemma nwf_empty : nwf node_empty. Proof. constructor; constructor. Qed.

Lemma child_in ch p c : child ch p = Some c -> In (p, c) ch.
Proof.
  induction ch as [|[q d] ch IH]; cbn [child]; [discriminate|].
  destruct (part_eqb_spec q p) as [->|]; [intros H; assert (d = c) by congruence; subst; now left|right; auto].
Qed.
Lemma in_child ch p c : NoDup (map fst ch) -> In (p, c) ch -> child ch p = Some c.
Proof.
  induction ch as [|[q d] ch IH]; cbn [child map fst]; intros Hnd; [intros []|].
  inversion Hnd as [|? ? Hni Hnd']; subst. intros [E|Hin].
  - assert (q = p /\ d = c) as [-> ->] by (split; congruence). now rewrite part_eqb_refl.
  - destruct (part_eqb_spec q p) as [->|]; [|auto]. exfalso. apply Hni. apply (in_map fst) in Hin. exact Hin.
Qed.
Lemma child_set_same ch p c : child (set_child ch p c) p = Some c.
Proof.
  induction ch as [|[q d] ch IH]; cbn [set_child child]; [now rewrite part_eqb_refl|].
  destruct (part_eqb q p) eqn:E; cbn [child]; rewrite E; [reflexivity|exact IH].
Qed.
Lemma child_set_other ch p q c : p <> q -> child (set_child ch p c) q = child ch q.
Proof.
  intros H. induction ch as [|[k d] ch IH]; cbn [set_child child].
  - destruct (part_eqb_spec p q); [contradiction|reflexivity].
  - destruct (part_eqb_spec k p) as [->|]; cbn [child].
    + destruct (part_eqb_spec p q); [contradiction|reflexivity].
    + destruct (part_eqb_spec k q); [reflexivity|exact IH].
Qed.
Lemma keys_set ch p c : map fst (set_child ch p c) = map fst ch \/
  (map fst (set_child ch p c) = map fst ch ++ [p] /\ ~ In p (map fst ch)).
Proof.
  induction ch as [|[k d] ch IH]; cbn [set_child map fst]; [right; split; [reflexivity|intros []]|].
  destruct (part_eqb_spec k p) as [->|Hne]; cbn [map fst]; [now left|].
  destruct IH as [->|[-> Hni]]; [now left|]. right. split; [reflexivity|]. intros [?|?]; [congruence|contradiction].
Qed.
Lemma nodup_app_one {A} (l : list A) x : NoDup l -> ~ In x l -> NoDup (l ++ [x]).
Proof.
  induction l as [|y l IH]; cbn; intros Hnd Hni; [repeat constructor; auto|].
  inversion Hnd; subst. constructor; [|apply IH; tauto]. rewrite in_app_iff. intros [?|[->|[]]]; tauto.
Qed.
Lemma set_child_wf ch p c : NoDup (map fst ch) -> Forall (fun pc => nwf (snd pc)) ch -> nwf c ->
  NoDup (map fst (set_child ch p c)) /\ Forall (fun pc => nwf (snd pc)) (set_child ch p c).
Proof.
  intros Hnd Hf Hc. split.
  - destruct (keys_set ch p c) as [->|[-> Hni]]; [assumption|]. now apply nodup_app_one.
  - clear Hnd. induction ch as [|[k d] ch IH]; cbn [set_child]; [repeat constructor; assumption|].
    inversion Hf; subst. destruct (part_eqb k p); constructor; auto.
Qed.

Lemma node_add_wf ps : forall n t dep, nwf n -> nwf (node_add n ps t dep).
Proof.
  induction ps as [|p ps IH]; intros [d ts ch] t dep H; inversion H as [? ? ? Hnd Hf]; subst; cbn [node_add]; [constructor; assumption|].
  destruct (set_child_wf ch p (node_add (match child ch p with Some c => c | None => node_empty end) ps t dep)) as [H1 H2]; auto.
  - apply IH. destruct (child ch p) as [c|] eqn:E; [|apply nwf_empty].
    apply child_in in E. rewrite Forall_forall in Hf. apply (Hf _ E).
  - constructor; assumption.
Qed.
Lemma node_set_wf ps : forall n t, nwf n -> nwf (node_set n ps t).
Proof.
  induction ps as [|p ps IH]; intros [d ts ch] t H; inversion H as [? ? ? Hnd Hf]; subst; cbn [node_set]; [constructor; assumption|].
  destruct (child ch p) as [c|] eqn:E; [|exact H].
  destruct (set_child_wf ch p (node_set c ps t)) as [H1 H2]; auto.
  - apply IH. apply child_in in E. rewrite Forall_forall in Hf. apply (Hf _ E).
  - constructor; assumption.
Qed.

(** * Contents by path *)
Definition ntops (n : node) (ps : list part) : list ttopic :=
  match node_at n ps with Some (Node _ ts _) => ts | None => [] end.
Definition ndep (n : node) (ps : list part) : N :=
  match node_at n ps with Some (Node d _ _) => d | None => 0 end.

Lemma ntops_empty ps : ntops node_empty ps = [].
Proof. destruct ps; reflexivity. Qed.
Lemma ndep_empty ps : ndep node_empty ps = 0.
Proof. destruct ps; reflexivity. Qed.

Lemma node_add_tops ps : forall n t dep qs,
  ntops (node_add n ps t dep) qs = (if parts_dec qs ps then addUnique (ntops n ps) t else ntops n qs) /\
  ndep (node_add n ps t dep) qs = (if parts_dec qs ps then dep else ndep n qs).
Proof.
  induction ps as [|p ps IH]; intros [d ts ch] t dep qs; cbn [node_add].
  - destruct (parts_dec qs []) as [->|]; [split; reflexivity|]. destruct qs as [|q qs]; [congruence|]. split; reflexivity.
  - destruct qs as [|q qs].
    + destruct (parts_dec [] (p :: ps)); [discriminate|]. split; reflexivity.
    + set (c0 := match child ch p with Some c => c | None => node_empty end).
      assert (Hk : forall k, ntops c0 k = ntops (Node d ts ch) (p :: k) /\ ndep c0 k = ndep (Node d ts ch) (p :: k)).
      { intros k. unfold c0, ntops, ndep. cbn [node_at]. destruct (child ch p); [split; reflexivity|].
        destruct k; split; reflexivity. }
      pose proof (proj1 (Hk ps)) as Hps.
      destruct (part_eqb_spec p q) as [<-|Hpq].
      * assert (E1 : ntops (Node d ts (set_child ch p (node_add c0 ps t dep))) (p :: qs) = ntops (node_add c0 ps t dep) qs)
          by (unfold ntops; cbn [node_at]; now rewrite child_set_same).
        assert (E2 : ndep (Node d ts (set_child ch p (node_add c0 ps t dep))) (p :: qs) = ndep (node_add c0 ps t dep) qs)
          by (unfold ndep; cbn [node_at]; now rewrite child_set_same).
        rewrite E1, E2. destruct (IH c0 t dep qs) as [-> ->]. rewrite Hps. destruct (Hk qs) as [-> ->].
        destruct (parts_dec qs ps) as [->|Hne]; destruct (parts_dec (p :: _) (p :: ps)) as [E|E]; split; try reflexivity; congruence.
      * destruct (parts_dec (q :: qs) (p :: ps)); [congruence|].
        split; unfold ntops, ndep; cbn [node_at]; now rewrite child_set_other by assumption.
Qed.

Lemma node_set_tops ps : forall n t qs, node_at n ps <> None ->
  ntops (node_set n ps t) qs = (if parts_dec qs ps then addUnique (ntops n ps) t else ntops n qs) /\
  ndep (node_set n ps t) qs = ndep n qs.
Proof.
  induction ps as [|p ps IH]; intros [d ts ch] t qs Hex; cbn [node_set].
  - destruct (parts_dec qs []) as [->|]; [split; reflexivity|]. destruct qs as [|q qs]; [congruence|]. split; reflexivity.
  - cbn [node_at] in Hex. destruct (child ch p) as [c0|] eqn:Ec; [|congruence].
    destruct qs as [|q qs].
    + destruct (parts_dec [] (p :: ps)); [discriminate|]. split; reflexivity.
    + assert (Hk : forall k, ntops (Node d ts ch) (p :: k) = ntops c0 k /\ ndep (Node d ts ch) (p :: k) = ndep c0 k)
        by (intros k; split; unfold ntops, ndep; cbn [node_at]; now rewrite Ec).
      destruct (part_eqb_spec p q) as [<-|Hpq].
      * assert (E1 : ntops (Node d ts (set_child ch p (node_set c0 ps t))) (p :: qs) = ntops (node_set c0 ps t) qs)
          by (unfold ntops; cbn [node_at]; now rewrite child_set_same).
        assert (E2 : ndep (Node d ts (set_child ch p (node_set c0 ps t))) (p :: qs) = ndep (node_set c0 ps t) qs)
          by (unfold ndep; cbn [node_at]; now rewrite child_set_same).
        rewrite E1, E2. destruct (IH c0 t qs Hex) as [-> ->]. destruct (Hk qs) as [-> ->]. destruct (Hk ps) as [-> _].
        destruct (parts_dec qs ps) as [->|Hne]; destruct (parts_dec (p :: _) (p :: ps)) as [E|E]; split; try reflexivity; congruence.
      * destruct (parts_dec (q :: qs) (p :: ps)); [congruence|].
        split; unfold ntops, ndep; cbn [node_at]; now rewrite child_set_other by assumption.
Qed.

Lemma node_add_at ps : forall n t dep, node_at (node_add n ps t dep) ps <> None.
Proof.
  induction ps as [|p ps IH]; intros [d ts ch] t dep; cbn [node_add node_at]; [discriminate|].
  rewrite child_set_same. apply IH.
Qed.

(** * Lookup *)
(** One step from a node to the child with part [p]. *)
Definition wstep (p : part) (query : list part) : option (list part) :=
  match query with
  | [] => None
  | q :: rest =>
      if ((p_hash p =? p_hash q) && (p_wild q =? p_wild p))%bool then Some rest
      else if ((p_hash p =? p_hash q) && (u8 (p_wild p + 1) <=? u8 (N.of_nat (length query))))%bool
      then Some (skipn (N.to_nat (u8 (p_wild p + 1))) query)
      else if p_hash p =? Wildcard then Some query
      else None
  end.
Fixpoint walk (ps : list part) (query : list part) : option (list part) :=
  match ps with
  | [] => Some query
  | p :: r => match wstep p query with Some q => walk r q | None => None end
  end.
Definition hit (static : bool) (depth d : N) (self : part) : Prop :=
  d = depth \/ (static = true /\ p_hash self = Wildcard).

Definition consistent (F : N -> Z) (l : list ttopic) : Prop := forall h o, In (h, o) l -> o = F h.

Lemma addUnique_in F l t x : consistent F l -> snd t = F (fst t) ->
  (In x (addUnique l t) <-> In x l \/ x = t).
Proof.
  intros Hc Ht. induction l as [|v l IH]; cbn [addUnique].
  - cbn. intuition.
  - destruct (N.eqb_spec (fst v) (fst t)) as [E|E].
    + assert (v = t). { destruct v as [h o], t as [h' o']; cbn in *. subst h'. rewrite (Hc h o (or_introl eq_refl)), Ht. reflexivity. }
      subst v. cbn. intuition.
    + cbn [In]. rewrite IH; [tauto|]. intros h o Hin. apply Hc. now right.
Qed.
Lemma addAll_in F ts : forall l x, consistent F l -> consistent F ts ->
  (In x (fold_left addUnique ts l) <-> In x l \/ In x ts).
Proof.
  induction ts as [|t ts IH]; intros l x Hl Hts; cbn [fold_left]; [cbn; tauto|].
  assert (Ht : snd t = F (fst t)) by (destruct t as [h o]; apply (Hts h o); now left).
  rewrite IH.
  - rewrite (addUnique_in F) by assumption. cbn. intuition.
  - intros h o Hin. rewrite (addUnique_in F) in Hin by assumption. destruct Hin as [Hin|<-]; [now apply Hl|exact Ht].
  - intros h o Hin. apply Hts. now right.
Qed.

Definition found (static : bool) (depth : N) (n : node) (self : part) (query : list part) (x : ttopic) : Prop :=
  exists ps r, walk ps query = Some r /\ hit static depth (ndep n ps) (last ps self) /\ In x (ntops n ps).

Lemma hit_bool s dep d self : ((d =? dep) || (s && (p_hash self =? Wildcard)))%bool = true <-> hit s dep d self.
Proof. unfold hit. rewrite orb_true_iff, andb_true_iff, !N.eqb_eq. tauto. Qed.

Lemma last_cons_default (ps : list part) p self : last (p :: ps) self = last ps p.
Proof.
  revert p self; induction ps as [|q ps IH]; intros p self; [reflexivity|].
  change (last (p :: q :: ps) self) with (last (q :: ps) self). rewrite !IH. reflexivity.
Qed.

Lemma node_cons d ts ch p c ps : NoDup (map fst ch) -> In (p, c) ch ->
  ntops (Node d ts ch) (p :: ps) = ntops c ps /\ ndep (Node d ts ch) (p :: ps) = ndep c ps.
Proof. intros H1 H2. unfold ntops, ndep; cbn [node_at]. now rewrite (in_child ch p c H1 H2). Qed.
Lemma node_cons_inv d ts ch p ps x : In x (ntops (Node d ts ch) (p :: ps)) -> exists c, In (p, c) ch /\
  ntops (Node d ts ch) (p :: ps) = ntops c ps /\ ndep (Node d ts ch) (p :: ps) = ndep c ps.
Proof.
  unfold ntops, ndep; cbn [node_at]. destruct (child ch p) as [c|] eqn:E; [|intros []].
  intros _. exists c. split; [now apply child_in|]. split; reflexivity.
Qed.

Lemma ilookup_in F s dep n : nwf n -> forall self query acc x, consistent F acc ->
  (forall ps, consistent F (ntops n ps)) ->
  (In x (ilookup s dep n self query acc) <-> In x acc \/ found s dep n self query x) /\
  consistent F (ilookup s dep n self query acc).
Proof.
  induction n as [d ts ch IH] using node_rect'. intros Hwf self query acc x Hacc Hn.
  inversion Hwf as [? ? ? Hnd Hf]; subst.
  enough (forall y, In y (ilookup s dep (Node d ts ch) self query acc) <-> In y acc \/ found s dep (Node d ts ch) self query y) as Hiff.
  { split; [apply Hiff|]. intros h o Hin. apply Hiff in Hin. destruct Hin as [Hin|(ps & r & _ & _ & Hin)]; [now apply Hacc|now apply (Hn ps)]. }
  clear x. intros x. cbn [ilookup].
  set (acc0 := if ((d =? dep) || (s && (p_hash self =? Wildcard)))%bool then fold_left addUnique ts acc else acc).
  assert (Hts : consistent F ts) by exact (Hn []).
  assert (H0 : forall y, In y acc0 <-> In y acc \/ (hit s dep d self /\ In y ts)).
  { intros y. unfold acc0. destruct ((d =? dep) || _)%bool eqn:E.
    - apply hit_bool in E. rewrite (addAll_in F) by assumption. tauto.
    - assert (~ hit s dep d self) by (intros H; apply hit_bool in H; congruence). tauto. }
  assert (Hc0 : consistent F acc0).
  { intros h o Hin. apply H0 in Hin. destruct Hin as [?|[_ ?]]; [now apply Hacc|now apply Hts]. }
  clearbody acc0.
  destruct query as [|q rest].
  - rewrite H0. unfold found. split.
    + intros [Hin|[Hh Hin]]; [now left|]. right. exists [], []. cbn. auto.
    + intros [Hin|(ps & r & Hw & Hh & Hin)]; [now left|]. destruct ps as [|p ps]; [|cbn in Hw; discriminate].
      cbn in Hw, Hh. right. split; assumption.
  - set (query := q :: rest).
    set (step := fun acc pc => match pc with (p, c) => _ end).
    assert (Hfold : forall ch', incl ch' ch -> forall a, consistent F a ->
      (forall y, In y (fold_left step ch' a) <-> In y a \/
         exists p c q', In (p, c) ch' /\ wstep p query = Some q' /\ found s dep c p q' y) /\
      consistent F (fold_left step ch' a)).
    { induction ch' as [|[p c] ch' IHc]; intros Hincl a Ha; cbn [fold_left].
      - split; [|exact Ha]. intros y. split; [now left|]. intros [?|(p & c & q' & [] & _)]; assumption.
      - assert (Hin : In (p, c) ch) by (apply Hincl; now left).
        assert (Hcw : nwf c) by (rewrite Forall_forall in Hf; apply (Hf _ Hin)).
        assert (Hcn : forall ps, consistent F (ntops c ps)).
        { intros ps. destruct (node_cons d ts ch p c ps Hnd Hin) as [<- _]. apply Hn. }
        assert (Hstep : (forall y, In y (step a (p, c)) <-> In y a \/ exists q', wstep p query = Some q' /\ found s dep c p q' y)
                        /\ consistent F (step a (p, c))).
        { rewrite Forall_forall in IH. pose proof (IH _ Hin Hcw) as IHn. cbn [snd] in IHn.
          unfold step, query. cbn [wstep].
          destruct ((p_hash p =? p_hash q) && (p_wild q =? p_wild p))%bool;
            [|destruct ((p_hash p =? p_hash q) && (u8 (p_wild p + 1) <=? u8 (N.of_nat (length (q :: rest)))))%bool;
              [|destruct (p_hash p =? Wildcard)]].
          all: try (split; [intros y; destruct (IHn p rest a y Ha Hcn) as [-> _]; split;
                 [intros [?|?]; [now left|right; eauto]|intros [?|(q' & E & ?)]; [now left|right; congruence]]
               |apply (IHn p rest a (0, 0%Z) Ha Hcn)]).
          - split.
            + intros y. destruct (IHn p (skipn (N.to_nat (u8 (p_wild p + 1))) (q :: rest)) a y Ha Hcn) as [-> _]. split.
              * intros [?|?]; [now left|right; eauto].
              * intros [?|(q' & E & ?)]; [now left|right]. assert (q' = skipn (N.to_nat (u8 (p_wild p + 1))) (q :: rest)) by congruence. subst; assumption.
            + apply (IHn p _ a (0, 0%Z) Ha Hcn).
          - split.
            + intros y. destruct (IHn p (q :: rest) a y Ha Hcn) as [-> _]. split.
              * intros [?|?]; [now left|right; eauto].
              * intros [?|(q' & E & ?)]; [now left|right]. assert (q' = q :: rest) by congruence. subst; assumption.
            + apply (IHn p _ a (0, 0%Z) Ha Hcn).
          - split; [|exact Ha]. intros y. split; [now left|]. intros [?|(q' & E & _)]; [assumption|discriminate]. }
        destruct Hstep as [Hs1 Hs2]. destruct (IHc ltac:(intros z Hz; apply Hincl; now right) (step a (p, c)) Hs2) as [Hr1 Hr2].
        split; [|exact Hr2]. intros y. rewrite Hr1, Hs1. split.
        + intros [[?|(q' & E & Hfd)]|(p' & c' & q' & Hi & E & Hfd)]; [now left| |].
          * right. exists p, c, q'. split; [now left|auto].
          * right. exists p', c', q'. split; [now right|auto].
        + intros [?|(p' & c' & q' & [Heq|Hi] & E & Hfd)]; [tauto| |].
          * assert (p' = p /\ c' = c) as [-> ->] by (split; congruence). left. right. eauto.
          * right. exists p', c', q'. auto. }
    destruct (Hfold ch (incl_refl _) acc0 Hc0) as [Hr _]. rewrite Hr, H0. unfold found. split.
    + intros [[?|[Hh Hin]]|(p & c & q' & Hi & E & ps & r & Hw & Hh & Hin)]; [now left| |].
      * right. exists [], query. cbn. auto.
      * right. exists (p :: ps), r. destruct (node_cons d ts ch p c ps Hnd Hi) as [Et Ed]. rewrite Et, Ed, last_cons_default.
        split; [|auto]. change (walk (p :: ps) query) with (match wstep p query with Some q => walk ps q | None => None end).
        now rewrite E.
    + intros [?|(ps & r & Hw & Hh & Hin)]; [tauto|]. destruct ps as [|p ps].
      * cbn in Hw, Hh. left. right. split; assumption.
      * right. destruct (node_cons_inv d ts ch p ps x Hin) as (c & Hi & Et & Ed). rewrite Et in Hin. rewrite Ed, last_cons_default in Hh.
        change (walk (p :: ps) query) with (match wstep p query with Some q => walk ps q | None => None end) in Hw.
        destruct (wstep p query) as [q'|] eqn:E; [|discriminate].
        exists p, c, q'. split; [assumption|]. split; [assumption|]. exists ps, r. auto.
Qed.
