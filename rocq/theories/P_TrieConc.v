(** Proofs about concurrent additions to the topic tree. *)
From Verif Require Import M_Bytes M_Hash M_Topic M_Trie S_Trie P_Trie P_Bloom P_Trie2 P_Trie3 M_TrieConc.
From Coq Require Import Lia ZifyBool ZifyNat ZifyN.
Open Scope N_scope.

Lemma with_node_nth h i f j : nth_error (with_node h i f) j =
  if Nat.eqb i j then option_map f (nth_error h j) else nth_error h j.
Proof.
  unfold with_node. destruct (nth_error h i) as [n|] eqn:E.
  - destruct (Nat.eqb_spec i j) as [<-|Hij].
    + rewrite E. assert (Hl : (i < length h)%nat) by (apply nth_error_Some; congruence).
      unfold update. rewrite nth_error_app2 by (rewrite firstn_length; lia). rewrite firstn_length, Nat.min_l, Nat.sub_diag by lia.
      destruct (skipn i h) eqn:Es; [|reflexivity]. pose proof (skipn_length i h) as Hs. rewrite Es in Hs. cbn in Hs. lia.
    + unfold update. assert (Hl : (i < length h)%nat) by (apply nth_error_Some; congruence).
      destruct (skipn i h) as [|x r] eqn:Es; [pose proof (skipn_length i h) as Hs; rewrite Es in Hs; cbn in Hs; lia|].
      destruct (Nat.lt_ge_cases j i) as [Hj|Hj].
      * rewrite nth_error_app1 by (rewrite firstn_length; lia).
        rewrite <- (firstn_skipn i h) at 2. now rewrite nth_error_app1 by (rewrite firstn_length; lia).
      * rewrite <- (firstn_skipn i h) at 2. rewrite !nth_error_app2 by (rewrite firstn_length; lia).
        rewrite firstn_length, Nat.min_l by lia. rewrite Es. destruct (j - i)%nat eqn:Ej; [lia|reflexivity].
  - destruct (Nat.eqb_spec i j) as [<-|]; [now rewrite E|reflexivity].
Qed.

(** A topic in a node stays there with its offset unless stored again. *)
Definition holds (h : heap) (i : nat) (k : N) : Prop :=
  exists n, nth_error h i = Some n /\ In k (map fst (hn_topics n)).

Lemma addUnique_keeps l t k : In k (map fst l) -> In k (map fst (addUnique l t)).
Proof. intros H. destruct (addUnique_keys l t) as [->|[-> _]]; [exact H|]. apply in_or_app. now left. Qed.
Lemma addUnique_has l t : In (fst t) (map fst (addUnique l t)).
Proof.
  induction l as [|v l IH]; cbn [addUnique map]; [now left|]. destruct (N.eqb_spec (fst v) (fst t)); cbn [map]; [now left|now right].
Qed.

Lemma with_node_holds h i f j k : (forall n, In k (map fst (hn_topics n)) -> In k (map fst (hn_topics (f n)))) ->
  holds h j k -> holds (with_node h i f) j k.
Proof.
  intros Hf (n & E & Hin). unfold holds. rewrite with_node_nth, E. destruct (Nat.eqb i j); cbn [option_map]; eauto.
Qed.

(** Callers point at existing nodes, the summary at nodes holding the topic. *)
Definition caller_ok (h : heap) (s : list (N * nat)) (c : caller) : Prop :=
  match c with
  | CStart _ _ _ => True
  | CLook cur _ _ _ | CMake cur _ _ _ _ => (cur < length h)%nat
  | CDepth cur _ k => (cur < length h)%nat /\ hsum s k <> None
  | CDone k _ => hsum s k <> None
  end.
Record cinv (x : cstate) : Prop := mkCInv {
  ci_root : (0 < length (cs_heap x))%nat;
  ci_callers : Forall (caller_ok (cs_heap x) (cs_summary x)) (cs_callers x);
  ci_children : forall i n p c, nth_error (cs_heap x) i = Some n -> hchild (hn_children n) p = Some c -> (c < length (cs_heap x))%nat;
  ci_sum : forall k i, hsum (cs_summary x) k = Some i -> holds (cs_heap x) i k
}.

Lemma with_node_length h i f : length (with_node h i f) = length h.
Proof. unfold with_node. destruct (nth_error h i); [apply update_length|reflexivity]. Qed.
Lemma hchild_hset ch p i q c : hchild (hset ch p i) q = Some c -> c = i \/ hchild ch q = Some c.
Proof.
  induction ch as [|[r d] ch IH]; cbn [hset hchild].
  - destruct (part_eqb p q); [intros E; left; congruence|discriminate].
  - destruct (part_eqb r p) eqn:E1; cbn [hchild]; destruct (part_eqb r q); auto; intros E; left; congruence.
Qed.
Lemma caller_ok_mono h s c h' s' : (length h <= length h')%nat -> (forall k, hsum s k <> None -> hsum s' k <> None) ->
  caller_ok h s c -> caller_ok h' s' c.
Proof. intros Hl Hs. destruct c; cbn; try tauto; try lia; [intros [? ?]; split; [lia|auto]|auto]. Qed.

Lemma cinv_step x y : cinv x -> cstep x y -> cinv y.
Proof.
  intros [Hroot Hcs Hch Hsum] Hst. destruct Hst as [h s cs i c h' s' c' Hi Hc]. cbn [cs_heap cs_summary cs_callers] in *.
  assert (Hcok : caller_ok h s c) by (rewrite Forall_forall in Hcs; apply Hcs; eapply nth_error_In; eauto).
  assert (Hfin : (length h <= length h')%nat -> (forall k, hsum s k <> None -> hsum s' k <> None) -> caller_ok h' s' c' ->
    Forall (caller_ok h' s') (update cs i c')).
  { intros Hl Hm Hc'. apply update_forall; [|exact Hc']. eapply Forall_impl; [|exact Hcs]. intros a. now apply caller_ok_mono. }
  destruct c as [top ps depth|cur ps top depth|cur p ps top depth|cur depth k|k b]; cbn [caller_step] in Hc.
  - destruct (hsum s (fst top)) eqn:E; assert (h' = h /\ s' = s) as [-> ->] by (split; congruence).
    + assert (c' = CDone (fst top) false) by congruence; subst c'. constructor; cbn; auto. apply Hfin; cbn; auto; congruence.
    + assert (c' = CLook 0 ps top depth) by congruence; subst c'. constructor; cbn; auto.
  - cbn in Hcok. destruct ps as [|p ps].
    + assert (E1 : h' = with_node h cur (fun n => mkHN (hn_depth n) (addUnique (hn_topics n) top) (hn_children n))) by congruence.
      assert (E2 : s' = (fst top, cur) :: s) by congruence. assert (E3 : c' = CDepth cur depth (fst top)) by congruence.
      clear Hc. subst h' s' c'. constructor; cbn [cs_heap cs_summary cs_callers].
      * now rewrite with_node_length.
      * apply Hfin; [now rewrite with_node_length| |].
        -- intros k. cbn. destruct (fst top =? k); [discriminate|auto].
        -- cbn. rewrite with_node_length, N.eqb_refl. split; [exact Hcok|discriminate].
      * intros j n p c Hn. rewrite with_node_length. rewrite with_node_nth in Hn.
        destruct (Nat.eqb cur j); [|eauto]. destruct (nth_error h j) as [n'|] eqn:En; [|discriminate]. cbn in Hn.
        assert (E : n = mkHN (hn_depth n') (addUnique (hn_topics n') top) (hn_children n')) by congruence. subst n. cbn. eauto.
      * intros k j. cbn [hsum]. destruct (N.eqb_spec (fst top) k) as [<-|Hk].
        -- intros [= <-]. destruct (nth_error h cur) as [n|] eqn:En; [|apply nth_error_None in En; lia].
           exists (mkHN (hn_depth n) (addUnique (hn_topics n) top) (hn_children n)). rewrite with_node_nth, Nat.eqb_refl, En. cbn.
           split; [reflexivity|apply addUnique_has].
        -- intros E. apply with_node_holds; [|now apply Hsum]. intros n. cbn. apply addUnique_keeps.
    + destruct (nth_error h cur) as [n|] eqn:En; [|discriminate].
      destruct (hchild (hn_children n) p) as [d|] eqn:Ed; assert (h' = h /\ s' = s) as [-> ->] by (split; congruence).
      * assert (c' = CLook d ps top depth) by congruence; subst c'. constructor; cbn; auto. apply Hfin; auto. cbn. eauto.
      * assert (c' = CMake cur p ps top depth) by congruence; subst c'. constructor; cbn; auto.
  - cbn in Hcok. set (f := fun n => mkHN (hn_depth n) (hn_topics n) (hset (hn_children n) p (length h))) in *.
    assert (E1 : h' = with_node (h ++ [mkHN 0 [] []]) cur f) by congruence. assert (s' = s) by congruence.
    assert (c' = CLook (length h) ps top depth) by congruence. clear Hc. subst h' s' c'.
    assert (Hl : length (with_node (h ++ [mkHN 0 [] []]) cur f) = S (length h)) by (rewrite with_node_length, app_length; cbn; lia).
    constructor; cbn [cs_heap cs_summary cs_callers].
    + lia.
    + apply Hfin; [lia|auto|]. cbn. lia.
    + intros j n q c Hn Hq. rewrite Hl. rewrite with_node_nth in Hn.
      assert (Hold : forall n', nth_error (h ++ [mkHN 0 [] []]) j = Some n' -> forall c', hchild (hn_children n') q = Some c' -> (c' < length h)%nat).
      { intros n' En' c0 Ec0. destruct (Nat.lt_ge_cases j (length h)) as [Hj|Hj].
        - rewrite nth_error_app1 in En' by assumption. eauto.
        - rewrite nth_error_app2 in En' by assumption. destruct (j - length h)%nat as [|[|?]]; cbn in En'; try discriminate.
          assert (n' = mkHN 0 [] []) by congruence. subst n'. discriminate. }
      destruct (Nat.eqb cur j).
      * destruct (nth_error (h ++ [mkHN 0 [] []]) j) as [n'|] eqn:En; [|discriminate]. cbn in Hn.
        assert (n = f n') by congruence. subst n. unfold f in Hq. cbn in Hq. apply hchild_hset in Hq. destruct Hq as [->|Hq]; [lia|].
        specialize (Hold n' eq_refl c Hq). lia.
      * specialize (Hold n Hn c Hq). lia.
    + intros k j E. apply with_node_holds; [intros n; cbn; auto|]. destruct (Hsum k j E) as (n & En & Hin).
      exists n. split; [|exact Hin]. rewrite nth_error_app1; [exact En|]. apply nth_error_Some. congruence.
  - destruct Hcok as [Hcur Hk]. set (f := fun n => mkHN depth (hn_topics n) (hn_children n)) in *.
    assert (h' = with_node h cur f) by congruence. assert (s' = s) by congruence. assert (c' = CDone k true) by congruence.
    clear Hc. subst h' s' c'. constructor; cbn [cs_heap cs_summary cs_callers].
    + now rewrite with_node_length.
    + apply Hfin; [now rewrite with_node_length|auto|exact Hk].
    + intros j n q c Hn Hq. rewrite with_node_length. rewrite with_node_nth in Hn. destruct (Nat.eqb cur j); [|eauto].
      destruct (nth_error h j) as [n'|] eqn:En; [|discriminate]. cbn in Hn. assert (n = f n') by congruence. subst n. cbn in Hq. eauto.
    + intros k' j E. apply with_node_holds; [intros n; cbn; auto|]. now apply Hsum.
  - discriminate.
Qed.

Lemma cinv_init jobs : cinv (cinit jobs).
Proof.
  constructor; cbn.
  - lia.
  - rewrite Forall_map. apply Forall_forall. intros [[t ps] d] _. exact I.
  - intros [|[|i]] n p c E; cbn in E; try discriminate. assert (n = mkHN 0 [] []) by congruence. subst. discriminate.
  - discriminate.
Qed.
Lemma cinv_steps jobs x : csteps (cinit jobs) x -> cinv x.
Proof.
  intros H. remember (cinit jobs) as s0 eqn:E0. induction H as [|x y z H IH Hs]; subst; [apply cinv_init|]. eapply cinv_step; eauto.
Qed.

Lemma top_find_some l k : In k (map fst l) -> top_find l k <> None.
Proof.
  unfold top_find. induction l as [|v l IH]; cbn [map find]; [intros []|]. destruct (N.eqb_spec (fst v) k); [discriminate|].
  intros [?|?]; [contradiction|auto].
Qed.

(** A topic whose addition returned has an offset, whatever the others did. *)
Lemma conc_offset jobs x k b : csteps (cinit jobs) x -> In (CDone k b) (cs_callers x) -> hgetOffset x k <> None.
Proof.
  intros Hx Hin. pose proof (cinv_steps jobs x Hx) as [_ Hcs _ Hsum]. rewrite Forall_forall in Hcs. specialize (Hcs _ Hin). cbn in Hcs.
  unfold hgetOffset. destruct (hsum (cs_summary x) k) as [i|] eqn:E; [|congruence]. destruct (Hsum k i E) as (n & -> & Hk).
  now apply top_find_some.
Qed.

(** Two callers, "a.b" and "a.x", both find the contract node missing. *)
Definition job (txt : bytes) : ttopic * list part * N :=
  ((get_hash master (filed master txt), 0%Z), t_parts (filed master txt), t_depth (filed master txt)).
Definition jobs2 := [job (text (static [tA; tB])); job (text (static [tA; tX]))].
Fixpoint sched (l : list nat) (x : cstate) : option cstate :=
  match l with
  | [] => Some x
  | i :: r => match nth_error (cs_callers x) i with
              | None => None
              | Some c => match caller_step (cs_heap x) (cs_summary x) c with
                          | None => None
                          | Some (h', s', c') => sched r (mkCS h' s' (update (cs_callers x) i c'))
                          end
              end
  end.
Lemma csteps_left x y z : cstep x y -> csteps y z -> csteps x z.
Proof. intros Hxy Hyz. induction Hyz as [y|y z w _ IH Hs]; [econstructor; [constructor|exact Hxy]|]. econstructor; [now apply IH|exact Hs]. Qed.
Lemma sched_steps l : forall x y, sched l x = Some y -> csteps x y.
Proof.
  induction l as [|i l IH]; intros x y; cbn [sched]; [intros E; assert (x = y) by congruence; subst; constructor|].
  destruct (nth_error (cs_callers x) i) as [c|] eqn:Ei; [|discriminate].
  destruct (caller_step (cs_heap x) (cs_summary x) c) as [[[h' s'] c']|] eqn:Ec; [|discriminate].
  intros H. apply IH in H. eapply csteps_left; [|exact H]. destruct x as [h s cs]. cbn in *. econstructor; eauto.
Qed.
Definition plan : list nat := [0; 0; 1; 1; 0; 1;  0; 0; 0; 0; 0; 0;  1; 1; 1; 1; 1; 1]%nat.
Lemma conc_lost : exists x, csteps (cinit jobs2) x /\
  cs_callers x = map (fun j => CDone (fst (fst (fst j))) true) jobs2 /\
  ilookup true 2 (to_node (length (cs_heap x)) (cs_heap x) 0) (mkPart 0 0) (t_parts (filed master (text (static [tA; tB])))) [] = [] /\
  hgetOffset x (get_hash master (filed master (text (static [tA; tB])))) = Some 0%Z.
Proof.
  destruct (sched plan (cinit jobs2)) as [x|] eqn:E; [|vm_compute in E; discriminate].
  exists x. split; [exact (sched_steps _ _ _ E)|]. vm_compute in E.
  match type of E with Some ?a = _ => assert (Ex : x = a) by congruence end. clear E. subst x.
  split; [vm_compute; reflexivity|]. split; vm_compute; reflexivity.
Qed.
