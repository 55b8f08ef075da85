(** Proofs about subscriptions in the database: who is reached at most. *)
From Verif Require Import M_Bytes P_Bytes M_Bloom M_MsgId M_MemDB M_Window M_DB M_SubStore S_Trie S_MemDB S_DB S_Session S_Only S_SubStore
  P_Codec P_Session5 P_Only.
From Coq Require Import Lia ZifyBool ZifyNat ZifyN Permutation.
Open Scope N_scope.

Lemma lxor_32 a b : a < 2 ^ 32 -> b < 2 ^ 32 -> N.lxor a b < 2 ^ 32.
Proof.
  intros Ha Hb. destruct (N.eq_dec (N.lxor a b) 0) as [->|Hne]; [reflexivity|].
  apply N.log2_lt_pow2; [lia|]. eapply N.le_lt_trans; [apply N.log2_lxor|].
  assert (H : forall x, x < 2 ^ 32 -> N.log2 x < 32).
  { intros x Hx. destruct (N.eq_dec x 0) as [->|Hn]; [reflexivity|]. apply N.log2_lt_pow2; lia. }
  pose proof (H _ Ha). pose proof (H _ Hb). lia.
Qed.
Lemma sub_contract_32 k : k < 2 ^ 32 -> sub_contract k < 2 ^ 32.
Proof. intros H. apply lxor_32; [exact H|reflexivity]. Qed.
Lemma lxor_back k : N.lxor (N.lxor k connStoreId) connStoreId = k.
Proof. rewrite N.lxor_assoc, N.lxor_nilpotent. apply N.lxor_0_r. Qed.
Lemma sub_contract_inj a b : sub_contract a = sub_contract b -> a = b.
Proof. unfold sub_contract. intros H. rewrite <- (lxor_back a), <- (lxor_back b). now rewrite H. Qed.
Lemma sub_contract_owner k : k <> connStoreId -> owner (sub_contract k) = sub_contract k.
Proof.
  intros H. unfold owner. destruct (N.eqb_spec (sub_contract k) 0) as [E|]; [|reflexivity].
  exfalso. apply H. apply sub_contract_inj. rewrite E. unfold sub_contract. now rewrite N.lxor_nilpotent.
Qed.
Lemma owner_32 k : k < 2 ^ 32 -> owner k < 2 ^ 32.
Proof. intros H. unfold owner. destruct (k =? 0); [reflexivity|exact H]. Qed.

Lemma decode_payload mode conn delay : mode < 2 ^ 8 -> conn < 2 ^ 32 -> delay < 2 ^ 32 ->
  sub_decode (sub_payload mode conn delay) = Some (mode, conn, delay).
Proof.
  intros Hm Hc Hd. unfold sub_payload, sub_decode. cbn [length]. rewrite app_length, !le_length. cbn [Nat.add Nat.ltb Nat.leb nth].
  assert (E1 : slice (u8 mode :: le 4 conn ++ le 4 delay) 1 4 = le 4 conn) by reflexivity.
  assert (E2 : slice (u8 mode :: le 4 conn ++ le 4 delay) 5 4 = le 4 delay) by reflexivity.
  rewrite E1, E2, !unle_le_small by assumption. unfold u8. rewrite N.mod_small by exact Hm. reflexivity.
Qed.
Lemma le_is_byte k v : Forall is_byte (le k v).
Proof. revert v. induction k as [|k IH]; intros v; cbn [le]; constructor; [unfold is_byte; now apply N.mod_lt|apply IH]. Qed.
Lemma payload_is_byte mode conn delay : Forall is_byte (sub_payload mode conn delay).
Proof.
  unfold sub_payload. constructor; [unfold is_byte, u8; now apply N.mod_lt|]. apply Forall_app. split; apply le_is_byte.
Qed.

(** A history of the store as one of the database. *)
Inductive low : store_op -> store_out -> list dop -> list dout -> Prop :=
| low_sub now k topic mode conn delay id r : low (TSub now k topic mode conn delay) (TSubbed id r)
    [DoNewID now; DoPut now (put_with_id (sub_contract k) id topic (sub_payload mode conn delay))] [OId id; r]
| low_sub_down now k topic mode conn delay x : (forall id, x <> OId id) -> low (TSub now k topic mode conn delay) (TDone x) [DoNewID now] [x]
| low_unsub k id topic r : low (TUnsub k id topic) (TDone r) [DoDelete (delete_with_id (sub_contract k) id topic)] [r]
| low_find now g k topic r : low (TFind now g k topic) (TFound (sub_found r)) [DoGet now g (query_of (sub_contract k) topic)] [r]
| low_msg now k topic payload expires r : low (TMsg now k topic payload expires) (TDone r) [DoPut now (put_message k topic payload expires)] [r]
| low_relay now g k topic r : low (TRelay now g k topic) (TDone r) [DoGet now g (query_of k topic)] [r]
| low_tick now r : low (TTick now) (TDone r) [DoTick now None] [r]
| low_commit r : low TCommit (TDone r) [DoCommit] [r]
| low_sync now ord r : low (TSync now ord) (TDone r) [DoSync now ord] [r]
| low_restart gens now ord x r : low (TRestart gens now ord) (TDone r) [DoClose; DoOpen gens now ord false false] [x; r].
Inductive lowered : list store_op -> list store_out -> list dop -> list dout -> Prop :=
| lw_nil : lowered [] [] [] []
| lw_cons o x d y ops outs dops douts : low o x d y -> lowered ops outs dops douts -> lowered (o :: ops) (x :: outs) (d ++ dops) (y ++ douts).

Lemma drun_app c : forall a w b, drun c w (a ++ b) = (fst (drun c (fst (drun c w a)) b), snd (drun c w a) ++ snd (drun c (fst (drun c w a)) b)).
Proof.
  induction a as [|o a IH]; intros w b; cbn [app drun fst snd].
  - now destruct (drun c w b).
  - destruct (dstep c w o) as [w' x]. rewrite IH. destruct (drun c w' a) as [w2 xs]. reflexivity.
Qed.

Lemma step_low c w o w' x : store_step c w o = (w', x) -> exists d y, low o x d y /\ drun c w d = (w', y).
Proof.
  intros E. destruct o; cbn [store_step] in E.
  - destruct (dstep c w (DoNewID now)) as [w1 x1] eqn:E1.
    destruct x1 as [| |id| | | |];
      try (injection E as <- <-; eexists; eexists; split; [apply low_sub_down; discriminate|cbn [drun]; rewrite E1; reflexivity]).
    destruct (dstep c w1 _) as [w2 r] eqn:E2. injection E as <- <-. eexists. eexists. split; [apply low_sub|].
    cbn [drun]. rewrite E1, E2. reflexivity.
  - destruct (dstep c w _) as [w1 r] eqn:E1. injection E as <- <-. eexists. eexists. split; [constructor|cbn [drun]; rewrite E1; reflexivity].
  - destruct (dstep c w _) as [w1 r] eqn:E1. injection E as <- <-. eexists. eexists. split; [constructor|cbn [drun]; rewrite E1; reflexivity].
  - destruct (dstep c w _) as [w1 r] eqn:E1. injection E as <- <-. eexists. eexists. split; [constructor|cbn [drun]; rewrite E1; reflexivity].
  - destruct (dstep c w _) as [w1 r] eqn:E1. injection E as <- <-. eexists. eexists. split; [constructor|cbn [drun]; rewrite E1; reflexivity].
  - destruct (dstep c w _) as [w1 r] eqn:E1. injection E as <- <-. eexists. eexists. split; [constructor|cbn [drun]; rewrite E1; reflexivity].
  - destruct (dstep c w _) as [w1 r] eqn:E1. injection E as <- <-. eexists. eexists. split; [constructor|cbn [drun]; rewrite E1; reflexivity].
  - destruct (dstep c w _) as [w1 r] eqn:E1. injection E as <- <-. eexists. eexists. split; [constructor|cbn [drun]; rewrite E1; reflexivity].
  - destruct (dstep c w _) as [w1 x1] eqn:E1. destruct (dstep c w1 _) as [w2 r] eqn:E2. injection E as <- <-. eexists. eexists. split; [constructor|cbn [drun]; rewrite E1, E2; reflexivity].
Qed.
Lemma run_low c : forall ops w w' outs, store_run c w ops = (w', outs) -> exists dops douts, lowered ops outs dops douts /\ drun c w dops = (w', douts).
Proof.
  induction ops as [|o ops IH]; intros w w' outs E; cbn [store_run] in E.
  - injection E as <- <-. exists [], []. split; [constructor|reflexivity].
  - destruct (store_step c w o) as [w1 x] eqn:E1. destruct (store_run c w1 ops) as [w2 xs] eqn:E2. injection E as <- <-.
    destruct (step_low _ _ _ _ _ E1) as (d & y & Hl & Hd). destruct (IH _ _ _ E2) as (dops & douts & Hl2 & Hd2).
    exists (d ++ dops), (y ++ douts). split; [now constructor|]. rewrite drun_app, Hd. cbn [fst snd]. rewrite Hd2. reflexivity.
Qed.
Lemma lowered_length ops outs dops douts : lowered ops outs dops douts -> (length dops <= 2 * length ops)%nat.
Proof.
  induction 1 as [|o x d y ops outs dops douts Hl Hr IH]; [cbn; lia|]. rewrite app_length. cbn [length].
  assert (length d <= 2)%nat by (destruct Hl; cbn; lia). lia.
Qed.

Lemma calm_quiet ops outs dops douts : lowered ops outs dops douts -> forall t ids, calm t ops -> quiet t ids dops douts.
Proof.
  induction 1 as [|o x d y ops outs dops douts Hl Hr IH]; intros t ids Hc; [exact I|].
  destruct Hl; cbn [calm] in Hc; cbn [app quiet].
  - destruct Hc as (Ht & Hk & Hm & Hn & Hd & Hc). split; [exact Ht|].
    split; [unfold real_time in *; lia|]. split; [|apply IH; exact Hc].
    constructor; cbn [put_with_id u_contract u_expires u_payload u_hash u_tsize u_id].
    + unfold put_owner, put_with_id. cbn [u_hash u_contract]. apply owner_32, sub_contract_32, Hk.
    + reflexivity.
    + apply payload_is_byte.
    + discriminate.
    + reflexivity.
    + intros i [= <-]. apply in_or_app. right. now left.
  - destruct Hc as (Ht & Hk & Hm & Hn & Hd & Hc). split; [exact Ht|]. apply IH. exact Hc.
  - destruct Hc as [Hi Hc]. split; [|apply IH; exact Hc]. cbn [delete_with_id u_id]. intros i [= <-]. exact Hi.
  - destruct Hc as (Ht & Hk & Hg & Hc). split; [exact Ht|]. cbn [query_of q_contract q_win]. split; [apply sub_contract_32, Hk|].
    split; [exact Hg|]. split; [constructor|]. apply IH. exact Hc.
  - destruct Hc as (Ht & Hk & He & Hp & Hc). split; [exact Ht|]. split; [|apply IH; exact Hc].
    constructor; cbn [put_message u_contract u_expires u_payload u_hash u_tsize u_id].
    + unfold put_owner, put_message. cbn [u_hash u_contract]. apply owner_32, Hk.
    + exact He.
    + exact Hp.
    + discriminate.
    + reflexivity.
    + discriminate.
  - destruct Hc as (Ht & Hk & Hg & Hc). split; [exact Ht|]. cbn [query_of q_contract q_win]. split; [exact Hk|].
    split; [exact Hg|]. split; [constructor|]. apply IH. exact Hc.
  - destruct Hc as (Ht & Hc). split; [exact Ht|]. split; [reflexivity|]. apply IH. exact Hc.
  - apply IH. exact Hc.
  - contradiction.
  - contradiction.
Qed.

(** The messages filed under the contracts of subscriptions are subscriptions. *)
Definition covered (A : N -> Prop) (ms : list omsg) (l : list subscriber) : Prop :=
  forall m k, In m ms -> A k -> o_owner m = sub_contract k ->
    exists b, In b l /\ b_contract b = k /\ o_id m = Some (b_id b) /\ o_payload m = sub_payload (b_mode b) (b_conn b) (b_delay b) /\
      b_mode b < 2 ^ 8 /\ b_conn b < 2 ^ 32 /\ b_delay b < 2 ^ 32.

Lemma loop_served (P : N * N * N -> Prop) : forall items acc, Forall (fun p => forall x, sub_decode p = Some x -> P x) items -> (forall x, In x acc -> P x) ->
  forall x, In x (served (sub_loop items acc)) -> P x.
Proof.
  induction items as [|p r IH]; intros acc Hi Ha x Hx; cbn [sub_loop] in Hx; [exact (Ha _ Hx)|].
  inversion Hi as [|? ? Hp Hr]; subst. destruct (sub_decode p) as [y|] eqn:E; [|exact (Ha _ Hx)].
  refine (IH _ Hr _ x Hx). intros z Hz. apply in_app_or in Hz. destruct Hz as [Hz|[<-|[]]]; [auto|exact (Hp _ eq_refl)].
Qed.

Lemma only_reaches (A B : N -> Prop) : (forall a b, A a -> B b -> sub_contract a <> owner b) -> (forall a, A a -> a <> connStoreId) ->
  forall ops outs dops douts, lowered ops outs dops douts -> forall t ms l, calm t ops ->
  (forall k, In k (flat_map sub_side ops) -> A k) -> (forall k, In k (flat_map msg_side ops) -> B k) ->
  covered A ms l -> only ms dops douts -> reaches_only l ops outs.
Proof.
  intros Hab Hk0. induction 1 as [|o x d y ops outs dops douts Hl Hr IH]; intros t ms l Hc HA HB Hcov Ho; [exact I|].
  cbn [flat_map] in HA, HB.
  assert (HA' : forall k, In k (flat_map sub_side ops) -> A k) by (intros k Hk; apply HA; apply in_or_app; now right).
  assert (HB' : forall k, In k (flat_map msg_side ops) -> B k) by (intros k Hk; apply HB; apply in_or_app; now right).
  destruct Hl; cbn [calm] in Hc; cbn [app only] in Ho; cbn [reaches_only].
  - destruct Hc as (Ht & Hk & Hm & Hn & Hd & Hc).
    destruct r as [[| |]| | | | | |]; try exact (IH _ _ _ Hc HA' HB' Hcov Ho).
    refine (IH _ _ _ Hc HA' HB' _ Ho).
    assert (Ak : A k) by (apply HA; now left).
    intros m k' Hin Ak' Eo. apply in_app_or in Hin. destruct Hin as [Hin|[<-|[]]].
    + destruct (Hcov _ _ Hin Ak' Eo) as (b & Hb & R). exists b. split; [apply in_or_app; now left|exact R].
    + cbn [o_owner o_id o_payload put_with_id u_id u_payload] in *. unfold put_owner, put_with_id in Eo. cbn [u_hash u_contract] in Eo.
      rewrite sub_contract_owner in Eo by (now apply Hk0). apply sub_contract_inj in Eo. subst k'.
      eexists. split; [apply in_or_app; right; now left|]. cbn [b_contract b_id b_mode b_conn b_delay]. repeat split; assumption.
  - destruct Hc as (Ht & Hk & Hm & Hn & Hd & Hc).
    destruct x as [[| |]| |id| | | |]; try exact (IH _ _ _ Hc HA' HB' Hcov Ho).
  - destruct Hc as (Hi & Hc). destruct r as [[| |]| | | | | |]; try exact (IH _ _ _ Hc HA' HB' Hcov Ho).
    refine (IH _ _ _ Hc HA' HB' _ Ho).
    intros m k' Hin Ak' Eo. apply filter_In in Hin. destruct Hin as [Hin Hne].
    destruct (Hcov _ _ Hin Ak' Eo) as (b & Hb & Eb & Ei & R). exists b. split; [|auto].
    apply filter_In. split; [exact Hb|]. rewrite Ei in Hne. exact Hne.
  - destruct Hc as (Ht & Hk & Hg & Hc). destruct r as [r|r| | | | |];
      try (split; [intros z []|exact (IH _ _ _ Hc HA' HB' Hcov Ho)]).
    destruct Ho as [Hi Ho]. split; [|exact (IH _ _ _ Hc HA' HB' Hcov Ho)].
    assert (Ak : A k) by (apply HA; now left).
    destruct r as [items|items e| |]; cbn [sub_found served]; try (intros z []).
    apply loop_served; [|intros z []].
    refine (Forall_impl _ _ Hi). intros p (m & Hm & Ep & Eo & _) z Ez. cbn [query_of q_contract] in Eo.
    rewrite sub_contract_owner in Eo by (now apply Hk0).
    destruct (Hcov _ _ Hm Ak Eo) as (b & Hb & Eb & _ & Epay & B1 & B2 & B3). exists b. split; [exact Hb|]. split; [exact Eb|].
    rewrite <- Ep, Epay, decode_payload in Ez by assumption. injection Ez as <-. reflexivity.
  - destruct Hc as (Ht & Hk & He & Hp & Hc). destruct r as [[| |]| | | | | |]; try exact (IH _ _ _ Hc HA' HB' Hcov Ho).
    refine (IH _ _ _ Hc HA' HB' _ Ho).
    assert (Bk : B k) by (apply HB; now left).
    intros m k' Hin Ak' Eo. apply in_app_or in Hin. destruct Hin as [Hin|[<-|[]]]; [exact (Hcov _ _ Hin Ak' Eo)|].
    exfalso. cbn [o_owner] in Eo. unfold put_owner, put_message in Eo. cbn [u_hash u_contract] in Eo. exact (Hab _ _ Ak' Bk (eq_sym Eo)).
  - destruct Hc as (Ht & Hk & Hg & Hc). destruct r as [r|r| | | | |]; try exact (IH _ _ _ Hc HA' HB' Hcov Ho).
    exact (IH _ _ _ Hc HA' HB' Hcov (proj2 Ho)).
  - destruct Hc as [_ Hc]. exact (IH _ _ _ Hc HA' HB' Hcov Ho).
  - exact (IH _ _ _ Hc HA' HB' Hcov Ho).
  - contradiction.
  - contradiction.
Qed.

Lemma start_up c gens t ord : setting_ok c gens -> (0 <= t)%Z ->
  snd (dstep c (Down no_files) (DoOpen gens t ord false false)) = OOpened true /\ exists s, store_start c gens t ord = Up s.
Proof.
  intros Hs Ht. destruct (open_step c gens t ord false false Hs Ht) as (s & E & _). unfold store_start. cbn [dstep]. rewrite E. cbn [fst snd]. split; [reflexivity|eauto].
Qed.

Lemma store_only c gens t ord ops w outs : setting_ok c gens -> (0 <= t)%Z -> N.of_nat (length ops) < 2 ^ 62 ->
  store_run c (store_start c gens t ord) ops = (w, outs) -> calm t ops -> apart ops -> reaches_only [] ops outs.
Proof.
  intros Hs Ht Hn E Hc [H1 H2]. destruct (run_low _ _ _ _ _ E) as (dops & douts & Hl & Hd).
  pose proof (lowered_length _ _ _ _ Hl) as Hlen.
  assert (Ho : only [] dops douts).
  { apply (run_from_open c gens t ord false false dops douts Hs Ht).
    - change (2 ^ 64) with (4 * 2 ^ 62). lia.
    - cbn [drun]. destruct (start_up c gens t ord Hs Ht) as [Eo _]. unfold store_start in Hd.
      destruct (dstep c (Down no_files) _) as [w0 x0]. cbn [fst snd] in *. subst x0. rewrite Hd. reflexivity.
    - exact (calm_quiet _ _ _ _ Hl t [] Hc). }
  refine (only_reaches (fun k => In k (flat_map sub_side ops)) (fun k => In k (flat_map msg_side ops)) _ _ _ _ _ _ Hl t [] [] Hc _ _ _ Ho).
  - exact H1.
  - intros a Ha ->. exact (H2 Ha).
  - auto.
  - auto.
  - intros m k [].
Qed.

(** ** Unsubscribing *)
Lemma reaches_app : forall ops1 l ops2 outs1 outs2, length outs1 = length ops1 -> reaches_only l (ops1 ++ ops2) (outs1 ++ outs2) ->
  exists l', reaches_only l' ops2 outs2 /\
    forall b, In b l' -> In b l \/ exists now topic r, In (TSub now (b_contract b) topic (b_mode b) (b_conn b) (b_delay b), TSubbed (b_id b) r) (combine ops1 outs1).
Proof.
  induction ops1 as [|o ops1 IH]; intros l ops2 outs1 outs2 Hn Hr.
  - destruct outs1; [|discriminate]. exists l. auto.
  - destruct outs1 as [|x outs1]; [discriminate|]. cbn [app reaches_only] in Hr. cbn [length] in Hn. injection Hn as Hn.
    assert (G : exists l1, reaches_only l1 (ops1 ++ ops2) (outs1 ++ outs2) /\ forall b, In b l1 -> In b l \/
      exists now topic r, (o, x) = (TSub now (b_contract b) topic (b_mode b) (b_conn b) (b_delay b), TSubbed (b_id b) r)).
    { destruct o; destruct x; try (exists l; split; [exact Hr|now left]).
      - destruct r as [[| |]| | | | | |]; try (exists l; split; [exact Hr|now left]).
        eexists. split; [exact Hr|]. intros b Hb. apply in_app_or in Hb. destruct Hb as [Hb|[<-|[]]]; [now left|].
        right. cbn [b_contract b_mode b_conn b_delay b_id]. eauto.
      - destruct r as [[| |]| | | | | |]; try (exists l; split; [exact Hr|now left]).
        eexists. split; [exact Hr|]. intros b Hb. apply filter_In in Hb. now left.
      - exists l. split; [exact (proj2 Hr)|now left]. }
    destruct G as (l1 & Hr1 & Hl1). destruct (IH _ _ _ _ Hn Hr1) as (l' & Hr' & Hl'). exists l'. split; [exact Hr'|].
    intros b Hb. cbn [combine]. destruct (Hl' _ Hb) as [Hin|(now & topic & r & Hin)].
    + destruct (Hl1 _ Hin) as [Hin'|(now & topic & r & ->)]; [now left|right; do 3 eexists; now left].
    + right. do 3 eexists. right. exact Hin.
Qed.
Lemma reaches_never conn : forall ops l outs, reaches_only l ops outs -> (forall b, In b l -> b_conn b <> conn) ->
  (forall now k topic mode delay, ~ In (TSub now k topic mode conn delay) ops) -> ~ conn_served conn ops outs.
Proof.
  induction ops as [|o ops IH]; intros l outs Hr Hl Hn (now & g & k & topic & f & Hin & Hf).
  - destruct outs; destruct Hin.
  - destruct outs as [|x outs]; [destruct Hin|]. cbn [combine] in Hin.
    assert (Hn' : forall now k topic mode delay, ~ In (TSub now k topic mode conn delay) ops) by (intros now' k' tp m d H; exact (Hn now' k' tp m d (or_intror H))).
    destruct Hin as [E|Hin].
    + injection E as -> ->. cbn [reaches_only] in Hr. destruct Hr as [Hr _]. apply in_map_iff in Hf. destruct Hf as (y & <- & Hy).
      destruct (Hr _ Hy) as (b & Hb & _ & <-). exact (Hl _ Hb eq_refl).
    + assert (G : conn_served conn ops outs) by (exists now, g, k, topic, f; auto).
      cbn [reaches_only] in Hr. destruct o; destruct x; try exact (IH _ _ Hr Hl Hn' G).
      * destruct r as [[| |]| | | | | |]; try exact (IH _ _ Hr Hl Hn' G). refine (IH _ _ Hr _ Hn' G).
        intros b Hb. apply in_app_or in Hb. destruct Hb as [Hb|[<-|[]]]; [auto|]. cbn [b_conn]. intros ->. eapply Hn. now left.
      * destruct r as [[| |]| | | | | |]; try exact (IH _ _ Hr Hl Hn' G). refine (IH _ _ Hr _ Hn' G).
        intros b Hb. apply filter_In in Hb. destruct Hb as [Hb _]. auto.
      * exact (IH _ _ (proj2 Hr) Hl Hn' G).
Qed.
Lemma run_length c : forall ops w w' outs, store_run c w ops = (w', outs) -> length outs = length ops.
Proof.
  induction ops as [|o ops IH]; intros w w' outs E; cbn [store_run] in E; [injection E as <- <-; reflexivity|].
  destruct (store_step c w o) as [w1 x]. destruct (store_run c w1 ops) as [w2 xs] eqn:E2. injection E as <- <-. cbn [length]. now rewrite (IH _ _ _ E2).
Qed.

Lemma beq_same a : beq a a = true.
Proof. unfold beq. destruct (list_eq_dec N.eq_dec a a); congruence. Qed.

Lemma unsubscribed c gens t ord ops1 k id topic ops2 w outs1 outs2 conn : setting_ok c gens -> (0 <= t)%Z ->
  N.of_nat (length (ops1 ++ TUnsub k id topic :: ops2)) < 2 ^ 62 ->
  store_run c (store_start c gens t ord) (ops1 ++ TUnsub k id topic :: ops2) = (w, outs1 ++ TDone (ORes DOk) :: outs2) -> length outs1 = length ops1 ->
  calm t (ops1 ++ TUnsub k id topic :: ops2) -> apart (ops1 ++ TUnsub k id topic :: ops2) ->
  (forall now k' topic' mode delay id' r, In (TSub now k' topic' mode conn delay, TSubbed id' r) (combine ops1 outs1) -> id' = id) ->
  (forall now k' topic' mode delay, ~ In (TSub now k' topic' mode conn delay) ops2) ->
  ~ conn_served conn ops2 outs2.
Proof.
  intros Hs Ht Hn E Hl Hc Ha H1 H2.
  pose proof (store_only _ _ _ _ _ _ _ Hs Ht Hn E Hc Ha) as Hr.
  destruct (reaches_app _ _ _ _ _ Hl Hr) as (l' & Hr' & Hl'). cbn [reaches_only] in Hr'.
  refine (reaches_never conn _ _ _ Hr' _ H2).
  intros b Hb Eb. apply filter_In in Hb. destruct Hb as [Hb Hne]. destruct (Hl' _ Hb) as [[]|(now & tp & r & Hin)].
  rewrite Eb in Hin. rewrite (H1 _ _ _ _ _ _ _ Hin), beq_same in Hne. discriminate.
Qed.
