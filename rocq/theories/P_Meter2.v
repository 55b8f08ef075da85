(** Proofs about the counter of subscriptions. *)
From Coq Require Import Lia ZifyBool ZifyNat ZifyN Permutation.
From Verif Require Import M_Bytes P_Bytes M_Keys M_MsgIds M_Conn M_Meter S_Conn S_SubLife S_Meter P_Conn P_SubLife P_Meter.
From Verif Require M_Subs.
Open Scope N_scope.

Notation eid := (fun e : bytes * M_Subs.stat => M_Subs.st_id (snd e)).
(** The entries of one connection: each has its stored subscription. *)
Definition entries (kc c : N) (l : M_Subs.stats) (subs : list subn) : Prop :=
  NoDup (map fst l) /\ NoDup (map eid l) /\ (forall e, In e l -> (1 <= M_Subs.st_counter (snd e))%Z) /\
  forall e, In e l -> exists x, In x subs /\ s_id x = eid e /\ s_contract x = kc /\ s_conn x = c.
Record tied (kof : N -> N) (s : server) : Prop := {
  t_nodup : NoDup (map s_id (v_subs s));
  t_contract : forall c k id, aget (v_conns s) c = Some k -> k_client k = Some id -> id_contract id = kof c;
  t_conn : forall c k, aget (v_conns s) c = Some k -> k_open k = true -> entries (kof c) c (k_subs k) (v_subs s) }.

Lemma tied_keeps kof s s' : keeps s s' -> tied kof s -> tied kof s'.
Proof.
  intros K [A B C]. pose proof K as (K1 & _). constructor.
  - now rewrite K1.
  - intros c k id Hk Hi. destruct (keeps_get _ _ _ _ K Hk) as (k0 & E0 & F). apply face_subs in F. destruct F as (F1 & F2 & F3).
    apply (B c k0 id E0). congruence.
  - intros c k Hk Ho. destruct (keeps_get _ _ _ _ K Hk) as (k0 & E0 & F). apply face_subs in F. destruct F as (F1 & F2 & F3).
    rewrite K1, F1. apply C; congruence.
Qed.
Lemma stored_keeps s s' : keeps s s' -> stored_subs s' = stored_subs s.
Proof. intros (A & _). unfold stored_subs. now rewrite A. Qed.

Lemma nodup_filter {A B} (f : A -> B) p l : NoDup (map f l) -> NoDup (map f (filter p l)).
Proof.
  induction l as [|x l IH]; cbn [map filter]; [auto|]. intros H. inversion H as [|a b H1 H2]; subst. destruct (p x); cbn [map]; auto.
  constructor; [|auto]. intros Hi. apply H1. apply in_map_iff in Hi. destruct Hi as (y & E & Hy). apply filter_In in Hy. apply in_map_iff. exists y. tauto.
Qed.
Lemma nodup_same {A B} (f : A -> B) l x y : NoDup (map f l) -> In x l -> In y l -> f x = f y -> x = y.
Proof.
  induction l as [|z l IH]; cbn [map In]; [contradiction|]. intros H Hx Hy E. inversion H as [|a b H1 H2]; subst.
  destruct Hx as [->|Hx], Hy as [->|Hy]; auto; exfalso; apply H1; [rewrite E|rewrite <- E]; now apply in_map.
Qed.
(** What a filter that drops given identifiers drops. *)
Lemma dropped (subs : list subn) (ids : list bytes) (p : subn -> bool) : NoDup (map s_id subs) -> NoDup ids ->
  (forall x, In x subs -> p x = true -> In (s_id x) ids) -> (forall i, In i ids -> exists x, In x subs /\ s_id x = i /\ p x = true) ->
  (length (filter (fun x => negb (p x)) subs) + length ids = length subs)%nat.
Proof.
  intros H1 H2 H3 H4.
  assert (length (filter (fun x => negb (p x)) subs) + length (filter p subs) = length subs)%nat.
  { clear. induction subs as [|x l IH]; cbn [filter length]; [reflexivity|]. destruct (p x); cbn [negb length]; lia. }
  assert (length (map s_id (filter p subs)) = length ids)%nat; [|rewrite map_length in *; lia].
  apply Permutation_length, NoDup_Permutation; [now apply nodup_filter|exact H2|]. intros i. rewrite in_map_iff. split.
  - intros (x & <- & Hx). apply filter_In in Hx. destruct Hx. auto.
  - intros Hi. destruct (H4 i Hi) as (x & A & B & C). exists x. split; [exact B|]. apply filter_In. auto.
Qed.

Lemma st_get_none l ky : M_Subs.st_get l ky = None -> ~ In ky (map fst l).
Proof.
  induction l as [|[q v] r IH]; cbn [M_Subs.st_get map fst]; [auto|]. destruct (M_Subs.beq q ky) eqn:F; [discriminate|].
  intros H [E|Hi]; [|now apply IH]. subst. now rewrite beq_same in F.
Qed.
Lemma st_del_nodup {B} (f : bytes * M_Subs.stat -> B) l ky : NoDup (map f l) -> NoDup (map f (M_Subs.st_del l ky)).
Proof. apply nodup_filter. Qed.
Lemma st_del_key l ky : ~ In ky (map fst (M_Subs.st_del l ky)).
Proof. intros H. apply in_map_iff in H. destruct H as (e & E & He). apply st_del_in in He. now destruct He. Qed.
Lemma st_del_none l ky : ~ In ky (map fst l) -> M_Subs.st_del l ky = l.
Proof.
  induction l as [|[q v] r IH]; [reflexivity|]. unfold M_Subs.st_del in *. cbn [map fst In filter]. intros H.
  destruct (M_Subs.beq q ky) eqn:F; [apply beq_eq in F; tauto|]. cbn [negb]. f_equal. apply IH. tauto.
Qed.
(** An entry of another key has another identifier. *)
Lemma other_id l ky st : NoDup (map eid l) -> M_Subs.st_get l ky = Some st -> ~ In (M_Subs.st_id st) (map eid (M_Subs.st_del l ky)).
Proof.
  intros H G Hi. apply in_map_iff in Hi. destruct Hi as (e & E & He). apply st_del_in in He. destruct He as [He Hk].
  assert (e = (ky, st)) by (apply (nodup_same eid l); auto; now apply st_get_in). subst e. now apply Hk.
Qed.

Lemma sub_one_tied E kof s c id x s1 : (forall t, e_store E t [] = true) -> tied kof s -> swf s -> v_nsub s + 1 < 2 ^ 64 -> is_open s c = true ->
  sub_one E s c id x = Some s1 -> tied kof s1 /\ stored_subs s1 = (stored_subs s + sub_gain E s c x)%Z.
Proof.
  intros Hst T W Hn Ho H. destruct x as [[text mode] delay]. unfold sub_one in H. unfold sub_gain.
  assert (Kp : keeps s s1 -> tied kof s1 /\ stored_subs s1 = (stored_subs s + 0)%Z).
  { intros K. split; [exact (tied_keeps _ _ _ K T)|]. rewrite (stored_keeps _ _ K). lia. }
  unfold is_open in Ho. destruct (aget (v_conns s) c) as [k|] eqn:Hk; [|discriminate].
  destruct (check_sub k text) as [|e|t|t] eqn:Hc; try discriminate; [apply Kp, (keeps_say _ _ _ _ H)|].
  destruct (k_client k) as [cl|] eqn:Hcl; [|discriminate].
  match type of H with match ?x with _ => _ end = _ => destruct x as [ky|] eqn:Hky; [|apply Kp, (keeps_say _ _ _ _ H)] end.
  rewrite Hst in *. pose proof (t_contract _ _ T _ _ _ Hk Hcl) as Ekc. destruct (t_conn _ _ T _ _ Hk Ho) as (D1 & D2 & D3 & D4).
  destruct W as [W1 W2].
  assert (Fresh : forall z, In z (v_subs s) -> s_id z <> le 8 (v_nsub s)).
  { intros z Hz E0. destruct (W1 _ Hz) as (n & A & B). assert (n = v_nsub s) by (apply le8_inj; [lia|lia|congruence]). lia. }
  unfold M_Subs.increment in *. destruct (M_Subs.st_get (k_subs k) ky) as [st0|] eqn:G; cbn [M_Subs.st_id M_Subs.st_topic M_Subs.st_counter] in *.
  - (* one more for an entry *)
    pose proof (D3 _ (st_get_in _ _ _ G)) as Hpos. cbn [snd] in Hpos.
    destruct (Z.eqb_spec (M_Subs.st_counter st0 + 1) 1) as [Hf|_]; [lia|]. cbn [andb]. injection H as <-. split; [|unfold stored_subs; cbn [v_subs set_conn]; lia].
    constructor; cbn [v_subs v_conns set_conn].
    + exact (t_nodup _ _ T).
    + intros c' k' id' Hk' Hi'. rewrite aget_aput in Hk'. destruct (N.eqb_spec c' c) as [->|Hne]; [|exact (t_contract _ _ T _ _ _ Hk' Hi')].
      injection Hk' as <-. cbn [set_subs k_client] in Hi'. congruence.
    + intros c' k' Hk' Ho'. rewrite aget_aput in Hk'. destruct (N.eqb_spec c' c) as [->|Hne]; [|exact (t_conn _ _ T _ _ Hk' Ho')].
      injection Hk' as <-. cbn [set_subs k_subs]. unfold M_Subs.st_put. split; [|split; [|split]]; cbn [map fst snd M_Subs.st_id].
      * constructor; [apply st_del_key|now apply (st_del_nodup fst)].
      * constructor; [now apply other_id|now apply (st_del_nodup eid)].
      * intros e [<-|He]; [cbn [snd M_Subs.st_counter]; lia|]. apply st_del_in in He. now apply D3.
      * intros e [<-|He]; cbn [snd M_Subs.st_id]; [exact (D4 _ (st_get_in _ _ _ G))|]. apply st_del_in in He. now apply D4.
  - (* a new entry *)
    cbn [Z.add Z.eqb andb] in *. cbn [Pos.eqb andb] in *. injection H as <-. split; [|unfold stored_subs; cbn [v_subs set_conn length]; lia].
    set (y := mkSub (id_contract cl) (st_topic t) (u8 mode) c delay (le 8 (v_nsub s))).
    constructor; cbn [v_subs v_conns set_conn].
    + cbn [map]. constructor; [|exact (t_nodup _ _ T)]. cbn [s_id]. intros Hi. apply in_map_iff in Hi. destruct Hi as (z & Ez & Hz). exact (Fresh _ Hz Ez).
    + intros c' k' id' Hk' Hi'. rewrite aget_aput in Hk'. destruct (N.eqb_spec c' c) as [->|Hne]; [|exact (t_contract _ _ T _ _ _ Hk' Hi')].
      injection Hk' as <-. cbn [set_subs k_client] in Hi'. congruence.
    + intros c' k' Hk' Ho'. rewrite aget_aput in Hk'. destruct (N.eqb_spec c' c) as [->|Hne].
      * injection Hk' as <-. cbn [set_subs k_subs]. unfold M_Subs.st_put. rewrite st_del_none by now apply st_get_none.
        split; [|split; [|split]]; cbn [map fst snd M_Subs.st_id].
        -- constructor; [now apply st_get_none|exact D1].
        -- constructor; [|exact D2]. intros Hi. apply in_map_iff in Hi. destruct Hi as (e & Ee & He). destruct (D4 _ He) as (z & Hz & Ez & _).
           apply (Fresh _ Hz). exact (eq_trans Ez Ee).
        -- intros e [<-|He]; [cbn [snd M_Subs.st_counter]; lia|]. now apply D3.
        -- intros e [<-|He]; cbn [snd M_Subs.st_id].
           ++ exists y. split; [now left|]. cbn [y s_id s_contract s_conn]. auto.
           ++ destruct (D4 _ He) as (z & Hz & Rest). exists z. split; [now right|exact Rest].
      * destruct (t_conn _ _ T _ _ Hk' Ho') as (F1 & F2 & F3 & F4). split; [exact F1|]. split; [exact F2|]. split; [exact F3|].
        intros e He. destruct (F4 _ He) as (z & Hz & Rest). exists z. split; [now right|exact Rest].
Qed.

(** Fewer subscriptions: those of entries of connection [c] go. *)
Lemma tied_fewer kof s c k k' l nx : tied kof s -> swf s -> aget (v_conns s) c = Some k -> incl l (v_subs s) -> NoDup (map s_id l) ->
  (forall x, In x (v_subs s) -> ~ In x l -> exists e, In e (k_subs k) /\ eid e = s_id x) ->
  k_client k' = k_client k -> (k_open k' = true -> entries (kof c) c (k_subs k') l) ->
  tied kof (mkV (v_log s) (aput (v_conns s) c k') l (v_tasks s) nx (v_nsub s)).
Proof.
  intros T W Hk Hl Hnd Hout Hcl Hen. constructor; cbn [v_subs v_conns].
  - exact Hnd.
  - intros c' k0 id' Hk' Hi'. rewrite aget_aput in Hk'. destruct (N.eqb_spec c' c) as [->|Hne]; [|exact (t_contract _ _ T _ _ _ Hk' Hi')].
    injection Hk' as <-. apply (t_contract _ _ T _ _ _ Hk). congruence.
  - intros c' k0 Hk' Ho'. rewrite aget_aput in Hk'. destruct (N.eqb_spec c' c) as [->|Hne].
    + injection Hk' as <-. auto.
    + destruct (t_conn _ _ T _ _ Hk' Ho') as (F1 & F2 & F3 & F4). split; [exact F1|]. split; [exact F2|]. split; [exact F3|].
      intros e He. destruct (F4 _ He) as (z & Hz & E1 & E2 & E3). exists z. split; [|auto].
      destruct (in_dec subn_dec z l) as [|Hz']; [assumption|]. exfalso. destruct (Hout _ Hz Hz') as ([q v] & He' & E').
      destruct W as [_ W2]. destruct (W2 _ _ _ _ Hk He') as [_ W3]. specialize (W3 z Hz). cbn [snd] in E'. apply Hne. rewrite <- E3. apply W3. congruence.
Qed.

Lemma unsub_one_tied E kof s c id x s1 : tied kof s -> swf s -> is_open s c = true ->
  unsub_one E s c id x = Some s1 -> tied kof s1 /\ stored_subs s1 = (stored_subs s - unsub_loss s c x)%Z.
Proof.
  intros T W Ho H. unfold unsub_one in H. unfold unsub_loss.
  assert (Kp : keeps s s1 -> tied kof s1 /\ stored_subs s1 = (stored_subs s - 0)%Z).
  { intros K. split; [exact (tied_keeps _ _ _ K T)|]. rewrite (stored_keeps _ _ K). lia. }
  unfold is_open in Ho. destruct (aget (v_conns s) c) as [k|] eqn:Hk; [|discriminate].
  destruct (check_sub k x) as [|e|t|t] eqn:Hc; try discriminate; [apply Kp, (keeps_say _ _ _ _ H)|].
  destruct (k_client k) as [cl|] eqn:Hcl; [|discriminate].
  pose proof (t_contract _ _ T _ _ _ Hk Hcl) as Ekc. destruct (t_conn _ _ T _ _ Hk Ho) as (D1 & D2 & D3 & D4).
  unfold M_Subs.decrement in *. destruct (M_Subs.st_get (k_subs k) (st_key t)) as [st0|] eqn:G.
  - destruct (Z.leb_spec (M_Subs.st_counter st0 - 1) 0) as [Hz|Hz]; cbn [fst snd] in *.
    + injection H as <-.
      set (p := fun n => (s_contract n =? id_contract cl) && M_Subs.beq (s_id n) (M_Subs.st_id st0)).
      change (fun n => negb ((s_contract n =? id_contract cl) && M_Subs.beq (s_id n) (M_Subs.st_id st0))) with (fun n => negb (p n)).
      pose proof (st_get_in _ _ _ G) as Gi.
      assert (Pid : forall z, p z = true -> s_id z = M_Subs.st_id st0).
      { intros z Hp. apply Bool.andb_true_iff in Hp. destruct Hp as [_ Hp]. now apply beq_eq in Hp. }
      split.
      * apply (tied_fewer kof s c k (set_subs (M_Subs.st_del (k_subs k) (st_key t)) k)); auto.
        -- apply incl_filter.
        -- apply nodup_filter, (t_nodup _ _ T).
        -- intros z Hz1 Hz2. pose proof (filter_out _ _ _ Hz1 Hz2) as F. apply Bool.negb_false_iff in F. exists (st_key t, st0). split; [exact Gi|]. symmetry. now apply Pid.
        -- intros _. cbn [set_subs k_subs]. split; [now apply (st_del_nodup fst)|]. split; [now apply (st_del_nodup eid)|].
           split; [intros e He; apply st_del_in in He; now apply D3|]. intros e He. pose proof (st_del_in _ _ _ He) as [He1 _].
           destruct (D4 _ He1) as (z & Hz1 & E1 & E2). exists z. split; [|auto]. apply filter_In. split; [exact Hz1|].
           apply Bool.negb_true_iff. destruct (p z) eqn:Hp; [|reflexivity]. exfalso. apply Pid in Hp.
           apply (other_id _ _ _ D2 G). rewrite <- Hp, E1. apply in_map_iff. exists e. auto.
      * unfold stored_subs. cbn [v_subs set_conn].
        assert (Hd : (length (filter (fun n => negb (p n)) (v_subs s)) + length [M_Subs.st_id st0] = length (v_subs s))%nat).
        { apply dropped; [exact (t_nodup _ _ T)|repeat constructor; auto| |].
          - intros z _ Hp. left. symmetry. now apply Pid.
          - intros i [<-|[]]. destruct (D4 _ Gi) as (z & Hz1 & E1 & E2 & _). exists z. split; [exact Hz1|]. split; [exact E1|].
            unfold p. cbn [snd] in E1. rewrite E1, beq_same, E2, Ekc, N.eqb_refl. reflexivity. }
        cbn [length] in Hd. lia.
    + injection H as <-. split; [|unfold stored_subs; cbn [v_subs set_conn]; lia].
      apply (tied_fewer kof s c k (set_subs (M_Subs.st_put (k_subs k) (st_key t) (M_Subs.mkStat (M_Subs.st_id st0) (M_Subs.st_topic st0) (M_Subs.st_counter st0 - 1))) k)); auto.
      * apply incl_refl.
      * exact (t_nodup _ _ T).
      * intros z A B. contradiction.
      * intros _. cbn [set_subs k_subs]. unfold M_Subs.st_put. split; [|split; [|split]]; cbn [map fst snd M_Subs.st_id].
        -- constructor; [apply st_del_key|now apply (st_del_nodup fst)].
        -- constructor; [now apply other_id|now apply (st_del_nodup eid)].
        -- intros e [<-|He]; [cbn [snd M_Subs.st_counter]; lia|]. apply st_del_in in He. now apply D3.
        -- intros e [<-|He]; cbn [snd M_Subs.st_id]; [exact (D4 _ (st_get_in _ _ _ G))|]. apply st_del_in in He. now apply D4.
  - cbn [fst snd] in *. injection H as <-. split; [|unfold stored_subs; cbn [v_subs set_conn]; lia].
    apply (tied_fewer kof s c k (set_subs (k_subs k) k)); auto.
    + apply incl_refl.
    + exact (t_nodup _ _ T).
    + intros z A B. contradiction.
    + intros _. split; auto.
Qed.

Lemma close_tied kof s c s1 m : tied kof s -> swf s -> close_conn s c = Some s1 ->
  tied kof s1 /\ (stored_subs s1 - stored_subs s = mt_subs (close_count s c m) - mt_subs m)%Z.
Proof.
  intros T W H. unfold close_conn in H. unfold close_count.
  assert (Kp : keeps s s1 -> tied kof s1 /\ (stored_subs s1 - stored_subs s = mt_subs m - mt_subs m)%Z).
  { intros K. split; [exact (tied_keeps _ _ _ K T)|]. rewrite (stored_keeps _ _ K). lia. }
  destruct (aget (v_conns s) c) as [k|] eqn:Hk; [|injection H as <-; apply Kp, keeps_refl].
  destruct (k_open k) eqn:Ho; cbn [negb] in H; [|injection H as <-; apply Kp, keeps_refl].
  destruct (t_conn _ _ T _ _ Hk Ho) as (D1 & D2 & D3 & D4). cbn [count_by mt_subs].
  destruct (k_subs k) as [|e r] eqn:Hs.
  - injection H as <-. split; [|unfold stored_subs; cbn [v_subs set_conn length]; lia].
    apply (tied_fewer kof s c k (set_closed k)); auto.
    + apply incl_refl.
    + exact (t_nodup _ _ T).
    + intros z A B. contradiction.
    + cbn. discriminate.
  - destruct (k_client k) as [cl|] eqn:Hcl; [|discriminate]. injection H as <-. pose proof (t_contract _ _ T _ _ _ Hk Hcl) as Ekc.
    set (p := fun n => (s_contract n =? id_contract cl) && existsb (fun e0 => M_Subs.beq (M_Subs.st_id (snd e0)) (s_id n)) (e :: r)).
    assert (Pid : forall z, p z = true -> exists e0, In e0 (e :: r) /\ eid e0 = s_id z).
    { intros z Hp. apply Bool.andb_true_iff in Hp. destruct Hp as [_ Hp]. apply existsb_exists in Hp. destruct Hp as (e0 & He & Hb). apply beq_eq in Hb. eauto. }
    split.
    + apply (tied_fewer kof s c k (set_closed k)); auto.
      * apply incl_filter.
      * apply nodup_filter, (t_nodup _ _ T).
      * intros z Hz1 Hz2. pose proof (filter_out _ _ _ Hz1 Hz2) as F. apply Bool.negb_false_iff in F. rewrite Hs. now apply Pid.
      * cbn. discriminate.
    + unfold stored_subs. cbn [v_subs set_conn].
      assert (Hd : (length (filter (fun n => negb (p n)) (v_subs s)) + length (map eid (e :: r)) = length (v_subs s))%nat).
      { apply dropped; [exact (t_nodup _ _ T)|exact D2| |].
        - intros z _ Hp. destruct (Pid z Hp) as (e0 & A & B). rewrite <- B. apply in_map_iff. eauto.
        - intros i Hi. apply in_map_iff in Hi. destruct Hi as (e0 & <- & He). destruct (D4 _ He) as (z & Hz1 & E1 & E2 & _). exists z. split; [exact Hz1|]. split; [exact E1|].
          unfold p. rewrite E2, Ekc, N.eqb_refl. cbn [andb]. apply existsb_exists. exists e0. split; [exact He|]. rewrite E1. apply beq_same. }
      rewrite map_length in Hd. match goal with |- context [filter ?f (v_subs s)] => change f with (fun n => negb (p n)) end. lia.
Qed.

(** ** Packets and events *)
Lemma subs_tied E kof c id : (forall t, e_store E t [] = true) -> forall l s s1, tied kof s -> swf s -> v_nsub s + N.of_nat (length l) < 2 ^ 64 -> is_open s c = true ->
  each (fun s x => sub_one E s c id x) s c l = Some s1 ->
  tied kof s1 /\ stored_subs s1 = (stored_subs s + total (fun s x => sub_one E s c id x) (fun s x => sub_gain E s c x) s c l)%Z.
Proof.
  intros Hst. induction l as [|x r IH]; intros s s1 T W Hn Ho H; cbn [each total] in *; [injection H as <-; split; [exact T|lia]|].
  destruct (is_stuck s c); [injection H as <-; split; [exact T|lia]|]. destruct (sub_one E s c id x) as [s2|] eqn:F; [|discriminate].
  cbn [length] in Hn. rewrite Nat2N.inj_succ in Hn.
  destruct (sub_one_tied E kof _ _ _ _ _ Hst T W ltac:(lia) Ho F) as [A B]. destruct (sub_one_wf _ _ _ _ _ _ W ltac:(lia) F) as (W2 & _ & _ & Hn2).
  destruct (IH s2 s1 A W2 ltac:(lia) ltac:(now rewrite (sub_one_open _ _ _ _ _ _ F)) H) as [A' B']. split; [exact A'|]. lia.
Qed.
Lemma unsubs_tied E kof c id : forall l s s1, tied kof s -> swf s -> is_open s c = true ->
  each (fun s x => unsub_one E s c id x) s c l = Some s1 ->
  tied kof s1 /\ stored_subs s1 = (stored_subs s - total (fun s x => unsub_one E s c id x) (fun s x => unsub_loss s c x) s c l)%Z.
Proof.
  induction l as [|x r IH]; intros s s1 T W Ho H; cbn [each total] in *; [injection H as <-; split; [exact T|lia]|].
  destruct (is_stuck s c); [injection H as <-; split; [exact T|lia]|]. destruct (unsub_one E s c id x) as [s2|] eqn:F; [|discriminate].
  destruct (unsub_one_tied E kof _ _ _ _ _ T W Ho F) as [A B]. destruct (unsub_one_wf _ _ _ _ _ _ W F) as (W2 & _).
  destruct (IH s2 s1 A W2 ltac:(now rewrite (unsub_one_open _ _ _ _ _ _ F)) H) as [A' B']. split; [exact A'|]. lia.
Qed.
Lemma close_count_keeps s s2 c m : keeps s s2 -> close_count s2 c m = close_count s c m.
Proof.
  intros (_ & _ & _ & D). specialize (D c). unfold close_count. destruct (aget (v_conns s2) c) as [k2|], (aget (v_conns s) c) as [k|]; cbn in D; try discriminate; [|reflexivity].
  unfold face in D. injection D as D1 D2 D3. now rewrite D1, D2.
Qed.
Lemma handle_tied E kof s c q s1 m : (forall t, e_store E t [] = true) -> contracts_stay kof (EPacket c q) -> tied kof s -> swf s ->
  v_nsub s + asked_subs (EPacket c q) < 2 ^ 64 -> is_open s c = true -> handle E s c q = Some s1 ->
  tied kof s1 /\ (stored_subs s1 - stored_subs s = mt_subs (packet_count E s c q m) - mt_subs m)%Z.
Proof.
  intros Hst Hk T W Hn Ho H.
  assert (Kp : forall a, keeps s a -> closes E s c q = false -> tied kof a /\ (stored_subs a - stored_subs s = mt_subs (if closes E s c q then close_count s c m else m) - mt_subs m)%Z).
  { intros a K ->. split; [exact (tied_keeps _ _ _ K T)|]. rewrite (stored_keeps _ _ K). lia. }
  assert (Cl : forall a, keeps s a -> closes E s c q = true -> close_conn a c = Some s1 -> tied kof s1 /\ (stored_subs s1 - stored_subs s = mt_subs (if closes E s c q then close_count s c m else m) - mt_subs m)%Z).
  { intros a K -> F. destruct (close_tied kof a c s1 m (tied_keeps _ _ _ K T) (wf_keeps _ _ K W) F) as [A B]. split; [exact A|].
    rewrite (close_count_keeps _ _ _ _ K), (stored_keeps _ _ K) in B. exact B. }
  pose proof (handle_open _ _ _ _ _ H Ho) as Hop.
  destruct q as [who ins clean key|l id|l id|p|l id| |ty flow id]; cbn [handle] in H.
  - change (packet_count E s c (QConnect who ins clean key) m) with (if closes E s c (QConnect who ins clean key) then close_count s c m else m).
    destruct who as [|idn b|idn]; [discriminate| |].
    + destruct (keeps_connect _ _ _ _ _ _ _ _ _ H) as (A & B & C & D & D'). cbn [closes]. unfold stored_subs. rewrite A. split; [|lia].
      specialize (Hk c). cbn [one_contract] in Hk. specialize (Hk eq_refl). constructor; rewrite ?A.
      * exact (t_nodup _ _ T).
      * intros c' k' id' Hk' Hi'. destruct (N.eq_dec c' c) as [->|Hne].
        -- rewrite Hk' in D'. destruct (aget (v_conns s) c) as [k0|]; [|discriminate]. cbn in D'. unfold face in D'. congruence.
        -- specialize (D c' Hne). rewrite Hk' in D. destruct (aget (v_conns s) c') as [k0|] eqn:E0; [|discriminate]. cbn in D. unfold face in D.
           apply (t_contract _ _ T _ _ _ E0). congruence.
      * intros c' k' Hk' Ho'. destruct (N.eq_dec c' c) as [->|Hne].
        -- rewrite Hk' in D'. destruct (aget (v_conns s) c) as [k0|] eqn:E0; [|discriminate]. cbn in D'. unfold face in D'. injection D' as X1 X2 X3.
           rewrite X1. apply (t_conn _ _ T _ _ E0). congruence.
        -- specialize (D c' Hne). rewrite Hk' in D. destruct (aget (v_conns s) c') as [k0|] eqn:E0; [|discriminate]. cbn in D. unfold face in D. injection D as X1 X2 X3.
           rewrite X1. apply (t_conn _ _ T _ _ E0). congruence.
    + unfold on_connect_msg in H. cbv zeta in H. cbn [closes] in Kp, Cl, Hop |- *. destruct (say _ c _) as [s2|] eqn:F; [|discriminate].
      assert (K : keeps s s2).
      { eapply keeps_trans; [|exact (keeps_say _ _ _ _ F)]. eapply keeps_trans; [|apply keeps_out]. now apply keeps_on. }
      destruct (is_stuck s2 c) eqn:Hst2; cbn [negb] in *; [injection H as <-; now apply Kp|]. exact (Cl s2 K eq_refl H).
  - destruct (each _ s c l) as [s2|] eqn:F; [|discriminate]. injection H as <-. cbn [asked_subs packet_count count_by mt_subs] in *.
    destruct (subs_tied E kof c id Hst l s s2 T W Hn Ho F) as [A B]. pose proof (keeps_ack s2 c (KCtl tSUBSCRIBE fACK id)) as K.
    split; [exact (tied_keeps _ _ _ K A)|]. rewrite (stored_keeps _ _ K). lia.
  - destruct (each _ s c l) as [s2|] eqn:F; [|discriminate]. injection H as <-. cbn [asked_subs packet_count count_by mt_subs] in *.
    destruct (unsubs_tied E kof c id l s s2 T W Ho F) as [A B]. pose proof (keeps_ack s2 c (KCtl tUNSUBSCRIBE fACK id)) as K.
    split; [exact (tied_keeps _ _ _ K A)|]. rewrite (stored_keeps _ _ K). lia.
  - destruct (pub_msgs E s c p (p_msgs p)) as [[s2 b]|] eqn:F; [|discriminate]. injection H as <-. cbn [fst snd].
    pose proof (keeps_pub _ _ _ _ _ _ _ F) as K. destruct b; apply Kp; auto. eapply keeps_trans; [exact K|apply keeps_ack].
  - destruct (each _ s c l) as [s2|] eqn:F; [|discriminate]. injection H as <-. apply Kp; auto.
    eapply keeps_trans; [|apply keeps_ack]. revert F. apply keeps_each. intros a x b. apply keeps_relay_one.
  - injection H as <-. apply Kp; auto. apply keeps_ack.
  - change (packet_count E s c (QFlow ty flow id) m) with (if closes E s c (QFlow ty flow id) then close_count s c m else m).
    unfold on_flow in H. cbn [closes] in Kp, Cl |- *. destruct (aget (v_conns s) c) as [k|] eqn:Hk0; [|unfold is_open in Ho; now rewrite Hk0 in Ho]. cbv zeta in H, Kp, Cl |- *.
    set (s2 := match k_client k with Some _ => persist_in s (k_sess k) (KCtl ty flow id) | None => s end) in *.
    replace (if match k_client k with Some _ => true | None => false end then persist_in s (k_sess k) (KCtl ty flow id) else s) with s2 in H
      by (unfold s2; now destruct (k_client k)).
    assert (K : keeps s s2) by (unfold s2; destruct (k_client k); [apply (keeps_persist_in s (k_sess k) (KCtl ty flow id))|apply keeps_refl]). clearbody s2.
    destruct (flow =? fRECEIVE) eqn:Hf; cbn [andb] in *.
    + destruct (log_get E (v_log s2) _) as [[p|ty' f' i']|].
      * injection H as <-. apply Kp; [|reflexivity]. eapply keeps_trans; [exact K|apply keeps_out].
      * injection H as <-. now apply Kp.
      * now apply (Cl s2).
    + destruct (flow =? fRECEIPT); injection H as <-; [|now apply Kp]. apply Kp; [|reflexivity]. eapply keeps_trans; [exact K|].
      eapply keeps_trans; [|apply keeps_out]. destruct (k_client k); [apply (keeps_persist s2 (k_sess k) (KCtl tPUBLISH fCOMPLETE id))|apply keeps_refl].
Qed.
Lemma step_tied E kof s ev s1 m : (forall t, e_store E t [] = true) -> contracts_stay kof ev -> no_restart ev -> tied kof s -> swf s ->
  v_nsub s + asked_subs ev < 2 ^ 64 -> step E s ev = Some s1 ->
  tied kof s1 /\ (stored_subs s1 - stored_subs s = mt_subs (event_count E s ev m) - mt_subs m)%Z.
Proof.
  intros Hst Hkof Hr T W Hn H.
  assert (Kp : keeps s s1 -> tied kof s1 /\ (stored_subs s1 - stored_subs s = mt_subs m - mt_subs m)%Z).
  { intros K. split; [exact (tied_keeps _ _ _ K T)|]. rewrite (stored_keeps _ _ K). lia. }
  destruct ev as [|c q|i|c|c|n]; cbn [event_count].
  - cbn [step] in H. injection H as <-. unfold stored_subs. cbn [v_subs count_by mt_subs]. split; [|lia]. constructor; cbn [v_subs v_conns].
    + exact (t_nodup _ _ T).
    + intros c k id. rewrite aget_aput. destruct (c =? u32 (v_next s + 1)); [intros [= <-]; discriminate|]. apply (t_contract _ _ T).
    + intros c k. rewrite aget_aput. destruct (c =? u32 (v_next s + 1)); [|apply (t_conn _ _ T)]. intros [= <-] _. cbn [conn_new k_subs].
      split; [constructor|]. split; [constructor|]. split; contradiction.
  - cbn [step] in H. destruct (aget (v_conns s) c) as [k|] eqn:Hk; [|injection H as <-; apply Kp, keeps_refl].
    destruct (k_open k) eqn:Ho; cbn [andb] in *; [|injection H as <-; apply Kp, keeps_refl].
    destruct (negb (k_stuck k)); [|injection H as <-; apply Kp, keeps_refl].
    apply (handle_tied E); auto. unfold is_open. now rewrite Hk.
  - apply Kp. exact (keeps_run _ _ _ _ H).
  - cbn [step] in H. injection H as <-. apply Kp, keeps_send_batch.
  - cbn [step] in H. now apply close_tied.
  - contradiction.
Qed.
Lemma subs_counted E kof : (forall t, e_store E t [] = true) -> forall es s m s1 m1, mrun E (s, m) es = Some (s1, m1) -> Forall (contracts_stay kof) es ->
  Forall no_restart es -> tied kof s -> swf s -> v_nsub s + asked_all es < 2 ^ 64 -> (stored_subs s1 - stored_subs s = mt_subs m1 - mt_subs m)%Z.
Proof.
  intros Hst. induction es as [|ev es IH]; intros s m s1 m1 H Hk Hr T W Hn; cbn [mrun] in H; [injection H as <- <-; lia|]. unfold mstep in H. cbn [fst snd] in H.
  destruct (step E s ev) as [s2|] eqn:F; [|discriminate]. inversion Hk; subst. inversion Hr; subst.
  change (asked_all (ev :: es)) with (asked_subs ev + asked_all es) in Hn.
  destruct (step_wf E s ev s2 W ltac:(lia) F) as (A & B & _).
  destruct (step_tied E kof s ev s2 m Hst ltac:(assumption) ltac:(assumption) T W ltac:(lia) F) as [C D].
  specialize (IH s2 _ s1 m1 H ltac:(assumption) ltac:(assumption) C A ltac:(lia)). lia.
Qed.
Lemma subs_ok E n es s m kof : (forall t, e_store E t [] = true) -> mrun E (server_new n, meter_new) es = Some (s, m) -> Forall (contracts_stay kof) es ->
  Forall no_restart es -> asked_all es < 2 ^ 64 -> mt_subs m = stored_subs s.
Proof.
  intros Hst H Hk Hr Hn.
  pose proof (subs_counted E kof Hst es _ _ _ _ H Hk Hr) as G. specialize (G ltac:(constructor; cbn; [constructor|discriminate|discriminate]) (wf_new n) ltac:(cbn [server_new v_nsub]; lia)).
  unfold stored_subs in *. cbn [server_new v_subs length meter_new mt_subs] in G. lia.
Qed.
