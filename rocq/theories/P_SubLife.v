(** Proofs about the life of subscriptions. *)
From Coq Require Import Lia ZifyBool ZifyNat ZifyN.
From Verif Require Import M_Bytes P_Bytes M_Keys M_MsgIds M_Conn S_Conn S_SubLife P_Conn.
From Verif Require M_Subs.
Open Scope N_scope.

(** ** What leaves subscriptions alone *)
Definition face (k : conn) := (k_subs k, k_open k, k_client k).
Definition keeps (s s' : server) : Prop :=
  v_subs s' = v_subs s /\ v_nsub s' = v_nsub s /\ v_next s' = v_next s /\
  forall q, option_map face (aget (v_conns s') q) = option_map face (aget (v_conns s) q).
Lemma keeps_refl s : keeps s s.
Proof. repeat split. Qed.
Lemma keeps_trans s1 s2 s3 : keeps s1 s2 -> keeps s2 s3 -> keeps s1 s3.
Proof. intros (A & B & C & D) (A' & B' & C' & D'). (split; [congruence|]); (split; [congruence|]); (split; [congruence|]). intros q. now rewrite D'. Qed.
Lemma keeps_on s c f : (forall k, face (f k) = face k) -> keeps s (on_conn s c f).
Proof.
  intros Hf. unfold on_conn. destruct (aget (v_conns s) c) as [k|] eqn:E; [|apply keeps_refl].
  repeat split. intros q. rewrite get_set. destruct (N.eqb_spec q c) as [->|]; [|reflexivity]. rewrite E. cbn [option_map]. now rewrite Hf.
Qed.
Lemma keeps_set s c k k' : aget (v_conns s) c = Some k -> face k' = face k -> keeps s (set_conn s c k').
Proof.
  intros E Hf. repeat split. intros q. rewrite get_set. destruct (N.eqb_spec q c) as [->|]; [|reflexivity]. rewrite E. cbn [option_map]. now rewrite Hf.
Qed.
Lemma keeps_log s l : keeps s (set_log s l).
Proof. repeat split. Qed.
Lemma keeps_tasks s l : keeps s (set_tasks s l).
Proof. repeat split. Qed.
Lemma keeps_out s c pk : keeps s (put_out s c pk).
Proof. apply keeps_on. intros k. now destruct (k_open k). Qed.
Lemma keeps_persist s b pk : keeps s (persist_out s b pk).
Proof. destruct pk as [p|ty flow id]; cbn [persist_out]; [apply keeps_log|]. destruct (flow =? fCOMPLETE); [apply keeps_log|apply keeps_refl]. Qed.
Lemma keeps_persist_in s b pk : keeps s (persist_in s b pk).
Proof. destruct pk as [p|ty flow id]; cbn [persist_in]; [apply keeps_refl|]. destruct (flow =? fRECEIPT); [apply keeps_log|apply keeps_refl]. Qed.
Lemma keeps_next s c s1 r : next_id s c = (s1, r) -> keeps s s1.
Proof.
  unfold next_id. destruct (aget (v_conns s) c) as [k|] eqn:E; [|intros [= <- <-]; apply keeps_refl].
  destruct (mids_step _ _) as [m z]. intros [= <- <-]. eapply keeps_set; [exact E|reflexivity].
Qed.
Lemma keeps_batch s c m s1 : batch_add s c m = Some s1 -> keeps s s1.
Proof.
  unfold batch_add. destruct (aget (v_conns s) c) as [k|] eqn:E; [|intros [= <-]; apply keeps_refl].
  destruct (k_batch k) as [l|]; [|discriminate]. intros [= <-]. eapply keeps_set; [exact E|reflexivity].
Qed.
Lemma keeps_send s c id mode delay m s1 r : send_message s c id mode delay m = Some (s1, r) -> keeps s s1.
Proof.
  intros H. apply send_inv in H. destruct H as (s0 & H1 & H2).
  assert (K : keeps s s0).
  { destruct (id =? 0); [exact (keeps_next _ _ _ _ H1)|]. destruct H1 as [-> _]. apply keeps_refl. }
  destruct r as [i|]; [|subst; exact K]. destruct H2 as [H2| ->].
  - eapply keeps_trans; [exact K|]. exact (keeps_batch _ _ _ _ H2).
  - eapply keeps_trans; [exact K|]. eapply keeps_trans; [apply keeps_persist|apply keeps_out].
Qed.
Lemma keeps_say s c m s1 : say s c m = Some s1 -> keeps s s1.
Proof.
  unfold say. destruct (send_message s c 0 0 0 m) as [[s2 [i|]]|] eqn:F; [| |discriminate]; intros [= <-].
  - exact (keeps_send _ _ _ _ _ _ _ _ F).
  - eapply keeps_trans; [exact (keeps_send _ _ _ _ _ _ _ _ F)|]. now apply keeps_on.
Qed.
Lemma keeps_ack s c pk : keeps s (ack s c pk).
Proof. unfold ack. destruct (is_stuck s c); [apply keeps_refl|apply keeps_out]. Qed.
Lemma keeps_relay c topic : forall l s s1, relay_all s c topic l = Some s1 -> keeps s s1.
Proof.
  induction l as [|m r IH]; intros s s1 H; cbn [relay_all] in H; [injection H as <-; apply keeps_refl|].
  destruct (send_message s c 0 2 0 (mkPM topic m)) as [[s2 [j|]]|] eqn:F; [| |discriminate].
  - eapply keeps_trans; [exact (keeps_send _ _ _ _ _ _ _ _ F)|exact (IH _ _ H)].
  - injection H as <-. eapply keeps_trans; [exact (keeps_send _ _ _ _ _ _ _ _ F)|]. now apply keeps_on.
Qed.
Lemma keeps_relay_one E s c id x s1 : relay_one E s c id x = Some s1 -> keeps s s1.
Proof.
  unfold relay_one. destruct (aget (v_conns s) c) as [k|]; [|intros [= <-]; apply keeps_refl].
  destruct (check_sub k (fst x)); try discriminate; [apply keeps_say|]. destruct (k_client k); [|discriminate]. apply keeps_relay.
Qed.
Lemma keeps_each {A} (f : server -> A -> option server) c : (forall s x s1, f s x = Some s1 -> keeps s s1) ->
  forall l s s1, each f s c l = Some s1 -> keeps s s1.
Proof.
  intros Hf. induction l as [|x r IH]; intros s s1 H; cbn [each] in H; [injection H as <-; apply keeps_refl|].
  destruct (is_stuck s c); [injection H as <-; apply keeps_refl|]. destruct (f s x) as [s2|] eqn:F; [|discriminate].
  eapply keeps_trans; [exact (Hf _ _ _ F)|exact (IH _ _ H)].
Qed.
Lemma keeps_pub E c p : forall l s s1 b, pub_msgs E s c p l = Some (s1, b) -> keeps s s1.
Proof.
  induction l as [|m r IH]; intros s s1 b H; cbn [pub_msgs] in H; [injection H as <- <-; apply keeps_refl|].
  destruct (aget (v_conns s) c) as [k|]; [|injection H as <- <-; apply keeps_refl].
  assert (G : forall o, option_map (fun s1 => (s1, false)) o = Some (s1, b) -> (forall s2, o = Some s2 -> keeps s s2) -> keeps s s1).
  { intros [s2|] Ho Hk; [|discriminate]. injection Ho as <- <-. now apply Hk. }
  destruct (check_pub k (pm_topic m)) as [|e|t|t].
  - destruct (k_client k); discriminate.
  - eapply G; [exact H|]. intros s2. apply keeps_say.
  - destruct (match k_client k with None => _ | Some _ => false end); [discriminate|]. eapply G; [exact H|]. intros s2. apply keeps_say.
  - destruct (k_client k); [|discriminate]. destruct (e_store E (st_topic t) (pm_payload m)).
    + eapply keeps_trans; [apply keeps_tasks|exact (IH _ _ _ H)].
    + eapply G; [exact H|]. intros s2. apply keeps_say.
Qed.
Lemma keeps_task E s t s1 r : run_task E s t = Some (s1, r) -> keeps s s1.
Proof.
  destruct t as [c p t payload|c p m id todo|c p m id n todo]; cbn [run_task].
  - destruct (aget (v_conns s) c) as [k|]; [|intros [= <- <-]; apply keeps_refl].
    destruct (k_client k); [|discriminate]. intros [= <- <-]. apply keeps_refl.
  - destruct todo as [|n todo]; [intros [= <- <-]; apply keeps_refl|].
    destruct (aget (v_conns s) (s_conn n)) as [k|]; [|intros [= <- <-]; apply keeps_refl].
    destruct (k_open k); [|intros [= <- <-]; apply keeps_refl].
    destruct (if id =? 0 then next_id s c else (s, Some id)) as [s2 r2] eqn:F.
    assert (K : keeps s s2) by (destruct (id =? 0); [exact (keeps_next _ _ _ _ F)|injection F as <- <-; apply keeps_refl]).
    destruct r2; intros [= <- <-]; exact K.
  - destruct (aget (v_conns s) (s_conn n)) as [k|]; [|intros [= <- <-]; apply keeps_refl].
    assert (X : forall s1 r, match send_message s (s_conn n) id (s_mode n) (s_delay n) m with
            | None => None
            | Some (s1, Some i) => Some (s1, Some (TLoop c p m i todo))
            | Some (s1, None) => Some (s1, None)
            end = Some (s1, r) -> keeps s s1).
    { intros s2 r2. destruct (send_message _ _ _ _ _ _) as [[s3 [i|]]|] eqn:F; [| |discriminate]; intros [= <- <-]; exact (keeps_send _ _ _ _ _ _ _ _ F). }
    cbv zeta. destruct (reliable (p_mode p)).
    + destruct (reliable (s_mode n)).
      * destruct (k_open k); [|discriminate]. intros [= <- <-]. eapply keeps_trans; [apply (keeps_persist s (k_sess k) (KPub p))|apply keeps_out].
      * destruct (s_mode n =? 0); [apply X|intros [= <- <-]; apply keeps_refl].
    + destruct (p_mode p =? 0); [apply X|intros [= <- <-]; apply keeps_refl].
Qed.
Lemma keeps_send_batch s c : keeps s (send_batch s c).
Proof.
  unfold send_batch. destruct (aget (v_conns s) c) as [k|] eqn:E; [|apply keeps_refl].
  destruct (k_batch k) as [[|x l]|]; try apply keeps_refl. destruct (k_open k); [|apply keeps_refl].
  destruct (next_id _ c) as [s1 r] eqn:F. assert (K : keeps s s1).
  { eapply keeps_trans; [|exact (keeps_next _ _ _ _ F)]. eapply keeps_set; [exact E|reflexivity]. }
  destruct r as [i|]; [|exact K]. eapply keeps_trans; [exact K|]. eapply keeps_trans; [apply keeps_persist|apply keeps_out].
Qed.
Lemma keeps_resume E c : forall l s, keeps s (fold_left (resume_key E c) l s).
Proof.
  induction l as [|key l IH]; intros s; cbn [fold_left]; [apply keeps_refl|]. eapply keeps_trans; [|apply IH].
  unfold resume_key. destruct (log_get E (v_log s) key) as [pk|]; [|apply keeps_refl].
  destruct (N.testbit key 4); [apply keeps_log|]. destruct pk; [|apply keeps_log].
  eapply keeps_trans; [|apply keeps_out]. now apply keeps_on.
Qed.

(** ** The identifiers of subscriptions *)
Record swf (s : server) : Prop := {
  wf_subs : forall x, In x (v_subs s) -> exists n, n < v_nsub s /\ s_id x = le 8 n;
  wf_stats : forall c k ky st, aget (v_conns s) c = Some k -> In (ky, st) (k_subs k) ->
    (exists n, n < v_nsub s /\ M_Subs.st_id st = le 8 n) /\ (forall x, In x (v_subs s) -> s_id x = M_Subs.st_id st -> s_conn x = c)
}.
Lemma le8_inj a b : a < 2 ^ 64 -> b < 2 ^ 64 -> le 8 a = le 8 b -> a = b.
Proof. intros Ha Hb E. pose proof (f_equal unle E) as F. rewrite (unle_le8 a), (unle_le8 b) in F by assumption. exact F. Qed.
Lemma beq_eq a b : M_Subs.beq a b = true -> a = b.
Proof. unfold M_Subs.beq. destruct (list_eq_dec N.eq_dec a b); [auto|discriminate]. Qed.
Lemma beq_same a : M_Subs.beq a a = true.
Proof. unfold M_Subs.beq. destruct (list_eq_dec N.eq_dec a a); congruence. Qed.

Lemma face_subs k k' : face k = face k' -> k_subs k = k_subs k' /\ k_open k = k_open k' /\ k_client k = k_client k'.
Proof. unfold face. intros [= A B C]. auto. Qed.
Lemma keeps_get s s' c k : keeps s s' -> aget (v_conns s') c = Some k -> exists k0, aget (v_conns s) c = Some k0 /\ face k = face k0.
Proof.
  intros (_ & _ & _ & D) E. specialize (D c). rewrite E in D. destruct (aget (v_conns s) c) as [k0|]; [|discriminate].
  exists k0. split; [reflexivity|]. cbn [option_map] in D. congruence.
Qed.
Lemma wf_keeps s s' : keeps s s' -> swf s -> swf s'.
Proof.
  intros K [W1 W2]. pose proof K as (A & B & _ & _). constructor.
  - rewrite A, B. exact W1.
  - intros c k ky st E Hi. destruct (keeps_get _ _ _ _ K E) as (k0 & E0 & F). apply face_subs in F. destruct F as (F & _).
    rewrite A, B. rewrite F in Hi. exact (W2 _ _ _ _ E0 Hi).
Qed.

(** What a request of [c] does to the others: nothing. *)
Definition local (c : N) (s s' : server) : Prop :=
  (forall q, q <> c -> option_map face (aget (v_conns s') q) = option_map face (aget (v_conns s) q)) /\
  (forall x, In x (v_subs s') -> In x (v_subs s) \/ s_conn x = c) /\
  (forall x, In x (v_subs s) -> s_conn x <> c -> In x (v_subs s')) /\ v_next s' = v_next s.
Lemma local_keeps c s s' : keeps s s' -> local c s s'.
Proof. intros (A & B & C & D). split; [intros q _; apply D|]. rewrite A. auto. Qed.
Lemma local_trans c s1 s2 s3 : local c s1 s2 -> local c s2 s3 -> local c s1 s3.
Proof.
  intros (A1 & A2 & A3 & A4) (B1 & B2 & B3 & B4). split; [intros q Hq; now rewrite B1, A1|]. split; [|split; [|congruence]].
  - intros x Hx. destruct (B2 _ Hx) as [Hx'|]; auto.
  - intros x Hx Hc. apply B3; auto.
Qed.

Lemma st_del_in s ky e : In e (M_Subs.st_del s ky) -> In e s /\ fst e <> ky.
Proof.
  unfold M_Subs.st_del. intros H. apply filter_In in H. destruct H as [H1 H2]. split; [exact H1|]. intros Ek. rewrite Ek, beq_same in H2. discriminate.
Qed.
Lemma st_get_in s ky st : M_Subs.st_get s ky = Some st -> In (ky, st) s.
Proof.
  induction s as [|[q v] r IH]; cbn [M_Subs.st_get]; [discriminate|]. destruct (M_Subs.beq q ky) eqn:F.
  - apply beq_eq in F. intros [= ->]. subst. now left.
  - intros H. right. auto.
Qed.

(** The stats after an increment: old ones, or the one of the key, whose identifier
    is old or the fresh one. *)
Lemma increment_in s topic ky fresh s' first : M_Subs.increment s topic ky fresh = (s', first) ->
  forall q st, In (q, st) s' -> (In (q, st) s /\ q <> ky) \/ q = ky /\
    ((exists st0, M_Subs.st_get s ky = Some st0 /\ M_Subs.st_id st = M_Subs.st_id st0 /\ M_Subs.st_counter st = (M_Subs.st_counter st0 + 1)%Z /\ first = (M_Subs.st_counter st =? 1)%Z) \/
     M_Subs.st_get s ky = None /\ M_Subs.st_id st = fresh /\ M_Subs.st_counter st = 1%Z /\ first = true).
Proof.
  unfold M_Subs.increment. intros [= <- <-] q st. unfold M_Subs.st_put. intros [E|Hi].
  - right. injection E as <- <-. split; [reflexivity|]. cbn [M_Subs.st_id M_Subs.st_counter].
    destruct (M_Subs.st_get s ky) as [st0|]; [left; exists st0; auto|right; auto].
  - left. exact (st_del_in _ _ _ Hi).
Qed.

Lemma sub_one_wf E s c id x s1 : swf s -> v_nsub s + 1 < 2 ^ 64 -> sub_one E s c id x = Some s1 ->
  swf s1 /\ local c s s1 /\ incl (v_subs s) (v_subs s1) /\ v_nsub s1 <= v_nsub s + 1.
Proof.
  intros W Hn H. destruct x as [[text mode] delay]. unfold sub_one in H.
  assert (Kp : keeps s s1 -> swf s1 /\ local c s s1 /\ incl (v_subs s) (v_subs s1) /\ v_nsub s1 <= v_nsub s + 1).
  { intros K. split; [exact (wf_keeps _ _ K W)|]. split; [now apply local_keeps|]. destruct K as (A & B & _). rewrite A, B. split; [easy|lia]. }
  destruct (aget (v_conns s) c) as [k|] eqn:Hk; [|injection H as <-; apply Kp, keeps_refl].
  destruct (check_sub k text) as [|e|t|t] eqn:Hc; try discriminate; [apply Kp, (keeps_say _ _ _ _ H)|].
  destruct (k_client k) as [cl|] eqn:Hcl; [|discriminate].
  match type of H with match ?x with _ => _ end = _ => destruct x as [ky|] eqn:Hky; [|apply Kp, (keeps_say _ _ _ _ H)] end.
  destruct (M_Subs.increment (k_subs k) (st_name t) ky (le 8 (v_nsub s))) as [st first] eqn:Hi.
  pose proof (increment_in _ _ _ _ _ _ Hi) as Hin.
  set (y := mkSub (id_contract cl) (st_topic t) (u8 mode) c delay (le 8 (v_nsub s))) in *.
  (* the state with the new stats and the subscriptions [l] *)
  assert (Key : forall l, (l = v_subs s \/ l = y :: v_subs s) ->
    let s' := mkV (v_log s) (aput (v_conns s) c (set_subs st k)) l (v_tasks s) (v_next s) (v_nsub s + 1) in
    swf s' /\ local c s s' /\ incl (v_subs s) (v_subs s') /\ v_nsub s' <= v_nsub s + 1).
  { intros l Hl s'. destruct W as [W1 W2].
    assert (Hl1 : forall z, In z l -> In z (v_subs s) \/ z = y) by (intros z Hz; destruct Hl as [->| ->]; [auto|destruct Hz; auto]).
    assert (Hl2 : incl (v_subs s) l) by (destruct Hl as [->| ->]; [easy|intros z Hz; now right]).
    assert (Old : forall n, n < v_nsub s -> le 8 (v_nsub s) <> le 8 n) by (intros n Hlt E'; apply le8_inj in E'; lia).
    split; [|split; [|split; [exact Hl2|cbn [v_nsub s']; lia]]].
    - constructor; cbn [v_subs v_nsub v_conns s'].
      + intros z Hz. destruct (Hl1 _ Hz) as [Hz'| ->]; [destruct (W1 _ Hz') as (n & A & B); exists n; split; [lia|exact B]|].
        exists (v_nsub s). split; [lia|reflexivity].
      + intros c' k' q st' E' Hq. rewrite aget_aput in E'. destruct (N.eqb_spec c' c) as [->|Hne].
        * injection E' as <-. cbn [set_subs k_subs] in Hq.
          assert (D : (exists n, n < v_nsub s /\ M_Subs.st_id st' = le 8 n /\ forall x, In x (v_subs s) -> s_id x = M_Subs.st_id st' -> s_conn x = c) \/ M_Subs.st_id st' = le 8 (v_nsub s)).
          { destruct (Hin _ _ Hq) as [[Ho _]|[-> [(st0 & G & G1 & _)|(_ & G & _)]]]; [| |now right].
            - destruct (W2 _ _ _ _ Hk Ho) as [(n & A & B) C]. left. exists n. auto.
            - destruct (W2 _ _ _ _ Hk (st_get_in _ _ _ G)) as [(n & A & B) C]. left. exists n. rewrite G1. auto. }
          destruct D as [(n & A & B & C)|D].
          -- split; [exists n; split; [lia|exact B]|]. intros x Hx Ex. destruct (Hl1 _ Hx) as [Hx'| ->]; [auto|reflexivity].
          -- split; [exists (v_nsub s); split; [lia|exact D]|]. intros x Hx Ex. destruct (Hl1 _ Hx) as [Hx'| ->]; [|reflexivity].
             exfalso. destruct (W1 _ Hx') as (n & A & B). apply (Old n A). congruence.
        * destruct (W2 _ _ _ _ E' Hq) as [(n & A & B) C]. split; [exists n; split; [lia|exact B]|].
          intros x Hx Ex. destruct (Hl1 _ Hx) as [Hx'| ->]; [auto|]. exfalso. cbn [s_id y] in Ex. apply (Old n A). congruence.
    - split; [|split; [|split; [|reflexivity]]]; cbn [v_subs v_conns s'].
      + intros q Hq. rewrite aget_aput. destruct (N.eqb_spec q c); [contradiction|reflexivity].
      + intros z Hz. destruct (Hl1 _ Hz) as [| ->]; [now left|now right].
      + intros z Hz _. apply Hl2, Hz. }
  destruct first; [destruct (e_store E (st_topic t) [])|].
  - injection H as <-. apply (Key (y :: v_subs s)). now right.
  - destruct (Key (v_subs s) (or_introl eq_refl)) as (K1 & K2 & K3 & K4). pose proof (keeps_say _ _ _ _ H) as K.
    split; [exact (wf_keeps _ _ K K1)|]. split; [eapply local_trans; [exact K2|apply local_keeps; exact K]|].
    destruct K as (A & B & _). rewrite A, B. split; [exact K3|exact K4].
  - injection H as <-. apply (Key (v_subs s)). now left.
Qed.

Lemma decrement_in s ky s' r : M_Subs.decrement s ky = (s', r) -> forall q st, In (q, st) s' ->
  exists st0, In (q, st0) s /\ M_Subs.st_id st = M_Subs.st_id st0.
Proof.
  unfold M_Subs.decrement. destruct (M_Subs.st_get s ky) as [st0|] eqn:G; [|intros [= <- <-] q st Hi; eauto].
  destruct (M_Subs.st_counter st0 - 1 <=? 0)%Z; intros [= <- <-] q st Hi.
  - apply st_del_in in Hi. exists st. split; [apply Hi|reflexivity].
  - destruct Hi as [E|Hi]; [|apply st_del_in in Hi; exists st; split; [apply Hi|reflexivity]].
    injection E as <- <-. exists st0. split; [exact (st_get_in _ _ _ G)|reflexivity].
Qed.
Lemma decrement_id s ky s' b sid : M_Subs.decrement s ky = (s', (b, Some sid)) -> exists st, M_Subs.st_get s ky = Some st /\ M_Subs.st_id st = sid /\ s' = M_Subs.st_del s ky.
Proof.
  unfold M_Subs.decrement. destruct (M_Subs.st_get s ky) as [st0|] eqn:G; [|discriminate].
  destruct (M_Subs.st_counter st0 - 1 <=? 0)%Z; [|discriminate]. intros E. exists st0. split; [reflexivity|]. split; congruence.
Qed.

Lemma subn_dec (a b : subn) : {a = b} + {a <> b}.
Proof. decide equality; try apply N.eq_dec; try apply Z.eq_dec; apply (list_eq_dec N.eq_dec). Defined.
Lemma fewer_wf s c k k' st l nx : swf s -> aget (v_conns s) c = Some k -> k' = set_subs st k \/ k' = set_closed k ->
  (forall q v, In (q, v) (k_subs k') -> exists v0, In (q, v0) (k_subs k) /\ M_Subs.st_id v = M_Subs.st_id v0) -> incl l (v_subs s) ->
  (forall x, In x (v_subs s) -> ~ In x l -> exists q v, In (q, v) (k_subs k) /\ M_Subs.st_id v = s_id x) -> nx = v_next s ->
  let s' := mkV (v_log s) (aput (v_conns s) c k') l (v_tasks s) nx (v_nsub s) in swf s' /\ local c s s'.
Proof.
  intros [W1 W2] Hk Hk' Hst Hl Hout -> s'. split.
  - constructor; cbn [v_subs v_nsub v_conns s']; [intros x Hx; apply W1, Hl, Hx|].
    intros c' k2 q v E Hi. rewrite aget_aput in E. destruct (N.eqb_spec c' c) as [->|].
    + injection E as <-. destruct (Hst _ _ Hi) as (v0 & H0 & Ev). destruct (W2 _ _ _ _ Hk H0) as [A B]. rewrite Ev. split; [exact A|].
      intros x Hx. apply B, Hl, Hx.
    + destruct (W2 _ _ _ _ E Hi) as [A B]. split; [exact A|]. intros x Hx. apply B, Hl, Hx.
  - split; [|split; [|split; [|reflexivity]]]; cbn [v_subs v_conns s'].
    + intros q Hq. rewrite aget_aput. destruct (N.eqb_spec q c); [contradiction|reflexivity].
    + intros x Hx. left. apply Hl, Hx.
    + intros x Hx Hc. destruct (in_dec subn_dec x l) as [|Hn]; [assumption|].
      destruct (Hout _ Hx Hn) as (q & v & Hi & Ev). exfalso. apply Hc. exact (proj2 (W2 _ _ _ _ Hk Hi) _ Hx (eq_sym Ev)).
Qed.
Lemma filter_out {A} (f : A -> bool) l x : In x l -> ~ In x (filter f l) -> f x = false.
Proof. intros H Hn. destruct (f x) eqn:E; [|reflexivity]. exfalso. apply Hn. now apply filter_In. Qed.

Lemma unsub_one_wf E s c id x s1 : swf s -> unsub_one E s c id x = Some s1 -> swf s1 /\ local c s s1 /\ v_nsub s1 = v_nsub s.
Proof.
  intros W H. unfold unsub_one in H.
  assert (Kp : keeps s s1 -> swf s1 /\ local c s s1 /\ v_nsub s1 = v_nsub s).
  { intros K. split; [exact (wf_keeps _ _ K W)|]. split; [now apply local_keeps|]. apply K. }
  destruct (aget (v_conns s) c) as [k|] eqn:Hk; [|injection H as <-; apply Kp, keeps_refl].
  destruct (check_sub k x) as [|e|t|t] eqn:Hc; try discriminate; [apply Kp, (keeps_say _ _ _ _ H)|].
  destruct (k_client k) as [cl|] eqn:Hcl; [|discriminate].
  destruct (M_Subs.decrement (k_subs k) (st_key t)) as [st [last sid]] eqn:Hi.
  assert (G : forall l, incl l (v_subs s) -> (forall x, In x (v_subs s) -> ~ In x l -> exists q v, In (q, v) (k_subs k) /\ M_Subs.st_id v = s_id x) ->
    let s' := mkV (v_log s) (aput (v_conns s) c (set_subs st k)) l (v_tasks s) (v_next s) (v_nsub s) in swf s' /\ local c s s' /\ v_nsub s' = v_nsub s).
  { intros l H1 H2 s'. destruct (fewer_wf s c k (set_subs st k) st l (v_next s) W Hk (or_introl eq_refl)) as [A B]; auto.
    intros q v Hq. exact (decrement_in _ _ _ _ Hi _ _ Hq). }
  assert (Gs : forall x : subn, In x (v_subs s) -> ~ In x (v_subs s) -> exists q v, In (q, v) (k_subs k) /\ M_Subs.st_id v = s_id x) by (intros z A B; contradiction).
  destruct last; [destruct sid as [sid|]|]; injection H as <-; try (apply (G (v_subs s)); [easy|exact Gs]).
  apply G; [apply incl_filter|]. intros z Hz Hn. pose proof (filter_out _ _ _ Hz Hn) as F. cbv beta in F.
  destruct (decrement_id _ _ _ _ _ Hi) as (st0 & G1 & G2 & _). exists (st_key t), st0. split; [exact (st_get_in _ _ _ G1)|].
  destruct ((s_contract z =? id_contract cl) && M_Subs.beq (s_id z) sid) eqn:F2; [|discriminate].
  apply Bool.andb_true_iff in F2. destruct F2 as [_ F2]. apply beq_eq in F2. congruence.
Qed.

Lemma close_wf s c s1 : swf s -> close_conn s c = Some s1 -> swf s1 /\ local c s s1 /\ v_nsub s1 = v_nsub s.
Proof.
  intros W H. unfold close_conn in H.
  assert (Kp : keeps s s1 -> swf s1 /\ local c s s1 /\ v_nsub s1 = v_nsub s).
  { intros K. split; [exact (wf_keeps _ _ K W)|]. split; [now apply local_keeps|]. apply K. }
  destruct (aget (v_conns s) c) as [k|] eqn:Hk; [|injection H as <-; apply Kp, keeps_refl].
  destruct (k_open k) eqn:Ho; cbn [negb] in H; [|injection H as <-; apply Kp, keeps_refl].
  assert (G : forall l, incl l (v_subs s) -> (forall x, In x (v_subs s) -> ~ In x l -> exists q v, In (q, v) (k_subs k) /\ M_Subs.st_id v = s_id x) ->
    let s' := mkV (v_log s) (aput (v_conns s) c (set_closed k)) l (v_tasks s) (v_next s) (v_nsub s) in swf s' /\ local c s s' /\ v_nsub s' = v_nsub s).
  { intros l H1 H2 s'. destruct (fewer_wf s c k (set_closed k) [] l (v_next s) W Hk (or_intror eq_refl)) as [A B]; auto.
    intros q v Hq. exists v. split; [exact Hq|reflexivity]. }
  destruct (k_subs k) as [|e r] eqn:Hs.
  - injection H as <-. apply (G (v_subs s)); [easy|intros z A B; contradiction].
  - destruct (k_client k) as [cl|]; [|discriminate]. injection H as <-. rewrite <- Hs in G.
    apply G; [apply incl_filter|]. intros z Hz Hn. pose proof (filter_out _ _ _ Hz Hn) as F. cbv beta in F.
    change (negb ((s_contract z =? id_contract cl) && existsb (fun e0 => M_Subs.beq (M_Subs.st_id (snd e0)) (s_id z)) (e :: r)) = false) in F.
    apply Bool.negb_false_iff, Bool.andb_true_iff in F. destruct F as [_ F2]. apply existsb_exists in F2. destruct F2 as ([q v] & Hv & F2).
    apply beq_eq in F2. exists q, v. rewrite Hs. auto.
Qed.

(** ** Steps *)
Lemma each_local {T} (f : server -> T -> option server) c (d : N) :
  (forall s x s1, swf s -> v_nsub s + d < 2 ^ 64 -> f s x = Some s1 -> swf s1 /\ local c s s1 /\ v_nsub s1 <= v_nsub s + d) ->
  forall l s s1, swf s -> v_nsub s + d * N.of_nat (length l) < 2 ^ 64 -> each f s c l = Some s1 -> swf s1 /\ local c s s1 /\ v_nsub s1 <= v_nsub s + d * N.of_nat (length l).
Proof.
  intros Hf. induction l as [|x r IH]; intros s s1 W Hn H; cbn [each] in H.
  - injection H as <-. split; [exact W|]. split; [apply local_keeps, keeps_refl|]. lia.
  - destruct (is_stuck s c); [injection H as <-; split; [exact W|]; split; [apply local_keeps, keeps_refl|lia]|].
    destruct (f s x) as [s2|] eqn:F; [|discriminate]. cbn [length] in *. rewrite Nat2N.inj_succ, N.mul_succ_r in *.
    destruct (Hf _ _ _ W ltac:(lia) F) as (A & B & C). destruct (IH _ _ A ltac:(lia) H) as (A' & B' & C').
    split; [exact A'|]. split; [eapply local_trans; eassumption|]. lia.
Qed.
Lemma each_incl E c id : forall l s s1, swf s -> v_nsub s + N.of_nat (length l) < 2 ^ 64 -> each (fun s x => sub_one E s c id x) s c l = Some s1 ->
  incl (v_subs s) (v_subs s1).
Proof.
  induction l as [|x r IH]; intros s s1 W Hn H; cbn [each] in H; [injection H as <-; easy|].
  destruct (is_stuck s c); [injection H as <-; easy|]. destruct (sub_one E s c id x) as [s2|] eqn:F; [|discriminate].
  cbn [length] in *. rewrite Nat2N.inj_succ in *. destruct (sub_one_wf _ _ _ _ _ _ W ltac:(lia) F) as (A & B & C & D).
  intros z Hz. apply (IH _ _ A ltac:(lia) H), C, Hz.
Qed.

Lemma keeps_connect E s c id t ins clean key s1 : on_connect_msg E s c (CAccepted id t) ins clean key = Some s1 ->
  v_subs s1 = v_subs s /\ v_nsub s1 = v_nsub s /\ v_next s1 = v_next s /\
  (forall q, q <> c -> option_map face (aget (v_conns s1) q) = option_map face (aget (v_conns s) q)) /\
  option_map face (aget (v_conns s1) c) = option_map (fun k => (k_subs k, k_open k, Some id)) (aget (v_conns s) c).
Proof.
  unfold on_connect_msg. intros H.
  set (s0 := put_out (on_conn s c (set_insecure ins)) c (KCtl tCONNECT fACK 0)) in *.
  assert (K0 : keeps s s0) by (eapply keeps_trans; [|apply keeps_out]; now apply keeps_on).
  assert (K1 : keeps (on_conn s0 c (set_client id)) s1).
  { destruct (aget (v_conns (on_conn s0 c (set_client id))) c) as [k|]; [|injection H as <-; apply keeps_refl].
    destruct (m_hung (k_ids k)); [injection H as <-; now apply keeps_on|]. cbv zeta in H.
    match type of H with match match sess_get ?E ?L ?K with _ => _ end with _ => _ end = _ => destruct (sess_get E L K) as [[old|]|] eqn:F end; try discriminate.
    - destruct (session_key id key =? epoch32 id)%Z; injection H as <-.
      + eapply keeps_trans; [|apply keeps_log]. eapply keeps_trans; [|now apply keeps_on].
        eapply keeps_trans; [|destruct clean; [apply keeps_log|apply keeps_resume]]. now apply keeps_on.
      + eapply keeps_trans; [|apply keeps_log]. eapply keeps_trans; [|apply keeps_log]. eapply keeps_trans; [|now apply keeps_on].
        eapply keeps_trans; [|destruct clean; [apply keeps_log|apply keeps_resume]]. now apply keeps_on.
    - destruct (session_key id key =? epoch32 id)%Z; injection H as <-.
      + eapply keeps_trans; [|apply keeps_log]. now apply keeps_on.
      + eapply keeps_trans; [|apply keeps_log]. eapply keeps_trans; [|apply keeps_log]. now apply keeps_on. }
  clear H. destruct K0 as (A & B & C & D), K1 as (A' & B' & C' & D').
  assert (X : v_subs (on_conn s0 c (set_client id)) = v_subs s0 /\ v_nsub (on_conn s0 c (set_client id)) = v_nsub s0 /\ v_next (on_conn s0 c (set_client id)) = v_next s0)
    by (unfold on_conn; destruct (aget (v_conns s0) c); auto). destruct X as (X1 & X2 & X3).
  split; [congruence|]. split; [congruence|]. split; [congruence|]. split.
  - intros q Hq. rewrite D', get_on. destruct (N.eqb_spec q c); [contradiction|apply D].
  - rewrite D', get_on, N.eqb_refl. specialize (D c). destruct (aget (v_conns s0) c) as [k|], (aget (v_conns s) c) as [k0|]; try discriminate; [|reflexivity].
    cbn [option_map] in *. assert (Hf : face k = face k0) by congruence. apply face_subs in Hf. destruct Hf as (F1 & F2 & F3).
    unfold face. cbn [set_client k_subs k_open k_client]. now rewrite F1, F2.
Qed.
Lemma wf_connect s s1 : swf s -> v_subs s1 = v_subs s -> v_nsub s1 = v_nsub s ->
  (forall q k, aget (v_conns s1) q = Some k -> exists k0, aget (v_conns s) q = Some k0 /\ k_subs k = k_subs k0) -> swf s1.
Proof.
  intros [W1 W2] A B D. constructor.
  - rewrite A, B. exact W1.
  - intros q k ky st E Hi. destruct (D _ _ E) as (k0 & E0 & F). rewrite A, B. rewrite F in Hi. exact (W2 _ _ _ _ E0 Hi).
Qed.

(** Who acts in an event. *)
Definition acts (ev : event) (c : N) : Prop := match ev with EPacket c' _ => c' = c | ELost c' => c' = c | _ => False end.
Definition is_accept (ev : event) : Prop := match ev with EAccept => True | _ => False end.
Definition is_restart (ev : event) : Prop := match ev with ERestart _ => True | _ => False end.

Lemma handle_wf E s c q s1 : swf s -> v_nsub s + asked_subs (EPacket c q) < 2 ^ 64 -> handle E s c q = Some s1 ->
  swf s1 /\ local c s s1 /\ v_nsub s1 <= v_nsub s + asked_subs (EPacket c q) /\ (ends c (EPacket c q) = false -> incl (v_subs s) (v_subs s1)).
Proof.
  intros W Hn H.
  assert (Kp : forall a, keeps s a -> swf a /\ local c s a /\ v_nsub a <= v_nsub s + asked_subs (EPacket c q) /\ (ends c (EPacket c q) = false -> incl (v_subs s) (v_subs a))).
  { intros a K. split; [exact (wf_keeps _ _ K W)|]. split; [now apply local_keeps|]. destruct K as (A & B & _). rewrite A, B. split; [lia|easy]. }
  destruct q as [who ins clean key|l id|l id|p|l id| |ty flow id]; cbn [handle] in H.
  - destruct who as [|idn b|idn]; [discriminate| |].
    + destruct (keeps_connect _ _ _ _ _ _ _ _ _ H) as (A & B & C & D & D').
      assert (G : forall q k, aget (v_conns s1) q = Some k -> exists k0, aget (v_conns s) q = Some k0 /\ k_subs k = k_subs k0).
      { intros q k Eq. destruct (N.eq_dec q c) as [->|Hq].
        - rewrite Eq in D'. destruct (aget (v_conns s) c) as [k0|]; [|discriminate]. exists k0. split; [reflexivity|].
          cbn [option_map] in D'. unfold face in D'. congruence.
        - specialize (D q Hq). rewrite Eq in D. destruct (aget (v_conns s) q) as [k0|]; [|discriminate]. exists k0. split; [reflexivity|].
          cbn [option_map] in D. unfold face in D. congruence. }
      pose proof (wf_connect _ _ W A B G) as W'. split; [exact W'|]. split; [|rewrite A, B; split; [lia|easy]].
      split; [exact D|]. rewrite A. auto.
    + unfold on_connect_msg in H. destruct (say _ c _) as [s2|] eqn:F; [|discriminate].
      assert (K : keeps s s2).
      { eapply keeps_trans; [|exact (keeps_say _ _ _ _ F)]. eapply keeps_trans; [|apply keeps_out]. now apply keeps_on. }
      destruct (is_stuck s2 c); [injection H as <-; now apply Kp|].
      destruct (close_wf _ _ _ (wf_keeps _ _ K W) H) as (A & B & C). split; [exact A|].
      split; [eapply local_trans; [apply local_keeps; exact K|exact B]|]. destruct K as (_ & K & _). split; [lia|].
      cbn [ends]. rewrite N.eqb_refl. discriminate.
  - destruct (each _ s c l) as [s2|] eqn:F; [|discriminate]. injection H as <-. cbn [asked_subs] in *.
    destruct (each_local (fun s x => sub_one E s c id x) c 1 ltac:(intros a x b Wa Ha Hs; destruct (sub_one_wf _ _ _ _ _ _ Wa Ha Hs) as (X & Y & _ & Z); auto) l s s2 W ltac:(lia) F) as (A & B & C).
    pose proof (each_incl _ _ _ _ _ _ W Hn F) as D. pose proof (keeps_ack s2 c (KCtl tSUBSCRIBE fACK id)) as K.
    split; [exact (wf_keeps _ _ K A)|]. split; [eapply local_trans; [exact B|apply local_keeps; exact K]|].
    destruct K as (K1 & K2 & _). rewrite K1, K2. split; [lia|]. intros _. exact D.
  - destruct (each _ s c l) as [s2|] eqn:F; [|discriminate]. injection H as <-. cbn [asked_subs] in *.
    destruct (each_local (fun s x => unsub_one E s c id x) c 0 ltac:(intros a x b Wa Ha Hs; destruct (unsub_one_wf _ _ _ _ _ _ Wa Hs) as (X & Y & Z); rewrite Z; auto using N.le_add_r) l s s2 W ltac:(lia) F) as (A & B & C).
    pose proof (keeps_ack s2 c (KCtl tUNSUBSCRIBE fACK id)) as K.
    split; [exact (wf_keeps _ _ K A)|]. split; [eapply local_trans; [exact B|apply local_keeps; exact K]|].
    destruct K as (K1 & K2 & _). split; [lia|]. cbn [ends]. rewrite N.eqb_refl. discriminate.
  - destruct (pub_msgs E s c p (p_msgs p)) as [[s2 b]|] eqn:F; [|discriminate]. injection H as <-. cbn [fst snd].
    pose proof (keeps_pub _ _ _ _ _ _ _ F) as K. destruct b; [|now apply Kp]. apply Kp. eapply keeps_trans; [exact K|apply keeps_ack].
  - destruct (each _ s c l) as [s2|] eqn:F; [|discriminate]. injection H as <-. apply Kp.
    eapply keeps_trans; [|apply keeps_ack]. revert F. apply keeps_each. intros a x b. apply keeps_relay_one.
  - injection H as <-. apply Kp, keeps_ack.
  - unfold on_flow in H. destruct (aget (v_conns s) c) as [k|] eqn:Hk; [|injection H as <-; apply Kp, keeps_refl]. cbv zeta in H.
    set (s2 := if match k_client k with Some _ => true | None => false end then persist_in s (k_sess k) (KCtl ty flow id) else s) in *.
    assert (K : keeps s s2) by (unfold s2; destruct (k_client k); [apply (keeps_persist_in s (k_sess k) (KCtl ty flow id))|apply keeps_refl]). clearbody s2.
    destruct (flow =? fRECEIVE) eqn:Hf.
    + destruct (log_get E (v_log s2) _) as [[p|ty' f' i']|].
      * injection H as <-. apply Kp. eapply keeps_trans; [exact K|apply keeps_out].
      * injection H as <-. now apply Kp.
      * destruct (close_wf _ _ _ (wf_keeps _ _ K W) H) as (A & B & C). split; [exact A|].
        split; [eapply local_trans; [apply local_keeps; exact K|exact B]|]. destruct K as (_ & K & _). split; [lia|].
        cbn [ends]. rewrite N.eqb_refl, Hf. discriminate.
    + destruct (flow =? fRECEIPT); injection H as <-; [|now apply Kp]. apply Kp. eapply keeps_trans; [exact K|].
      eapply keeps_trans; [|apply keeps_out]. destruct (k_client k); [apply (keeps_persist s2 (k_sess k) (KCtl tPUBLISH fCOMPLETE id))|apply keeps_refl].
Qed.

Lemma keeps_run E s i s1 : step E s (ERun i) = Some s1 -> keeps s s1.
Proof.
  cbn [step]. destruct (nth_error (v_tasks s) i) as [t|]; [|intros [= <-]; apply keeps_refl].
  destruct (run_task E s t) as [[s2 r]|] eqn:F; [|discriminate]. intros [= <-].
  eapply keeps_trans; [exact (keeps_task _ _ _ _ _ F)|apply keeps_tasks].
Qed.
Lemma step_wf E s ev s1 : swf s -> v_nsub s + asked_subs ev < 2 ^ 64 -> step E s ev = Some s1 ->
  swf s1 /\ v_nsub s1 <= v_nsub s + asked_subs ev /\ (forall x, In x (v_subs s) -> ends (s_conn x) ev = false -> In x (v_subs s1)).
Proof.
  intros W Hn H.
  assert (Kp : forall a, keeps s a -> swf a /\ v_nsub a <= v_nsub s + asked_subs ev /\ (forall x, In x (v_subs s) -> ends (s_conn x) ev = false -> In x (v_subs a))).
  { intros a K. split; [exact (wf_keeps _ _ K W)|]. destruct K as (A & B & _). rewrite A, B. split; [lia|auto]. }
  destruct ev as [|c q|i|c|c|n].
  - cbn [step] in H. injection H as <-. destruct W as [W1 W2]. cbn [asked_subs]. split; [|split; [cbn [v_nsub]; lia|auto]].
    constructor; cbn [v_subs v_nsub v_conns]; [exact W1|]. intros c k ky st. rewrite aget_aput.
    destruct (c =? u32 (v_next s + 1)); [|now apply W2]. intros [= <-]. contradiction.
  - cbn [step] in H. destruct (aget (v_conns s) c) as [k|] eqn:Hk; [|injection H as <-; apply Kp, keeps_refl].
    destruct (k_open k && negb (k_stuck k)); [|injection H as <-; apply Kp, keeps_refl].
    destruct (handle_wf _ _ _ _ _ W Hn H) as (A & (_ & _ & B & _) & C & D). split; [exact A|]. split; [exact C|].
    intros x Hx He. destruct (N.eq_dec (s_conn x) c) as [Ec|Ec]; [|now apply B]. rewrite Ec in He. apply D; auto.
  - apply Kp. exact (keeps_run _ _ _ _ H).
  - cbn [step] in H. injection H as <-. apply Kp, keeps_send_batch.
  - cbn [step] in H. destruct (close_wf _ _ _ W H) as (A & (_ & _ & B & _) & C). split; [exact A|]. split; [lia|].
    intros x Hx He. apply B; [exact Hx|]. cbn [ends] in He. intros Ec. rewrite Ec, N.eqb_refl in He. discriminate.
  - cbn [step] in H. injection H as <-. destruct W as [W1 W2]. cbn [asked_subs]. split; [|split; [cbn [v_nsub]; lia|auto]].
    constructor; cbn [v_subs v_nsub v_conns]; [exact W1|]. discriminate.
Qed.
Lemma run_wf E : forall es s s1, swf s -> v_nsub s + asked_all es < 2 ^ 64 -> run E s es = Some s1 ->
  swf s1 /\ v_nsub s1 <= v_nsub s + asked_all es /\ (forall x, In x (v_subs s) -> Forall (fun ev => ends (s_conn x) ev = false) es -> In x (v_subs s1)).
Proof.
  induction es as [|ev es IH]; intros s s1 W Hn H; cbn [run] in H; [injection H as <-; split; [exact W|]; cbn [asked_all fold_right]; split; [lia|auto]|].
  destruct (step E s ev) as [s2|] eqn:F; [|discriminate]. change (asked_all (ev :: es)) with (asked_subs ev + asked_all es) in *.
  destruct (step_wf E s ev s2 W ltac:(lia) F) as (A & B & C). destruct (IH s2 s1 A ltac:(lia) H) as (A' & B' & C').
  split; [exact A'|]. split; [lia|]. intros x Hx Hf. inversion Hf; subst. apply C'; auto.
Qed.
Lemma wf_new n : swf (server_new n).
Proof. constructor; cbn; [contradiction|discriminate]. Qed.
Lemma asked_app a b : asked_all (a ++ b) = asked_all a + asked_all b.
Proof. induction a as [|e a IH]; [reflexivity|]. change (asked_all ((e :: a) ++ b)) with (asked_subs e + asked_all (a ++ b)). rewrite IH. change (asked_all (e :: a)) with (asked_subs e + asked_all a). lia. Qed.

Lemma sub_lasts E n es1 es2 s s' x :
  run E (server_new n) es1 = Some s -> asked_all (es1 ++ es2) < 2 ^ 64 -> run E s es2 = Some s' ->
  In x (v_subs s) -> Forall (fun ev => ends (s_conn x) ev = false) es2 -> In x (v_subs s').
Proof.
  intros H1 Hn H2 Hx Hf. rewrite asked_app in Hn. destruct (run_wf E es1 _ s (wf_new n) ltac:(cbn [server_new v_nsub]; lia) H1) as (A & B & _).
  cbn [server_new v_nsub] in B. destruct (run_wf E es2 s s' A ltac:(lia) H2) as (_ & _ & C). auto.
Qed.

(** ** The subscriptions of one connection *)
Definition own (c kc : N) (b : bool) (s : server) : Prop := exists k,
  aget (v_conns s) c = Some k /\ k_open k = b /\ (forall id, k_client k = Some id -> id_contract id = kc) /\
  (forall q st, M_Subs.st_get (k_subs k) q = Some st -> (1 <= M_Subs.st_counter st)%Z) /\
  forall x, In x (v_subs s) -> s_conn x = c -> b = true /\ s_contract x = kc /\ exists q st, M_Subs.st_get (k_subs k) q = Some st /\ M_Subs.st_id st = s_id x.
Lemma own_same c kc b s s' : option_map face (aget (v_conns s') c) = option_map face (aget (v_conns s) c) ->
  (forall x, In x (v_subs s') -> s_conn x = c -> In x (v_subs s)) -> own c kc b s -> own c kc b s'.
Proof.
  intros D Hs (k & A & B & C & F & G). rewrite A in D. destruct (aget (v_conns s') c) as [k'|] eqn:E; [|discriminate].
  cbn [option_map] in D. assert (Hf : face k' = face k) by congruence. apply face_subs in Hf. destruct Hf as (F1 & F2 & F3).
  exists k'. rewrite F1, F2, F3. repeat (split; [assumption|]). intros x Hx Hc. apply G; auto.
Qed.
Lemma own_keeps c kc b s s' : keeps s s' -> own c kc b s -> own c kc b s'.
Proof. intros (A & _ & _ & D). apply own_same; [apply D|]. now rewrite A. Qed.
Lemma own_local c c' kc b s s' : c' <> c -> local c' s s' -> own c kc b s -> own c kc b s'.
Proof.
  intros Hc (A & B & _). apply own_same; [apply A; congruence|]. intros x Hx Ex. destruct (B _ Hx) as [|]; [assumption|congruence].
Qed.
Lemma st_get_del s ky q : q <> ky -> M_Subs.st_get (M_Subs.st_del s ky) q = M_Subs.st_get s q.
Proof.
  intros Hn. induction s as [|[a v] r IH]; [reflexivity|]. unfold M_Subs.st_del in *. cbn [filter fst].
  destruct (M_Subs.beq a ky) eqn:F; cbn [negb].
  - apply beq_eq in F. subst a. cbn [M_Subs.st_get]. destruct (M_Subs.beq ky q) eqn:G; [apply beq_eq in G; congruence|exact IH].
  - cbn [M_Subs.st_get]. now rewrite IH.
Qed.
Lemma st_get_del_same s ky : M_Subs.st_get (M_Subs.st_del s ky) ky = None.
Proof.
  destruct (M_Subs.st_get (M_Subs.st_del s ky) ky) as [v|] eqn:E; [|reflexivity]. apply st_get_in, st_del_in in E. now destruct E.
Qed.
Lemma st_get_put s ky v q : M_Subs.st_get (M_Subs.st_put s ky v) q = if M_Subs.beq ky q then Some v else M_Subs.st_get s q.
Proof.
  unfold M_Subs.st_put. cbn [M_Subs.st_get]. destruct (M_Subs.beq ky q) eqn:F; [reflexivity|]. apply st_get_del. intros ->. rewrite beq_same in F. discriminate.
Qed.
Lemma sub_one_own E s c kc id x s1 : own c kc true s -> sub_one E s c id x = Some s1 -> own c kc true s1.
Proof.
  intros O H. destruct x as [[text mode] delay]. unfold sub_one in H.
  assert (Kp : keeps s s1 -> own c kc true s1) by (intros K; exact (own_keeps _ _ _ _ _ K O)).
  destruct O as (k & Hk & Ho & Hcl & Hct & Hown). rewrite Hk in H.
  destruct (check_sub k text) as [|e|t|t] eqn:Hc; try discriminate; [apply Kp, (keeps_say _ _ _ _ H)|].
  destruct (k_client k) as [cl|] eqn:Hcl'; [|discriminate].
  match type of H with match ?x with _ => _ end = _ => destruct x as [ky|] eqn:Hky; [|apply Kp, (keeps_say _ _ _ _ H)] end.
  destruct (M_Subs.increment (k_subs k) (st_name t) ky (le 8 (v_nsub s))) as [st first] eqn:Hi.
  unfold M_Subs.increment in Hi. set (st1 := M_Subs.mkStat _ _ _) in Hi.
  assert (S1 : st = M_Subs.st_put (k_subs k) ky st1) by exact (f_equal fst (eq_sym Hi)).
  assert (S2 : first = (M_Subs.st_counter st1 =? 1)%Z) by exact (f_equal snd (eq_sym Hi)). clear Hi. subst st first.
  set (y := mkSub (id_contract cl) (st_topic t) (u8 mode) c delay (le 8 (v_nsub s))) in *.
  assert (H1 : M_Subs.st_id st1 = match M_Subs.st_get (k_subs k) ky with Some v => M_Subs.st_id v | None => le 8 (v_nsub s) end)
    by (unfold st1; destruct (M_Subs.st_get (k_subs k) ky); reflexivity).
  assert (H2 : M_Subs.st_counter st1 = match M_Subs.st_get (k_subs k) ky with Some v => M_Subs.st_counter v + 1 | None => 1 end%Z)
    by (unfold st1; destruct (M_Subs.st_get (k_subs k) ky); reflexivity).
  clearbody st1.
  assert (Key : forall l, l = v_subs s \/ l = y :: v_subs s /\ (M_Subs.st_counter st1 =? 1)%Z = true ->
    own c kc true (mkV (v_log s) (aput (v_conns s) c (set_subs (M_Subs.st_put (k_subs k) ky st1) k)) l (v_tasks s) (v_next s) (v_nsub s + 1))).
  { intros l Hl. exists (set_subs (M_Subs.st_put (k_subs k) ky st1) k). cbn [v_conns v_subs set_subs k_open k_client k_subs].
    split; [rewrite aget_aput, N.eqb_refl; reflexivity|]. split; [exact Ho|]. split; [rewrite Hcl'; exact Hcl|]. split.
    - intros q v. rewrite st_get_put. destruct (M_Subs.beq ky q); [|apply Hct]. intros [= <-]. rewrite H2.
      destruct (M_Subs.st_get (k_subs k) ky) as [v|] eqn:G; [specialize (Hct _ _ G); lia|lia].
    - intros x Hx Hxc. split; [reflexivity|].
      assert (D : In x (v_subs s) \/ x = y /\ (M_Subs.st_counter st1 =? 1)%Z = true) by (destruct Hl as [->|[-> Hf]]; [auto|destruct Hx; auto]).
      destruct D as [Hx'|[-> Hf]].
      + destruct (Hown _ Hx' Hxc) as (_ & A & q & v & G & B). split; [exact A|]. exists q.
        destruct (M_Subs.beq ky q) eqn:F; rewrite st_get_put, F; [|eauto]. apply beq_eq in F. subst q. exists st1. split; [reflexivity|]. rewrite H1, G. exact B.
      + split; [apply Hcl; reflexivity|]. exists ky, st1. rewrite st_get_put, beq_same. split; [reflexivity|]. rewrite H1. cbn [s_id y].
        destruct (M_Subs.st_get (k_subs k) ky) as [v|] eqn:G; [|reflexivity]. specialize (Hct _ _ G). lia. }
  destruct (M_Subs.st_counter st1 =? 1)%Z eqn:Hf; [destruct (e_store E (st_topic t) [])|].
  - injection H as <-. apply (Key (y :: v_subs s)). auto.
  - eapply own_keeps; [exact (keeps_say _ _ _ _ H)|]. apply (Key (v_subs s)). auto.
  - injection H as <-. apply (Key (v_subs s)). auto.
Qed.

Lemma unsub_one_own E s c kc b id x s1 : own c kc b s -> unsub_one E s c id x = Some s1 -> own c kc b s1.
Proof.
  intros O H. unfold unsub_one in H.
  assert (Kp : keeps s s1 -> own c kc b s1) by (intros K; exact (own_keeps _ _ _ _ _ K O)).
  destruct O as (k & Hk & Ho & Hcl & Hct & Hown). rewrite Hk in H.
  destruct (check_sub k x) as [|e|t|t] eqn:Hc; try discriminate; [apply Kp, (keeps_say _ _ _ _ H)|].
  destruct (k_client k) as [cl|] eqn:Hcl'; [|discriminate]. specialize (Hcl _ eq_refl).
  unfold M_Subs.decrement in H. destruct (M_Subs.st_get (k_subs k) (st_key t)) as [st0|] eqn:G.
  - destruct (M_Subs.st_counter st0 - 1 <=? 0)%Z eqn:Hz; injection H as <-;
      exists (set_subs (if (M_Subs.st_counter st0 - 1 <=? 0)%Z then M_Subs.st_del (k_subs k) (st_key t)
                        else M_Subs.st_put (k_subs k) (st_key t) (M_Subs.mkStat (M_Subs.st_id st0) (M_Subs.st_topic st0) (M_Subs.st_counter st0 - 1))) k);
      rewrite Hz; cbn [set_conn v_conns v_subs set_subs k_open k_client k_subs];
      (split; [rewrite aget_aput, N.eqb_refl; reflexivity|]); (split; [exact Ho|]);
      (split; [intros cl' E'; rewrite Hcl' in E'; congruence|]); split.
    + intros q v Hq. apply (Hct q). destruct (M_Subs.beq (st_key t) q) eqn:F; [apply beq_eq in F; subst q; rewrite st_get_del_same in Hq; discriminate|].
      rewrite st_get_del in Hq; [exact Hq|]. intros ->. rewrite beq_same in F. discriminate.
    + intros z Hz' Hzc. apply filter_In in Hz'. destruct Hz' as [Hz' Hf]. destruct (Hown _ Hz' Hzc) as (A & B & q & v & C & D).
      split; [exact A|]. split; [exact B|]. exists q, v. split; [|exact D]. rewrite st_get_del; [exact C|]. intros ->.
      rewrite B, Hcl, N.eqb_refl in Hf. assert (v = st0) by congruence. subst v. rewrite D, beq_same in Hf. discriminate.
    + intros q v. rewrite st_get_put. destruct (M_Subs.beq (st_key t) q); [|apply Hct]. intros [= <-]. cbn [M_Subs.st_counter]. lia.
    + intros z Hz' Hzc. destruct (Hown _ Hz' Hzc) as (A & B & q & v & C & D). split; [exact A|]. split; [exact B|]. exists q.
      rewrite st_get_put. destruct (M_Subs.beq (st_key t) q) eqn:F; [|eauto]. apply beq_eq in F. subst q. eexists. split; [reflexivity|].
      cbn [M_Subs.st_id]. congruence.
  - injection H as <-. apply Kp. eapply keeps_set; [exact Hk|reflexivity].
Qed.

Lemma close_own s c kc b s1 : own c kc b s -> close_conn s c = Some s1 -> own c kc false s1.
Proof.
  intros (k & Hk & Ho & Hcl & Hct & Hown) H. unfold close_conn in H. rewrite Hk in H. rewrite Ho in H.
  destruct b; cbn [negb] in H; [|injection H as <-; exists k; split; [exact Hk|]; auto].
  assert (G : forall l, (forall x, In x l -> In x (v_subs s) /\ s_conn x <> c) ->
    own c kc false (mkV (v_log s) (aput (v_conns s) c (set_closed k)) l (v_tasks s) (v_next s) (v_nsub s))).
  { intros l Hl. exists (set_closed k). cbn [v_conns v_subs]. split; [rewrite aget_aput, N.eqb_refl; reflexivity|].
    split; [reflexivity|]. split; [exact Hcl|]. split; [exact Hct|]. intros x Hx Hc. destruct (Hl _ Hx). contradiction. }
  destruct (k_subs k) as [|e r] eqn:Hs.
  - injection H as <-. apply (G (v_subs s)). intros x Hx. split; [exact Hx|]. intros Hc. destruct (Hown _ Hx Hc) as (_ & _ & q & v & C & _). discriminate.
  - destruct (k_client k) as [cl|]; [|discriminate]. injection H as <-. specialize (Hcl _ eq_refl).
    apply G. intros x Hx. apply filter_In in Hx. destruct Hx as [Hx Hf]. split; [exact Hx|]. intros Hc.
    destruct (Hown _ Hx Hc) as (_ & B & q & v & C & D).
    assert (F : existsb (fun e0 => M_Subs.beq (M_Subs.st_id (snd e0)) (s_id x)) (e :: r) = true).
    { apply existsb_exists. exists (q, v). split; [exact (st_get_in _ _ _ C)|]. cbn [snd]. rewrite D. apply beq_same. }
    change (negb ((s_contract x =? id_contract cl) && existsb (fun e0 => M_Subs.beq (M_Subs.st_id (snd e0)) (s_id x)) (e :: r)) = true) in Hf.
    rewrite F, B, Hcl, N.eqb_refl in Hf. discriminate.
Qed.

Lemma each_own {T} (f : server -> T -> option server) c kc b : (forall s x s1, own c kc b s -> f s x = Some s1 -> own c kc b s1) ->
  forall l s s1, own c kc b s -> each f s c l = Some s1 -> own c kc b s1.
Proof.
  intros Hf. induction l as [|x r IH]; intros s s1 O H; cbn [each] in H; [now injection H as <-|].
  destruct (is_stuck s c); [now injection H as <-|]. destruct (f s x) as [s2|] eqn:F; [|discriminate]. exact (IH _ _ (Hf _ _ _ O F) H).
Qed.

Lemma handle_own E s c kc q s1 : own c kc true s -> one_contract c kc (EPacket c q) -> handle E s c q = Some s1 -> exists b, own c kc b s1.
Proof.
  intros O Hc H.
  assert (Kp : forall a, keeps s a -> exists b, own c kc b a) by (intros a K; exists true; exact (own_keeps _ _ _ _ _ K O)).
  destruct q as [who ins clean key|l id|l id|p|l id| |ty flow id]; cbn [handle] in H.
  - destruct who as [|idn ca|idn]; [discriminate| |].
    + destruct (keeps_connect _ _ _ _ _ _ _ _ _ H) as (A & _ & _ & _ & D'). destruct O as (k & Hk & Ho & Hcl & Hct & Hown).
      rewrite Hk in D'. destruct (aget (v_conns s1) c) as [k'|] eqn:Hk'; [|discriminate]. cbn [option_map] in D'. unfold face in D'.
      assert (F1 : k_subs k' = k_subs k) by congruence. assert (F2 : k_open k' = k_open k) by congruence. assert (F3 : k_client k' = Some idn) by congruence.
      exists true, k'. rewrite F1, F2, F3, A. split; [exact Hk'|]. split; [exact Ho|]. split; [|split; [exact Hct|exact Hown]].
      intros i [= <-]. exact (Hc eq_refl).
    + unfold on_connect_msg in H. destruct (say _ c _) as [s2|] eqn:F; [|discriminate].
      assert (K : keeps s s2).
      { eapply keeps_trans; [|exact (keeps_say _ _ _ _ F)]. eapply keeps_trans; [|apply keeps_out]. now apply keeps_on. }
      destruct (is_stuck s2 c); [injection H as <-; now apply Kp|].
      exists false. exact (close_own _ _ _ _ _ (own_keeps _ _ _ _ _ K O) H).
  - destruct (each _ s c l) as [s2|] eqn:F; [|discriminate]. injection H as <-. exists true.
    eapply own_keeps; [apply keeps_ack|]. refine (each_own _ c kc true _ _ _ _ O F). intros a x b. apply sub_one_own.
  - destruct (each _ s c l) as [s2|] eqn:F; [|discriminate]. injection H as <-. exists true.
    eapply own_keeps; [apply keeps_ack|]. refine (each_own _ c kc true _ _ _ _ O F). intros a x b. apply unsub_one_own.
  - destruct (pub_msgs E s c p (p_msgs p)) as [[s2 b]|] eqn:F; [|discriminate]. injection H as <-. cbn [fst snd].
    pose proof (keeps_pub _ _ _ _ _ _ _ F) as K. destruct b; [|now apply Kp]. apply Kp. eapply keeps_trans; [exact K|apply keeps_ack].
  - destruct (each _ s c l) as [s2|] eqn:F; [|discriminate]. injection H as <-. apply Kp.
    eapply keeps_trans; [|apply keeps_ack]. revert F. apply keeps_each. intros a x b. apply keeps_relay_one.
  - injection H as <-. apply Kp, keeps_ack.
  - unfold on_flow in H. destruct (aget (v_conns s) c) as [k|] eqn:Hk; [|injection H as <-; apply Kp, keeps_refl]. cbv zeta in H.
    set (s2 := if match k_client k with Some _ => true | None => false end then persist_in s (k_sess k) (KCtl ty flow id) else s) in *.
    assert (K : keeps s s2) by (unfold s2; destruct (k_client k); [apply (keeps_persist_in s (k_sess k) (KCtl ty flow id))|apply keeps_refl]). clearbody s2.
    destruct (flow =? fRECEIVE) eqn:Hf.
    + destruct (log_get E (v_log s2) _) as [[p|ty' f' i']|].
      * injection H as <-. apply Kp. eapply keeps_trans; [exact K|apply keeps_out].
      * injection H as <-. now apply Kp.
      * exists false. exact (close_own _ _ _ _ _ (own_keeps _ _ _ _ _ K O) H).
    + destruct (flow =? fRECEIPT); injection H as <-; [|now apply Kp]. apply Kp. eapply keeps_trans; [exact K|].
      eapply keeps_trans; [|apply keeps_out]. destruct (k_client k); [apply (keeps_persist s2 (k_sess k) (KCtl tPUBLISH fCOMPLETE id))|apply keeps_refl].
Qed.

Lemma close_next s c s1 : close_conn s c = Some s1 -> v_next s1 = v_next s.
Proof.
  unfold close_conn. destruct (aget (v_conns s) c) as [k|]; [|now intros [= <-]]. destruct (k_open k); cbn [negb]; [|now intros [= <-]].
  destruct (k_subs k); [now intros [= <-]|]. destruct (k_client k); [|discriminate]. now intros [= <-].
Qed.

(** One event: the connection is still there, with what it subscribed. *)
Lemma step_own E s ev s1 c kc : swf s -> v_nsub s + asked_subs ev < 2 ^ 64 -> step E s ev = Some s1 ->
  no_restart ev -> one_contract c kc ev -> (ev = EAccept -> u32 (v_next s + 1) <> c) ->
  (exists b, own c kc b s) -> (exists b, own c kc b s1) /\ v_next s1 = match ev with EAccept => u32 (v_next s + 1) | _ => v_next s end.
Proof.
  intros W Hn H Hr Hc Ha (b & O).
  assert (Kp : keeps s s1 -> (exists b, own c kc b s1) /\ v_next s1 = v_next s).
  { intros K. split; [exists b; exact (own_keeps _ _ _ _ _ K O)|apply K]. }
  destruct ev as [|c' q|i|c'|c'|n]; [| | | | |contradiction].
  - cbn [step] in H. injection H as <-. specialize (Ha eq_refl). split; [|reflexivity]. exists b.
    eapply own_same; [| |exact O]; [|now intros x]. cbn [v_conns]. rewrite aget_aput. destruct (N.eqb_spec c (u32 (v_next s + 1))); [congruence|reflexivity].
  - cbn [step] in H. destruct (aget (v_conns s) c') as [k|] eqn:Hk; [|injection H as <-; apply Kp, keeps_refl].
    destruct (k_open k && negb (k_stuck k)) eqn:Hop; [|injection H as <-; apply Kp, keeps_refl].
    destruct (handle_wf _ _ _ _ _ W Hn H) as (_ & L & _ & _). split; [|apply L].
    destruct (N.eq_dec c' c) as [->|Hne]; [|exists b; exact (own_local _ _ _ _ _ _ Hne L O)].
    assert (b = true) by (destruct O as (k0 & Hk0 & Ho & _); rewrite Hk in Hk0; injection Hk0 as <-; destruct (k_open k); [congruence|discriminate]).
    subst b. exact (handle_own _ _ _ _ _ _ O Hc H).
  - apply Kp. exact (keeps_run _ _ _ _ H).
  - cbn [step] in H. injection H as <-. apply Kp, keeps_send_batch.
  - cbn [step] in H. split; [|exact (close_next _ _ _ H)]. destruct (N.eq_dec c' c) as [->|Hne].
    + exists false. exact (close_own _ _ _ _ _ O H).
    + destruct (close_wf _ _ _ W H) as (_ & L & _). exists b. exact (own_local _ _ _ _ _ _ Hne L O).
Qed.
Lemma run_own E c kc : c < 2 ^ 32 -> forall es s s1 j, swf s -> v_nsub s + asked_all es < 2 ^ 64 -> run E s es = Some s1 ->
  Forall no_restart es -> Forall (one_contract c kc) es -> v_next s = u32 (c + j) -> j + accepts_all es < 2 ^ 32 - 1 ->
  (exists b, own c kc b s) -> swf s1 /\ exists b, own c kc b s1.
Proof.
  intros Hc32. induction es as [|ev es IH]; intros s s1 j W Hn H Hr Ho Hv Hj O; cbn [run] in H; [injection H as <-; auto|].
  destruct (step E s ev) as [s2|] eqn:F; [|discriminate]. change (asked_all (ev :: es)) with (asked_subs ev + asked_all es) in *.
  change (accepts_all (ev :: es)) with (accepts ev + accepts_all es) in Hj.
  inversion Hr; subst. inversion Ho; subst.
  destruct (step_wf E s ev s2 W ltac:(lia) F) as (A & B & _).
  destruct (step_own E s ev s2 c kc W ltac:(lia) F) as (O2 & Hv2); try assumption.
  { intros ->. rewrite Hv. cbn [accepts] in Hj. unfold u32. change (2 ^ 32) with 4294967296 in *. rewrite N.add_mod_idemp_l by lia. intros Ec.
    assert (M : (c + j + 1) / 4294967296 * 4294967296 + c = c + j + 1) by (pose proof (N.div_mod (c + j + 1) 4294967296 ltac:(lia)); lia).
    assert (N1 : (c + j + 1) / 4294967296 < 2) by (apply N.div_lt_upper_bound; lia). nia. }
  assert (Hv3 : exists j2, v_next s2 = u32 (c + j2) /\ j2 = j + accepts ev).
  { rewrite Hv2. destruct ev; cbn [accepts]; try (exists j; split; [exact Hv|lia]). exists (j + 1). split; [|reflexivity]. rewrite Hv. unfold u32. rewrite N.add_mod_idemp_l by lia. f_equal. lia. }
  destruct Hv3 as (j2 & Hv3 & ->). refine (IH s2 s1 (j + accepts ev) A _ H _ _ Hv3 _ O2); [lia|assumption|assumption|lia].
Qed.

Lemma lost_leaves_none E n es1 es s0 s' kc :
  run E (server_new n) es1 = Some s0 -> (forall x, In x (v_subs s0) -> s_conn x <> u32 (v_next s0 + 1)) ->
  Forall no_restart es -> Forall (one_contract (u32 (v_next s0 + 1)) kc) es -> accepts_all es < 2 ^ 32 - 1 -> asked_all (es1 ++ es) < 2 ^ 64 ->
  run E s0 (EAccept :: es ++ [ELost (u32 (v_next s0 + 1))]) = Some s' ->
  forall x, In x (v_subs s') -> s_conn x <> u32 (v_next s0 + 1).
Proof.
  intros H1 Hfresh Hr Ho Hacc Hn H. rewrite asked_app in Hn.
  destruct (run_wf E es1 _ s0 (wf_new n) ltac:(cbn [server_new v_nsub]; lia) H1) as (A & B & _). cbn [server_new v_nsub] in B.
  set (c := u32 (v_next s0 + 1)) in *. cbn [run] in H. destruct (step E s0 EAccept) as [s1|] eqn:F; [|discriminate].
  destruct (step_wf E s0 EAccept s1 A ltac:(cbn [asked_subs]; lia) F) as (A1 & B1 & _). cbn [asked_subs] in B1.
  cbn [step] in F. fold c in F.
  assert (Hc : c < 2 ^ 32) by (unfold c, u32; apply N.mod_lt; discriminate).
  assert (Hv : v_next s1 = u32 (c + 0)) by (injection F as <-; cbn [v_next]; rewrite N.add_0_r; unfold u32; now rewrite N.mod_small).
  assert (O : exists b, own c kc b s1).
  { exists true, (conn_new c). injection F as <-. cbn [v_conns v_subs]. split; [rewrite aget_aput, N.eqb_refl; reflexivity|].
    split; [reflexivity|]. split; [discriminate|]. split; [discriminate|]. intros x Hx Hxc. exfalso. exact (Hfresh _ Hx Hxc). }
  clearbody c. clear F.
  assert (G : forall l s, run E s (l ++ [ELost c]) = Some s' -> exists s2, run E s l = Some s2 /\ close_conn s2 c = Some s').
  { induction l as [|e l IH]; intros s; cbn [app run step].
    - destruct (close_conn s c) as [s2|] eqn:Ec; [|discriminate]. intros [= <-]. eauto.
    - destruct (step E s e); [apply IH|discriminate]. }
  destruct (G _ _ H) as (s2 & G1 & G2).
  destruct (run_own E c kc Hc es s1 s2 0 A1 ltac:(lia) G1 Hr Ho Hv ltac:(lia) O) as (_ & b & O2).
  destruct (close_own _ _ _ _ _ O2 G2) as (k & _ & _ & _ & _ & Hown). intros x Hx Ex. destruct (Hown _ Hx Ex) as (D & _). discriminate.
Qed.
(** What is stored is found by the goroutine of a publication. *)
Lemma sub_found E s x i c k id p t payload : In x (v_subs s) -> nth_error (v_tasks s) i = Some (TPub c p t payload) ->
  aget (v_conns s) c = Some k -> k_client k = Some id -> id_contract id = s_contract x -> e_match E (s_topic x) (st_topic t) = true ->
  exists s1 found, step E s (ERun i) = Some s1 /\ nth_error (v_tasks s1) i = Some (TLoop c p (mkPM (st_name t) payload) (p_id p) found) /\ In x found.
Proof.
  intros Hx Hi Hk Hcl Hc Hm. cbn [step]. rewrite Hi. cbn [run_task]. rewrite Hk, Hcl. do 2 eexists. split; [reflexivity|]. split.
  - cbn [set_tasks v_tasks]. rewrite nth_error_app2; rewrite firstn_length_le; try (apply Nat.lt_le_incl, nth_error_Some; congruence); [|lia].
    rewrite Nat.sub_diag. reflexivity.
  - apply filter_In. split; [exact Hx|]. now rewrite Hc, N.eqb_refl, Hm.
Qed.
Lemma lasts E n es1 es2 s s' x :
  run E (server_new n) es1 = Some s -> asked_all (es1 ++ es2) < 2 ^ 64 -> run E s es2 = Some s' ->
  In x (v_subs s) -> Forall (fun ev => ends (s_conn x) ev = false) es2 ->
  In x (v_subs s') /\
  forall i c k id p t payload, nth_error (v_tasks s') i = Some (TPub c p t payload) ->
  aget (v_conns s') c = Some k -> k_client k = Some id -> id_contract id = s_contract x -> e_match E (s_topic x) (st_topic t) = true ->
  exists s1 found, step E s' (ERun i) = Some s1 /\ nth_error (v_tasks s1) i = Some (TLoop c p (mkPM (st_name t) payload) (p_id p) found) /\ In x found.
Proof.
  intros H1 Hn H2 Hx Hf. pose proof (sub_lasts _ _ _ _ _ _ _ H1 Hn H2 Hx Hf) as Hx'. split; [exact Hx'|].
  intros. eapply sub_found; eassumption.
Qed.
