(** Proofs about the connections of the server: maps, decomposition of the
    handlers, C80, C82, C83. *)
From Coq Require Import Lia ZifyBool ZifyNat ZifyN.
From Verif Require Import M_Bytes M_Keys M_MsgIds M_Conn S_Conn.
From Verif Require M_Subs.
Open Scope N_scope.

(** ** Maps *)
Section AM.
  Context {A : Type}.
  Implicit Types l : list (N * A).
  Lemma aget_adel : forall l k q, aget (adel l k) q = if q =? k then None else aget l q.
  Proof.
    unfold adel. induction l as [|[a v] l IH]; intros k q; cbn [filter aget fst]; [now destruct (q =? k)|].
    destruct (a =? k) eqn:F; cbn [negb].
    - rewrite IH. destruct (q =? k) eqn:G; [reflexivity|]. destruct (a =? q) eqn:H; [lia|reflexivity].
    - cbn [aget]. destruct (a =? q) eqn:H; [destruct (q =? k) eqn:G; [lia|reflexivity]|apply IH].
  Qed.
  Lemma aget_aput : forall l k v q, aget (aput l k v) q = if q =? k then Some v else aget l q.
  Proof.
    intros l k v q. unfold aput. cbn [aget]. rewrite N.eqb_sym. destruct (q =? k) eqn:F; [reflexivity|].
    now rewrite aget_adel, F.
  Qed.
  Lemma aget_in : forall l k v, aget l k = Some v -> In k (map fst l).
  Proof. induction l as [|[a w] l IH]; cbn; intros k v; [discriminate|]. destruct (a =? k) eqn:F; [left; lia|right; eauto]. Qed.
  Lemma in_aget : forall l k, In k (map fst l) -> exists v, aget l k = Some v.
  Proof. induction l as [|[a w] l IH]; cbn; intros k H; [easy|]. destruct (a =? k) eqn:F; [eauto|]. apply IH. destruct H; [lia|auto]. Qed.
End AM.

(** ** Keys of the log *)
Lemma u32_lt : forall n, u32 n < 2 ^ 32.
Proof. intros. unfold u32. apply N.mod_lt. discriminate. Qed.
Lemma u32_small : forall n, n < 2 ^ 32 -> u32 n = n.
Proof. intros. unfold u32. now apply N.mod_small. Qed.
Lemma log_key_eq : forall id b, log_key id b = id * 2 ^ 32 + u32 b.
Proof. intros. unfold log_key. now rewrite N.shiftl_mul_pow2. Qed.
Lemma log_key_inj : forall i b j d, b < 2 ^ 32 -> d < 2 ^ 32 -> log_key i b = log_key j d -> i = j /\ b = d.
Proof.
  intros i b j d Hb Hd. rewrite !log_key_eq, !u32_small by assumption. intro H.
  change (2 ^ 32) with 4294967296 in *. lia.
Qed.
Lemma to_signed32 : forall v, v < 2 ^ 32 -> (- 2 ^ 31 <= to_signed 32 v < 2 ^ 31)%Z.
Proof.
  intros v H. unfold to_signed. change (2 ^ (32 - 1)) with 2147483648. change (2 ^ 32) with 4294967296 in H.
  change (2 ^ Z.of_N 32)%Z with 4294967296%Z. change (2 ^ 31)%Z with 2147483648%Z.
  destruct (v <? 2147483648) eqn:F; lia.
Qed.
Lemma to_unsigned32_lt : forall z, to_unsigned 32 z < 2 ^ 32.
Proof.
  intros. unfold to_unsigned. change (2 ^ Z.of_N 32)%Z with 4294967296%Z. change (2 ^ 32) with 4294967296.
  pose proof (Z.mod_pos_bound z 4294967296 ltac:(lia)). lia.
Qed.
Lemma i32_range : forall z, (- 2 ^ 31 <= i32 z < 2 ^ 31)%Z.
Proof. intros. unfold i32. apply to_signed32, to_unsigned32_lt. Qed.
Lemma session_key_range : forall id key, (- 2 ^ 31 <= session_key id key < 2 ^ 31)%Z.
Proof.
  intros. unfold session_key. destruct (i32 key =? 0)%Z; [|apply i32_range].
  unfold epoch32. apply to_signed32, u32_lt.
Qed.
Lemma sess_key_high : forall z, (- 2 ^ 31 <= z < 2 ^ 31)%Z ->
  sess_key z < 2 ^ 31 \/ 2 ^ 64 - 2 ^ 31 <= sess_key z < 2 ^ 64.
Proof.
  intros z. unfold sess_key, to_unsigned. change (2 ^ Z.of_N 64)%Z with 18446744073709551616%Z.
  change (2 ^ 31)%Z with 2147483648%Z. change (2 ^ 31) with 2147483648. change (2 ^ 64) with 18446744073709551616.
  intro H. destruct (Z_lt_ge_dec z 0).
  - right. replace (z mod 18446744073709551616)%Z with (z + 18446744073709551616)%Z; [lia|].
    apply Z.mod_unique with (q := (-1)%Z); lia.
  - left. rewrite Z.mod_small; lia.
Qed.
Lemma sess_key_apart : forall id block who key, 0 < id < 2 ^ 16 -> log_key id block <> sess_key (session_key who key).
Proof.
  intros id block who key H. pose proof (sess_key_high _ (session_key_range who key)) as [G|G];
    rewrite log_key_eq; pose proof (u32_lt block);
    change (2 ^ 16) with 65536 in *; change (2 ^ 31) with 2147483648 in *; change (2 ^ 32) with 4294967296 in *;
    change (2 ^ 64) with 18446744073709551616 in *; nia.
Qed.
Lemma log_key_epoch : forall id block e, 0 < id -> log_key id block <> u32 e.
Proof.
  intros id block e H. rewrite log_key_eq. pose proof (u32_lt e). change (2 ^ 32) with 4294967296 in *. nia.
Qed.
Lemma has_prefix_iff : forall b id d, b < 2 ^ 32 -> d < 2 ^ 32 -> has_prefix b (log_key id d) = true <-> b = d.
Proof.
  intros b id d Hb Hd. unfold has_prefix. change (2 ^ 32 - 1) with (N.ones 32). rewrite N.land_ones.
  rewrite log_key_eq, u32_small, N.add_comm, N.mod_add, N.mod_small by (try assumption; discriminate).
  apply N.eqb_eq.
Qed.

(** ** Small steps *)
Lemma get_set : forall s c k q, aget (v_conns (set_conn s c k)) q = if q =? c then Some k else aget (v_conns s) q.
Proof. intros. cbn. apply aget_aput. Qed.
Lemma get_on : forall s c f q, aget (v_conns (on_conn s c f)) q =
  if q =? c then option_map f (aget (v_conns s) c) else aget (v_conns s) q.
Proof.
  intros. unfold on_conn. destruct (aget (v_conns s) c) eqn:F; cbn [option_map].
  - apply get_set.
  - destruct (q =? c) eqn:G; [|reflexivity]. assert (q = c) by lia. subst q. exact F.
Qed.
Lemma on_log : forall s c f, v_log (on_conn s c f) = v_log s.
Proof. intros. unfold on_conn. now destruct (aget (v_conns s) c). Qed.
Lemma on_tasks : forall s c f, v_tasks (on_conn s c f) = v_tasks s.
Proof. intros. unfold on_conn. now destruct (aget (v_conns s) c). Qed.
Lemma on_vsubs : forall s c f, v_subs (on_conn s c f) = v_subs s.
Proof. intros. unfold on_conn. now destruct (aget (v_conns s) c). Qed.
Lemma put_out_log : forall s c pk, v_log (put_out s c pk) = v_log s.
Proof. intros. apply on_log. Qed.
Lemma put_out_tasks : forall s c pk, v_tasks (put_out s c pk) = v_tasks s.
Proof. intros. apply on_tasks. Qed.
Lemma persist_conns : forall s b pk, v_conns (persist_out s b pk) = v_conns s.
Proof. intros s b [p|ty f i]; cbn; [reflexivity|]. now destruct (f =? fCOMPLETE). Qed.
Lemma persist_tasks : forall s b pk, v_tasks (persist_out s b pk) = v_tasks s.
Proof. intros s b [p|ty f i]; cbn; [reflexivity|]. now destruct (f =? fCOMPLETE). Qed.
Lemma persist_vsubs : forall s b pk, v_subs (persist_out s b pk) = v_subs s.
Proof. intros s b [p|ty f i]; cbn; [reflexivity|]. now destruct (f =? fCOMPLETE). Qed.

(** ** What handling a packet of connection [c] comes to *)
Definition sub_from (k : conn) (c : N) (q : request) (x : subn) : Prop :=
  s_conn x = c /\ exists l i text mode delay t id, q = QSub l i /\ In (text, mode, delay) l /\
    k_client k = Some id /\ s_contract x = id_contract id /\
    on_subscribe (k_insecure k) (id_contract id) text = VAllowed t /\ s_topic x = st_topic t.

Inductive moves (E : env) (c : N) (q : request) : server -> server -> Prop :=
| mv_refl : forall s, moves E c q s s
| mv_trans : forall s1 s2 s3, moves E c q s1 s2 -> moves E c q s2 s3 -> moves E c q s1 s3
| mv_send : forall s mode delay m s1 r, send_message s c 0 mode delay m = Some (s1, r) ->
    from_server m \/ relayed [EPacket c q] c m -> moves E c q s s1
| mv_out : forall s ty flow id, moves E c q s (put_out s c (KCtl ty flow id))
| mv_stuck : forall s, moves E c q s (on_conn s c set_stuck)
| mv_subs : forall s k st subs n, aget (v_conns s) c = Some k -> k_client k <> None -> incl subs (v_subs s) ->
    moves E c q s (mkV (v_log s) (aput (v_conns s) c (set_subs st k)) subs (v_tasks s) (v_next s) n)
| mv_add : forall s k st n x, aget (v_conns s) c = Some k -> sub_from k c q x ->
    moves E c q s (mkV (v_log s) (aput (v_conns s) c (set_subs st k)) (x :: v_subs s) (v_tasks s) (v_next s) n)
| mv_task : forall s k id p m t, aget (v_conns s) c = Some k -> q = QPub p -> In m (p_msgs p) ->
    k_client k = Some id -> on_publish (k_insecure k) (id_contract id) (pm_topic m) = VAllowed t ->
    moves E c q s (set_tasks s (v_tasks s ++ [TPub c p t (pm_payload m)])).

Section MOVES.
  Variable E : env.
  Lemma say_moves : forall s c q m s1, say s c m = Some s1 -> from_server m -> moves E c q s s1.
  Proof.
    intros s c q m s1 H G. unfold say in H. destruct (send_message s c 0 0 0 m) as [[s2 [i|]]|] eqn:F; [| |discriminate];
      injection H as <-.
    - eapply mv_send; eauto.
    - eapply mv_trans; [eapply mv_send; eauto|apply mv_stuck].
  Qed.
  Lemma notify_moves : forall s c q e id s1, notify_error E s c e id = Some s1 -> moves E c q s s1.
  Proof. intros. eapply say_moves; [eassumption|]. eexists. reflexivity. Qed.

  Lemma relay_moves : forall l i text ms, In (text, ms) l -> forall ms' c topic s s1, incl ms' ms ->
    relay_all s c topic ms' = Some s1 -> moves E c (QRelay l i) s s1.
  Proof.
    intros l i text ms Hin. induction ms' as [|m r IH]; cbn; intros c topic s s1 Hi H.
    - injection H as <-. apply mv_refl.
    - destruct (send_message s c 0 2 0 (mkPM topic m)) as [[s2 [j|]]|] eqn:F; [| |discriminate].
      + eapply mv_trans; [eapply mv_send; [exact F|]|eapply IH; eauto].
        * right. exists l, i, text, ms. split; [now left|]. split; [assumption|]. apply Hi. now left.
        * intros x Hx. apply Hi. now right.
      + injection H as <-. eapply mv_trans; [eapply mv_send; [exact F|]|apply mv_stuck].
        right. exists l, i, text, ms. split; [now left|]. split; [assumption|]. apply Hi. now left.
  Qed.
  Lemma each_moves : forall A (f : server -> A -> option server) c q (l l' : list A),
    (forall s x s1, In x l -> f s x = Some s1 -> moves E c q s s1) -> incl l' l ->
    forall s s1, each f s c l' = Some s1 -> moves E c q s s1.
  Proof.
    intros A f c q l. induction l' as [|x r IH]; cbn; intros Hf Hi s s1 H.
    - injection H as <-. apply mv_refl.
    - destruct (is_stuck s c); [injection H as <-; apply mv_refl|].
      destruct (f s x) as [s2|] eqn:F; [|discriminate].
      eapply mv_trans; [eapply Hf; [|exact F]; apply Hi; now left|].
      eapply IH; eauto. intros y Hy. apply Hi. now right.
  Qed.
  Lemma ack_moves : forall s c q ty flow id, moves E c q s (ack s c (KCtl ty flow id)).
  Proof. intros. unfold ack. destruct (is_stuck s c); [apply mv_refl|apply mv_out]. Qed.

  Lemma sub_moves : forall l i s c x s1, In x l -> sub_one E s c i x = Some s1 -> moves E c (QSub l i) s s1.
  Proof.
    intros l i s c [[text mode] delay] s1 Hin H. unfold sub_one in H.
    destruct (aget (v_conns s) c) as [k|] eqn:Hk; [|injection H as <-; apply mv_refl].
    destruct (check_sub k text) as [|e|t|t] eqn:Hc; try discriminate.
    - eapply notify_moves; exact H.
    - destruct (k_client k) as [cl|] eqn:Hcl; [|discriminate].
      match type of H with match ?x with _ => _ end = _ => destruct x as [ky|] eqn:Hky; [|eapply notify_moves; exact H] end.
      destruct (M_Subs.increment (k_subs k) (st_name t) ky (le 8 (v_nsub s))) as [st first] eqn:Hi.
      destruct first.
      + destruct (e_store E (st_topic t) []) eqn:He.
        * injection H as <-. eapply mv_add; [exact Hk|]. split; [reflexivity|].
          exists l, i, text, mode, delay, t, cl. unfold check_sub in Hc. rewrite Hcl in Hc. auto 10.
        * eapply mv_trans; [|eapply notify_moves; exact H].
          eapply (mv_subs E c _ s k st (v_subs s)); [exact Hk|congruence|easy].
      + injection H as <-. eapply (mv_subs E c _ s k st (v_subs s)); [exact Hk|congruence|easy].
  Qed.
  Lemma incl_filter' : forall A (f : A -> bool) l, incl (filter f l) l.
  Proof. intros A f l x H. now apply filter_In in H. Qed.
  Lemma unsub_moves : forall q i s c x s1, unsub_one E s c i x = Some s1 -> moves E c q s s1.
  Proof.
    intros q i s c text s1 H. unfold unsub_one in H.
    destruct (aget (v_conns s) c) as [k|] eqn:Hk; [|injection H as <-; apply mv_refl].
    destruct (check_sub k text) as [|e|t|t] eqn:Hc; try discriminate.
    - eapply notify_moves; exact H.
    - destruct (k_client k) as [cl|] eqn:Hcl; [|discriminate].
      destruct (M_Subs.decrement (k_subs k) (st_key t)) as [st [last sid]] eqn:Hi.
      destruct last; [destruct sid as [sid|]|]; injection H as <-.
      + eapply (mv_subs E c _ s k st _ (v_nsub s)); [exact Hk|congruence|]. apply incl_filter'.
      + eapply (mv_subs E c _ s k st (v_subs s) (v_nsub s)); [exact Hk|congruence|easy].
      + eapply (mv_subs E c _ s k st (v_subs s) (v_nsub s)); [exact Hk|congruence|easy].
  Qed.
  Lemma relay_one_moves : forall l i s c x s1, In x l -> relay_one E s c i x = Some s1 -> moves E c (QRelay l i) s s1.
  Proof.
    intros l i s c [text ms] s1 Hin H. unfold relay_one in H. cbn [fst snd] in H.
    destruct (aget (v_conns s) c) as [k|] eqn:Hk; [|injection H as <-; apply mv_refl].
    destruct (check_sub k text) as [|e|t|t] eqn:Hc; try discriminate.
    - eapply notify_moves; exact H.
    - destruct (k_client k) as [cl|] eqn:Hcl; [|discriminate].
      eapply relay_moves; [exact Hin| |exact H]. easy.
  Qed.
  Lemma pub_moves : forall p l c s s1 b, incl l (p_msgs p) -> pub_msgs E s c p l = Some (s1, b) -> moves E c (QPub p) s s1.
  Proof.
    intros p. induction l as [|m r IH]; cbn; intros c s s1 b Hi H.
    - injection H as <- <-. apply mv_refl.
    - assert (Hm : In m (p_msgs p)) by (apply Hi; now left).
      assert (Hr : incl r (p_msgs p)) by (intros x Hx; apply Hi; now right).
      destruct (aget (v_conns s) c) as [k|] eqn:Hk; [|injection H as <- <-; apply mv_refl].
      destruct (check_pub k (pm_topic m)) as [|e|t|t] eqn:Hc.
      + destruct (k_client k); discriminate.
      + destruct (notify_error E s c e (p_id p)) as [s2|] eqn:F; [|discriminate]. injection H as <- <-.
        eapply notify_moves; exact F.
      + assert (G : option_map (fun s1 => (s1, false)) (say s c (mkPM (tUnitdb ++ st_name t) (e_reply E t (pm_payload m)))) = Some (s1, b)).
        { destruct (k_client k); [exact H|]. destruct (special_nil E t (pm_payload m)); [discriminate|exact H]. }
        clear H. rename G into H.
        destruct (say s c (mkPM (tUnitdb ++ st_name t) (e_reply E t (pm_payload m)))) as [s2|] eqn:F; [|discriminate].
        injection H as <- <-. eapply say_moves; [exact F|]. eexists. reflexivity.
      + destruct (k_client k) as [cl|] eqn:Hcl; [|discriminate].
        destruct (e_store E (st_topic t) (pm_payload m)).
        * eapply mv_trans; [|eapply IH; [exact Hr|exact H]].
          eapply mv_task; try eassumption; try reflexivity. unfold check_pub in Hc. now rewrite Hcl in Hc.
        * destruct (notify_error E s c ErrForbidden (p_id p)) as [s2|] eqn:F; [|discriminate]. injection H as <- <-.
          eapply notify_moves; exact F.
  Qed.
  Definition simple_request (q : request) : Prop :=
    match q with QConnect _ _ _ _ | QFlow _ _ _ => False | _ => True end.
  Lemma handle_moves : forall s c q s1, simple_request q -> handle E s c q = Some s1 -> moves E c q s s1.
  Proof.
    intros s c q s1 Hs H. destruct q as [who ins cl key|l id|l id|p|l id| |ty flow id]; try contradiction Hs; cbn in H.
    - destruct (each _ s c l) as [s2|] eqn:F; [|discriminate]. injection H as <-.
      eapply mv_trans; [|apply ack_moves]. eapply (each_moves _ _ _ _ l l); [|easy|exact F].
      intros s0 x s3 Hx. now apply sub_moves.
    - destruct (each _ s c l) as [s2|] eqn:F; [|discriminate]. injection H as <-.
      eapply mv_trans; [|apply ack_moves]. eapply (each_moves _ _ _ _ l l); [|easy|exact F].
      intros s0 x s3 Hx. now apply unsub_moves.
    - destruct (pub_msgs E s c p (p_msgs p)) as [[s2 b]|] eqn:F; [|discriminate]. cbn in H. injection H as <-.
      apply pub_moves in F; [|easy]. destruct b; [|exact F]. eapply mv_trans; [exact F|apply ack_moves].
    - destruct (each _ s c l) as [s2|] eqn:F; [|discriminate]. injection H as <-.
      eapply mv_trans; [|apply ack_moves]. eapply (each_moves _ _ _ _ l l); [|easy|exact F].
      intros s0 x s3 Hx. now apply relay_one_moves.
    - injection H as <-. apply ack_moves.
  Qed.
End MOVES.

(** ** Sending *)
Lemma send_inv : forall s c id mode delay m s1 r, send_message s c id mode delay m = Some (s1, r) ->
  exists s0, (if id =? 0 then next_id s c = (s0, r) else s0 = s /\ r = Some id) /\
  match r with
  | None => s1 = s0
  | Some i => batch_add s0 c m = Some s1 \/
              s1 = put_out (persist_out s0 c (KPub (mkPub i mode [m]))) c (KPub (mkPub i mode [m]))
  end.
Proof.
  intros s c id mode delay m s1 r H. unfold send_message in H.
  destruct (id =? 0) eqn:F.
  - destruct (next_id s c) as [s0 r0] eqn:G. exists s0. destruct r0 as [i|].
    + destruct ((mode =? 2) || (0 <? delay)%Z).
      * destruct (batch_add s0 c m) as [s2|] eqn:Hb; [|discriminate]. injection H as <- <-. auto.
      * injection H as <- <-. auto.
    + injection H as <- <-. auto.
  - exists s. destruct ((mode =? 2) || (0 <? delay)%Z).
    + destruct (batch_add s c m) as [s2|] eqn:Hb; [|discriminate]. injection H as <- <-. auto.
    + injection H as <- <-. auto.
Qed.
