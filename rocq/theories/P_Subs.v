(** Lemmas about [M_Subs]. *)
From Verif Require Import M_Bytes M_Subs S_Server.
From Coq Require Import Lia.
Open Scope Z_scope.

Lemma beq_spec a b : beq a b = true <-> a = b.
Proof. unfold beq. destruct (list_eq_dec N.eq_dec a b); split; congruence. Qed.
Lemma beq_refl a : beq a a = true. Proof. apply beq_spec. reflexivity. Qed.
Lemma beq_neq a b : a <> b -> beq a b = false.
Proof. unfold beq. destruct (list_eq_dec N.eq_dec a b); congruence. Qed.

Lemma get_del_same s k : st_get (st_del s k) k = None.
Proof.
  induction s as [|[q v] s IH]; [reflexivity|]. cbn. destruct (beq q k) eqn:E; cbn; [exact IH|].
  rewrite E. exact IH.
Qed.
Lemma get_del_other s k k' : k <> k' -> st_get (st_del s k) k' = st_get s k'.
Proof.
  intros H. induction s as [|[q v] s IH]; [reflexivity|]. cbn. destruct (beq q k) eqn:E; cbn.
  - apply beq_spec in E. subst q. rewrite (beq_neq k k' H). exact IH.
  - destruct (beq q k'); [reflexivity|exact IH].
Qed.
Lemma get_put_same s k v : st_get (st_put s k v) k = Some v.
Proof. cbn. rewrite beq_refl. reflexivity. Qed.
Lemma get_put_other s k v k' : k <> k' -> st_get (st_put s k v) k' = st_get s k'.
Proof. intros H. cbn. rewrite (beq_neq k k' H). apply get_del_other, H. Qed.

(** The counters agree with the specification. *)
Definition agrees (s : stats) (k : bytes) (a : option (nat * (bytes * bytes))) : Prop :=
  match a with
  | None => st_get s k = None
  | Some (n, (i, t)) => (0 < n)%nat /\ st_get s k = Some (mkStat i t (Z.of_nat n))
  end.

Lemma increment_agrees s t k i k' a ok : agrees s k' a ->
  agrees (fst (increment s t k i)) k' (open_step k' a (SSub k t i ok)).
Proof.
  intros H. unfold increment. cbn [fst open_step].
  destruct (list_eq_dec N.eq_dec k k') as [->|N].
  - destruct a as [[n [i0 t0]]|]; cbn [agrees] in *.
    + destruct H as [Hn H]. rewrite H. split; [lia|]. rewrite get_put_same. cbn. f_equal. f_equal. lia.
    + rewrite H. split; [lia|]. rewrite get_put_same. reflexivity.
  - unfold agrees in *. destruct a as [[n [i0 t0]]|]; rewrite get_put_other by exact N; exact H.
Qed.
Lemma increment_first s t k i a : agrees s k a -> snd (increment s t k i) = true <-> a = None.
Proof.
  intros H. unfold increment. cbn [snd]. destruct a as [[n [i0 t0]]|]; cbn [agrees] in H.
  - destruct H as [Hn H]. rewrite H. cbn. rewrite Z.eqb_eq. split; [lia|discriminate].
  - rewrite H. cbn. split; reflexivity.
Qed.
Lemma decrement_agrees s k k' a : agrees s k' a -> agrees (fst (decrement s k)) k' (open_step k' a (SUnsub k)).
Proof.
  intros H. unfold decrement. cbn [open_step]. destruct (list_eq_dec N.eq_dec k k') as [->|N].
  - destruct a as [[n [i0 t0]]|]; cbn [agrees] in H.
    + destruct H as [Hn H]. rewrite H. cbn [st_counter]. destruct n as [|[|n]]; [lia| |].
      * cbn. apply get_del_same.
      * destruct (Z.leb_spec (Z.of_nat (S (S n)) - 1) 0); [lia|]. cbn [fst agrees st_id st_topic].
        split; [lia|]. rewrite get_put_same. f_equal. f_equal. lia.
    + rewrite H. cbn. exact H.
  - unfold agrees in *. destruct (st_get s k) as [st|].
    + destruct (st_counter st - 1 <=? 0); cbn [fst].
      * destruct a as [[n [i0 t0]]|]; rewrite get_del_other by exact N; exact H.
      * destruct a as [[n [i0 t0]]|]; rewrite get_put_other by exact N; exact H.
    + exact H.
Qed.
Lemma decrement_last s k a : agrees s k a ->
  snd (decrement s k) = match a with Some (1%nat, (i, t)) => (true, Some i) | _ => (false, None) end.
Proof.
  intros H. unfold decrement. destruct a as [[n [i0 t0]]|]; cbn [agrees] in H.
  - destruct H as [Hn H]. rewrite H. cbn [st_counter]. destruct n as [|[|n]]; [lia|reflexivity|].
    destruct (Z.leb_spec (Z.of_nat (S (S n)) - 1) 0); [lia|]. reflexivity.
  - rewrite H. reflexivity.
Qed.

(** All histories of increments and decrements, seen through [sub_run]. *)
Lemma opened_snoc ops o k : opened (ops ++ [o]) k = open_step k (opened ops k) o.
Proof. unfold opened. rewrite fold_left_app. reflexivity. Qed.
Lemma run_snoc g ops o : sub_run g (ops ++ [o]) = sub_step g (sub_run g ops) o.
Proof. unfold sub_run. rewrite fold_left_app. reflexivity. Qed.

Lemma subscribe_subs g c k t f ok : k <> [] ->
  c_subs (fst (subscribe g c k t f ok)) = fst (increment (c_subs c) t k f).
Proof.
  intros Hk. unfold subscribe. destruct k as [|x k]; [congruence|].
  destruct (increment (c_subs c) t (x :: k) f) as [s [|]]; [destruct ok|]; reflexivity.
Qed.
Lemma unsubscribe_subs c k : c_subs (unsubscribe c k) = fst (decrement (c_subs c) k).
Proof. unfold unsubscribe. destruct (decrement (c_subs c) k) as [s [[|] [i|]]]; reflexivity. Qed.

Lemma run_agrees g ops : Forall named ops -> forall k, agrees (c_subs (sub_run g ops)) k (opened ops k).
Proof.
  induction ops as [|o ops IH] using rev_ind; intros H k.
  - reflexivity.
  - apply Forall_app in H. destruct H as [H1 H2]. inversion H2 as [|? ? Ho _]; subst.
    rewrite run_snoc, opened_snoc. specialize (IH H1 k). destruct o as [k' t f ok|k']; cbn [sub_step].
    + rewrite subscribe_subs by exact Ho. apply increment_agrees, IH.
    + rewrite unsubscribe_subs. apply decrement_agrees, IH.
Qed.

(** First and last are told exactly. *)
Lemma first_exact g ops k t f : Forall named ops ->
  snd (increment (c_subs (sub_run g ops)) t k f) = true <-> opened ops k = None.
Proof. intros H. apply increment_first, run_agrees, H. Qed.
Lemma last_exact g ops k : Forall named ops ->
  snd (decrement (c_subs (sub_run g ops)) k) =
  match opened ops k with Some (1%nat, (i, t)) => (true, Some i) | _ => (false, None) end.
Proof. intros H. apply decrement_last, run_agrees, H. Qed.

(** The store holds the opening request of every open key. *)
Lemma fresh_snoc ops o : fresh_ids (ops ++ [o]) = fresh_ids ops ++ match o with SSub _ _ f _ => [f] | _ => [] end.
Proof. unfold fresh_ids. rewrite flat_map_app. cbn. rewrite app_nil_r. reflexivity. Qed.

Lemma opened_fresh ops k n i t : opened ops k = Some (n, (i, t)) -> In i (fresh_ids ops).
Proof.
  revert n. induction ops as [|o ops IH] using rev_ind; intros n H; [discriminate|].
  rewrite opened_snoc in H. rewrite fresh_snoc, in_app_iff. destruct o as [k' t' f ok|k']; cbn [open_step] in H.
  - destruct (list_eq_dec N.eq_dec k' k).
    + destruct (opened ops k) as [[m x]|]; [|injection H as <- <- <-; right; left; reflexivity].
      injection H as <- ->. left. eapply IH. reflexivity.
    + left. eapply IH. exact H.
  - destruct (list_eq_dec N.eq_dec k' k).
    + destruct (opened ops k) as [[[|[|m]] x]|]; try discriminate. injection H as <- ->. left. eapply IH. reflexivity.
    + left. eapply IH. exact H.
Qed.
Lemma opened_unique ops k k' n n' i t t' : NoDup (fresh_ids ops) ->
  opened ops k = Some (n, (i, t)) -> opened ops k' = Some (n', (i, t')) -> k = k'.
Proof.
  revert n n'. induction ops as [|o ops IH] using rev_ind; intros n n' ND H H'; [discriminate|].
  rewrite opened_snoc in H, H'. rewrite fresh_snoc in ND.
  assert (ND0 : NoDup (fresh_ids ops)).
  { destruct o; [apply NoDup_remove_1 in ND; rewrite app_nil_r in ND; exact ND|rewrite app_nil_r in ND; exact ND]. }
  destruct o as [q t0 f ok|q]; cbn [open_step] in H, H'.
  - assert (Nf : ~ In f (fresh_ids ops)).
    { apply NoDup_remove_2 in ND. rewrite app_nil_r in ND. exact ND. }
    destruct (list_eq_dec N.eq_dec q k) as [E|E], (list_eq_dec N.eq_dec q k') as [E'|E'].
    + congruence.
    + destruct (opened ops k) as [[m x]|] eqn:O1.
      * injection H as <- ->. eapply IH; [exact ND0|reflexivity|exact H'].
      * injection H as <- <- <-. apply opened_fresh in H'. contradiction.
    + destruct (opened ops k') as [[m x]|] eqn:O1.
      * injection H' as <- ->. eapply IH; [exact ND0|exact H|reflexivity].
      * injection H' as <- <- <-. apply opened_fresh in H. contradiction.
    + eapply IH; [exact ND0|exact H|exact H'].
  - destruct (list_eq_dec N.eq_dec q k) as [E|E], (list_eq_dec N.eq_dec q k') as [E'|E'].
    + congruence.
    + destruct (opened ops k) as [[[|[|m]] x]|] eqn:O1; try discriminate. injection H as <- ->.
      eapply IH; [exact ND0|reflexivity|exact H'].
    + destruct (opened ops k') as [[[|[|m]] x]|] eqn:O1; try discriminate. injection H' as <- ->.
      eapply IH; [exact ND0|exact H|reflexivity].
    + eapply IH; [exact ND0|exact H|exact H'].
Qed.

Lemma keyed_named ops : Forall keyed ops -> Forall named ops.
Proof. apply Forall_impl. intros [k t f ok|k]; cbn; tauto. Qed.

Lemma store_exact g ops : Forall keyed ops -> NoDup (fresh_ids ops) ->
  forall i t, In (i, t) (c_store (sub_run g ops)) <-> exists k n, opened ops k = Some (n, (i, t)).
Proof.
  induction ops as [|o ops IH] using rev_ind; intros H ND i t.
  - cbn. split; [tauto|]. intros (k & n & E). discriminate.
  - apply Forall_app in H. destruct H as [H1 H2]. inversion H2 as [|? ? Ho _]; subst.
    assert (ND0 : NoDup (fresh_ids ops)).
    { rewrite fresh_snoc in ND. destruct o; [apply NoDup_remove_1 in ND; rewrite app_nil_r in ND; exact ND|rewrite app_nil_r in ND; exact ND]. }
    specialize (IH H1 ND0). pose proof (run_agrees g ops (keyed_named _ H1)) as AG.
    rewrite run_snoc. destruct o as [k t0 f ok|k]; cbn [sub_step].
    + destruct Ho as [Hk ->]. assert (Nf : ~ In f (fresh_ids ops)).
      { rewrite fresh_snoc in ND. apply NoDup_remove_2 in ND. rewrite app_nil_r in ND. exact ND. }
      pose proof (increment_first _ t0 k f _ (AG k)) as FE.
      assert (ES : c_store (fst (subscribe g (sub_run g ops) k t0 f true)) =
                   if snd (increment (c_subs (sub_run g ops)) t0 k f) then (f, t0) :: c_store (sub_run g ops)
                   else c_store (sub_run g ops)).
      { unfold subscribe. destruct k as [|x k]; [congruence|].
        destruct (increment (c_subs (sub_run g ops)) t0 (x :: k) f) as [s [|]]; reflexivity. }
      rewrite ES. destruct (snd (increment (c_subs (sub_run g ops)) t0 k f)).
      * pose proof (proj1 FE eq_refl) as EN. cbn [In]. rewrite IH. split.
        -- intros [E|(k' & n & E)].
           ++ injection E as <- <-. exists k, 1%nat. rewrite opened_snoc, EN. cbn. destruct (list_eq_dec N.eq_dec k k); [reflexivity|congruence].
           ++ exists k', n. rewrite opened_snoc, E. cbn. destruct (list_eq_dec N.eq_dec k k'); [congruence|reflexivity].
        -- intros (k' & n & E). rewrite opened_snoc in E. cbn in E.
           destruct (list_eq_dec N.eq_dec k k') as [<-|].
           ++ rewrite EN in E. injection E as <- <- <-. left. reflexivity.
           ++ right. exists k', n. exact E.
      * destruct (opened ops k) as [[m [i1 t1]]|] eqn:Ok; [|destruct FE as [_ FE]; specialize (FE eq_refl); discriminate].
        rewrite IH. split.
        -- intros (k' & n & E). destruct (list_eq_dec N.eq_dec k k') as [<-|N].
           ++ exists k, (S m). rewrite opened_snoc, Ok. cbn. destruct (list_eq_dec N.eq_dec k k); [|congruence].
              f_equal. f_equal. congruence.
           ++ exists k', n. rewrite opened_snoc, E. cbn. destruct (list_eq_dec N.eq_dec k k'); [congruence|reflexivity].
        -- intros (k' & n & E). rewrite opened_snoc in E. cbn in E.
           destruct (list_eq_dec N.eq_dec k k') as [<-|].
           ++ rewrite Ok in E. injection E as _ -> ->. exists k, m. exact Ok.
           ++ exists k', n. exact E.
    + pose proof (decrement_last _ k _ (AG k)) as LE. unfold unsubscribe.
      destruct (decrement (c_subs (sub_run g ops)) k) as [s [last id]]. cbn [snd] in LE.
      destruct (opened ops k) as [[[|[|m]] [i1 t1]]|] eqn:Ok; injection LE as -> ->; cbn [c_store].
      * specialize (AG k). rewrite Ok in AG. destruct AG as [AG _]. lia.
      * rewrite filter_In, IH. cbn [fst]. split.
        -- intros [(k' & n & E) NE]. exists k', n. rewrite opened_snoc, E. cbn.
           destruct (list_eq_dec N.eq_dec k k') as [<-|]; [|reflexivity].
           rewrite Ok in E. injection E as <- <- <-. rewrite beq_refl in NE. discriminate.
        -- intros (k' & n & E). rewrite opened_snoc in E. cbn in E.
           destruct (list_eq_dec N.eq_dec k k') as [<-|N]; [rewrite Ok in E; discriminate|].
           split; [exists k', n; exact E|]. rewrite beq_neq; [reflexivity|].
           intros ->. apply N. eapply opened_unique; [exact ND0|exact Ok|exact E].
      * rewrite IH. split.
        -- intros (k' & n & E). destruct (list_eq_dec N.eq_dec k k') as [<-|N].
           ++ exists k, (S m). rewrite opened_snoc, Ok. cbn. destruct (list_eq_dec N.eq_dec k k); [|congruence].
              f_equal. f_equal. congruence.
           ++ exists k', n. rewrite opened_snoc, E. cbn. destruct (list_eq_dec N.eq_dec k k'); [congruence|reflexivity].
        -- intros (k' & n & E). rewrite opened_snoc in E. cbn in E.
           destruct (list_eq_dec N.eq_dec k k') as [<-|].
           ++ rewrite Ok in E. injection E as _ -> ->. exists k, (S (S m)). exact Ok.
           ++ exists k', n. exact E.
      * rewrite IH. split.
        -- intros (k' & n & E). exists k', n. rewrite opened_snoc, E. cbn.
           destruct (list_eq_dec N.eq_dec k k') as [<-|]; [congruence|reflexivity].
        -- intros (k' & n & E). rewrite opened_snoc in E. cbn in E.
           destruct (list_eq_dec N.eq_dec k k') as [<-|]; [rewrite Ok in E; discriminate|]. exists k', n. exact E.
Qed.

Lemma nokey_stays g t f k : g t = Some k -> k <> [] -> In (f, t) (c_store (sub_run g [SSub [] t f true; SUnsub []])).
Proof.
  intros E Hk. unfold sub_run. cbn [fold_left sub_step].
  assert (S1 : fst (subscribe g conn_new [] t f true) = mkConn [(k, mkStat f t 1)] [(f, t)]).
  { unfold subscribe. rewrite E. reflexivity. }
  rewrite S1. unfold unsubscribe, decrement. cbn [c_subs st_get]. rewrite (beq_neq k [] Hk). left. reflexivity.
Qed.
Lemma failed_counts g k t f f' : k <> [] -> c_store (sub_run g [SSub k t f false; SSub k t f' true]) = [].
Proof.
  intros Hk. unfold sub_run. cbn [fold_left sub_step]. destruct k as [|x k]; [congruence|].
  unfold subscribe at 2. unfold increment. cbn [c_subs conn_new st_get st_counter fst snd Z.add Z.eqb Pos.eqb st_id st_topic].
  unfold subscribe, increment. cbn [c_subs fst snd]. rewrite get_put_same. cbn. reflexivity.
Qed.
