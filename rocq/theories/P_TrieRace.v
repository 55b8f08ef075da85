(* Proofs about concurrent adds (M_TrieRace.v). *)

From Coq Require Import List Arith Bool Lia.
Import ListNotations.
From Verif Require Import M_TrieRace S_TrieRace.

Lemma at_same {A : Type} : forall (xs : list A) i x y,
  nth_error xs i = Some y -> nth_error (put_at i x xs) i = Some x.
Proof. induction xs as [|z xs IH]; intros [|i] x y H; try discriminate; cbn in *; [reflexivity|exact (IH _ _ _ H)]. Qed.

Lemma at_other {A : Type} : forall (xs : list A) i j x,
  i <> j -> nth_error (put_at i x xs) j = nth_error xs j.
Proof.
  induction xs as [|z xs IH]; intros [|i] [|j] x H; cbn; try reflexivity; try congruence.
  apply IH. congruence.
Qed.

Lemma at_len {A : Type} : forall (xs : list A) i x, length (put_at i x xs) = length xs.
Proof. induction xs as [|z xs IH]; intros [|i] x; cbn; try reflexivity. rewrite IH. reflexivity. Qed.

Lemma at_inv {A : Type} (xs : list A) i j x y : nth_error (put_at i x xs) j = Some y ->
  (i = j /\ y = x) \/ (i <> j /\ nth_error xs j = Some y).
Proof.
  intros H. destruct (Nat.eq_dec i j) as [E|E].
  - subst j. left. split; [reflexivity|].
    destruct (nth_error xs i) as [z|] eqn:N.
    + rewrite (at_same _ _ _ _ N) in H. congruence.
    + apply nth_error_None in N. rewrite <- (at_len xs i x) in N. apply nth_error_None in N. congruence.
  - right. rewrite at_other in H by exact E. auto.
Qed.

Lemma snoc_inv {A : Type} (xs : list A) i x y : nth_error (xs ++ [x]) i = Some y ->
  nth_error xs i = Some y \/ (i = length xs /\ y = x).
Proof.
  intros H. destruct (Nat.lt_ge_cases i (length xs)) as [L|L].
  - left. rewrite nth_error_app1 in H by exact L. exact H.
  - right. rewrite nth_error_app2 in H by exact L.
    destruct (i - length xs) as [|k] eqn:E; cbn in H; [split; [lia|congruence]|destruct k; discriminate].
Qed.

Lemma old_nth {A : Type} (xs ys : list A) i x : nth_error xs i = Some x -> nth_error (xs ++ ys) i = Some x.
Proof. intros H. rewrite nth_error_app1; [exact H|]. apply nth_error_Some. congruence. Qed.

Lemma nth_lt' {A : Type} (xs : list A) i x : nth_error xs i = Some x -> i < length xs.
Proof. intros H. apply nth_error_Some. congruence. Qed.

Lemma kid_in ks p c : kid ks p = Some c -> In (p, c) ks.
Proof.
  induction ks as [|[q d] ks IH]; cbn; [discriminate|]. destruct (Nat.eqb q p) eqn:E.
  - intros H. apply Nat.eqb_eq in E. left. congruence.
  - intros H. right. exact (IH H).
Qed.

Section Run.
Context (shard : nat -> nat) (parts : nat -> list nat).

(* A part of the path of a topic was replaced. *)
Definition cut (es : list tevent) (path : list nat) : Prop :=
  exists pre rest, path = pre ++ rest /\ replaced shard parts es pre.

Record ok (es : list tevent) (st : tst) : Prop := OK {
  o_root : exists r, nth_error (t_nodes st) 0 = Some r /\ tn_path r = [];
  o_kids : forall n x p c, nth_error (t_nodes st) n = Some x -> kid (tn_kids x) p = Some c ->
           exists y, nth_error (t_nodes st) c = Some y /\ tn_path y = tn_path x ++ [p];
  o_at : forall k h before todo curr, nth_error (t_adds st) k = Some (AAt h before todo curr) ->
         parts h = before ++ todo /\
         (exists x, nth_error (t_nodes st) curr = Some x /\ tn_path x = before) /\
         (go_down (t_nodes st) 0 before = Some curr \/ cut es before);
  o_set : forall k h before p todo curr, nth_error (t_adds st) k = Some (ASet h before p todo curr) ->
         parts h = before ++ p :: todo /\
         (exists x, nth_error (t_nodes st) curr = Some x /\ tn_path x = before) /\
         (go_down (t_nodes st) 0 before = Some curr \/ cut es before);
  o_sum : forall h, In h (t_summary st) -> found st h (parts h) \/ cut es (parts h);
  o_done : forall k h, nth_error (t_adds st) k = Some (ADone h) -> In h (t_summary st)
}.

Lemma replaced_more es e path : replaced shard parts es path -> replaced shard parts (es ++ [e]) path.
Proof.
  intros [es1 [k [es2 [h [b [p [t [c [n [E H]]]]]]]]]]. subst es.
  exists es1, k, (es2 ++ [e]), h, b, p, t, c, n. split; [|exact H]. rewrite <- app_assoc. reflexivity.
Qed.

Lemma cut_more es e path : cut es path -> cut (es ++ [e]) path.
Proof. intros [a [b [E R]]]. exists a, b. split; [exact E|]. apply replaced_more. exact R. Qed.

Lemma cut_longer es a b : cut es a -> cut es (a ++ b).
Proof. intros [x [y [-> R]]]. exists x, (y ++ b). split; [rewrite app_assoc; reflexivity|exact R]. Qed.

Lemma go_snoc nodes : forall path n p m x, go_down nodes n path = Some m -> nth_error nodes m = Some x ->
  go_down nodes n (path ++ [p]) = kid (tn_kids x) p.
Proof.
  induction path as [|q path IH]; intros n p m x H N; cbn in *.
  - assert (n = m) by congruence. subst m. rewrite N. destruct (kid (tn_kids x) p); reflexivity.
  - destruct (nth_error nodes n) as [y|]; [|discriminate]. destruct (kid (tn_kids y) q) as [c|]; [|discriminate].
    exact (IH _ _ _ _ H N).
Qed.

(* Setting a new child. *)
Lemma go_set nodes curr n p new node :
  (forall m x q c, nth_error nodes m = Some x -> kid (tn_kids x) q = Some c ->
     exists y, nth_error nodes c = Some y /\ tn_path y = tn_path x ++ [q]) ->
  nth_error nodes curr = Some n ->
  forall path m x t, nth_error nodes m = Some x -> go_down nodes m path = Some t ->
  go_down (put_at curr (TN (tn_path n) ((p, new) :: tn_kids n) (tn_topics n)) nodes ++ [node]) m path = Some t \/
  (kid (tn_kids n) p <> None /\ exists r, tn_path x ++ path = (tn_path n ++ [p]) ++ r).
Proof.
  intros HK HN. induction path as [|q path IH]; intros m x t Nm G; cbn [go_down] in *; [left; exact G|].
  rewrite Nm in G. destruct (kid (tn_kids x) q) as [c|] eqn:Kq; [|discriminate].
  destruct (HK _ _ _ _ Nm Kq) as [y [Ny Py]].
  destruct (IH _ _ _ Ny G) as [G'|[K [r E]]].
  2:{ right. split; [exact K|]. exists r. rewrite <- E, Py, <- app_assoc. reflexivity. }
  destruct (Nat.eq_dec curr m) as [E|E].
  - subst m. assert (x = n) by congruence. subst x.
    destruct (Nat.eq_dec p q) as [E|E].
    + subst q. right. split; [congruence|]. exists path. rewrite <- app_assoc. reflexivity.
    + left. rewrite (old_nth _ _ _ _ (at_same _ _ _ _ HN)). cbn [tn_kids kid].
      destruct (Nat.eqb p q) eqn:Q; [apply Nat.eqb_eq in Q; congruence|]. rewrite Kq. exact G'.
  - left. assert (N' : nth_error (put_at curr (TN (tn_path n) ((p, new) :: tn_kids n) (tn_topics n)) nodes ++ [node]) m = Some x).
    { apply old_nth. rewrite at_other by exact E. exact Nm. }
    rewrite N', Kq. exact G'.
Qed.

(* Adding a topic to a node. *)
Lemma go_topic nodes curr n ts : nth_error nodes curr = Some n -> forall path m,
  go_down (put_at curr (TN (tn_path n) (tn_kids n) ts) nodes) m path = go_down nodes m path.
Proof.
  intros HN. induction path as [|q path IH]; intros m; cbn [go_down]; [reflexivity|].
  destruct (Nat.eq_dec curr m) as [<-|E].
  - rewrite (at_same _ _ _ _ HN), HN. cbn [tn_kids]. destruct (kid (tn_kids n) q); [apply IH|reflexivity].
  - rewrite at_other by exact E. destruct (nth_error nodes m) as [x|]; [|reflexivity].
    destruct (kid (tn_kids x) q); [apply IH|reflexivity].
Qed.

Lemma ok_start : ok [] tstart.
Proof.
  constructor; cbn.
  - eexists; split; reflexivity.
  - intros [|[|n]] x p c N K; try discriminate. assert (x = TN [] [] []) by (cbn in N; congruence). subst x. discriminate.
  - intros [|k] h b t c N; discriminate.
  - intros [|k] h b p t c N; discriminate.
  - intros h [].
  - intros [|k] h N; discriminate.
Qed.

(* A step that only changes one call. *)
Lemma ok_set es e st k a : ok es st ->
  (match a with
   | AGo h => True
   | AAt h before todo curr => parts h = before ++ todo /\
         (exists x, nth_error (t_nodes st) curr = Some x /\ tn_path x = before) /\
         (go_down (t_nodes st) 0 before = Some curr \/ cut es before)
   | ASet h before p todo curr => parts h = before ++ p :: todo /\
         (exists x, nth_error (t_nodes st) curr = Some x /\ tn_path x = before) /\
         (go_down (t_nodes st) 0 before = Some curr \/ cut es before)
   | ADone h => In h (t_summary st)
   end) -> ok (es ++ [e]) (set_add st k a).
Proof.
  intros [H1 H2 H3 H4 H5 H6] A. constructor.
  - exact H1.
  - exact H2.
  - intros k' h b t c N. cbn in N. apply at_inv in N. destruct N as [[_ E]|[_ N]].
    + subst a. destruct A as [A1 [A2 A3]]. split; [exact A1|]. split; [exact A2|].
      destruct A3 as [A3|A3]; [left; exact A3|right; apply cut_more; exact A3].
    + destruct (H3 _ _ _ _ _ N) as [A1 [A2 A3]]. split; [exact A1|]. split; [exact A2|].
      destruct A3 as [A3|A3]; [left; exact A3|right; apply cut_more; exact A3].
  - intros k' h b p t c N. cbn in N. apply at_inv in N. destruct N as [[_ E]|[_ N]].
    + subst a. destruct A as [A1 [A2 A3]]. split; [exact A1|]. split; [exact A2|].
      destruct A3 as [A3|A3]; [left; exact A3|right; apply cut_more; exact A3].
    + destruct (H4 _ _ _ _ _ _ N) as [A1 [A2 A3]]. split; [exact A1|]. split; [exact A2|].
      destruct A3 as [A3|A3]; [left; exact A3|right; apply cut_more; exact A3].
  - intros h I. destruct (H5 h I) as [F|C]; [left; exact F|right; apply cut_more; exact C].
  - intros k' h N. cbn in N. apply at_inv in N. destruct N as [[_ E]|[_ N]]; [subst a; exact A|exact (H6 _ _ N)].
Qed.

Lemma ok_same es e st : ok es st -> ok (es ++ [e]) st.
Proof.
  intros [H1 H2 H3 H4 H5 H6]. constructor; try assumption.
  - intros k' h b t c N. destruct (H3 _ _ _ _ _ N) as [A1 [A2 A3]]. split; [exact A1|]. split; [exact A2|].
    destruct A3 as [A3|A3]; [left; exact A3|right; apply cut_more; exact A3].
  - intros k' h b p t c N. destruct (H4 _ _ _ _ _ _ N) as [A1 [A2 A3]]. split; [exact A1|]. split; [exact A2|].
    destruct A3 as [A3|A3]; [left; exact A3|right; apply cut_more; exact A3].
  - intros h I. destruct (H5 h I) as [F|C]; [left; exact F|right; apply cut_more; exact C].
Qed.

Lemma ok_step es e : ok es (trun shard parts tstart es) ->
  ok (es ++ [e]) (trun shard parts tstart (es ++ [e])).
Proof.
  intros H. unfold trun at 1. rewrite fold_left_app. cbn [fold_left].
  change (fold_left (tstep shard parts) es tstart) with (trun shard parts tstart es).
  remember (trun shard parts tstart es) as st eqn:Est.
  destruct e as [h|k]; cbn [tstep].
  - pose proof (ok_same _ (EAdd h) _ H) as [H1 H2 H3 H4 H5 H6]. constructor; try assumption.
    + intros k h' b t c N. cbn in N. apply snoc_inv in N. destruct N as [N|[_ N]]; [exact (H3 _ _ _ _ _ N)|discriminate].
    + intros k h' b p t c N. cbn in N. apply snoc_inv in N. destruct N as [N|[_ N]]; [exact (H4 _ _ _ _ _ _ N)|discriminate].
    + intros k h' N. cbn in N. apply snoc_inv in N. destruct N as [N|[_ N]]; [exact (H6 _ _ N)|discriminate].
  - unfold add_step. destruct (nth_error (t_adds st) k) as [[h|h b t c|h b p t c|h]|] eqn:Nk;
      try (apply ok_same; exact H).
    + destruct (existsb (holds shard h) (t_adds st)); [apply ok_same; exact H|].
      destruct (existsb (Nat.eqb h) (t_summary st)) eqn:X.
      * apply ok_set; [exact H|]. apply existsb_exists in X. destruct X as [h' [I E]]. apply Nat.eqb_eq in E. congruence.
      * apply ok_set; [exact H|]. split; [reflexivity|]. split; [exact (o_root _ _ H)|]. left. reflexivity.
    + destruct (o_at _ _ H _ _ _ _ _ Nk) as [EP [[n [Nc Pn]] G]].
      destruct t as [|p t].
      * (* the topic *)
        rewrite Nc. pose proof (ok_same _ (EStep k) _ H) as [H1 H2 H3 H4 H5 H6].
        assert (NN : forall m x, nth_error (t_nodes st) m = Some x ->
                  exists x', nth_error (put_at c (TN (tn_path n) (tn_kids n) (h :: tn_topics n)) (t_nodes st)) m = Some x' /\
                  tn_path x' = tn_path x /\ forall i, In i (tn_topics x) -> In i (tn_topics x')).
        { intros m x Nm. destruct (Nat.eq_dec c m) as [<-|E].
          - assert (x = n) by congruence. subst x. eexists. split; [exact (at_same _ _ _ _ Nc)|]. cbn. auto.
          - exists x. rewrite at_other by exact E. auto. }
        constructor; cbn [t_nodes t_adds t_summary].
        -- destruct H1 as [r [Nr Pr]]. destruct (NN _ _ Nr) as [r' [Nr' [Pr' _]]]. exists r'. split; [exact Nr'|congruence].
        -- intros m x p d Nm K. assert (Q : exists x0, nth_error (t_nodes st) m = Some x0 /\ tn_path x0 = tn_path x /\ tn_kids x0 = tn_kids x).
           { apply at_inv in Nm. destruct Nm as [[<- ->]|[_ Nm]]; [exists n; auto|exists x; auto]. }
           destruct Q as [x0 [N0 [P0 K0]]]. rewrite <- K0 in K. destruct (H2 _ _ _ _ N0 K) as [y [Ny Py]].
           destruct (NN _ _ Ny) as [y' [Ny' [Py' _]]]. exists y'. split; [exact Ny'|congruence].
        -- intros k' h' b' t' c' N. apply at_inv in N. destruct N as [[_ N]|[_ N]]; [discriminate|].
           destruct (H3 _ _ _ _ _ N) as [A1 [[x [Nx Px]] A3]]. split; [exact A1|]. split.
           ++ destruct (NN _ _ Nx) as [x' [Nx' [Px' _]]]. exists x'. split; [exact Nx'|congruence].
           ++ rewrite (go_topic _ _ _ _ Nc). exact A3.
        -- intros k' h' b' p' t' c' N. apply at_inv in N. destruct N as [[_ N]|[_ N]]; [discriminate|].
           destruct (H4 _ _ _ _ _ _ N) as [A1 [[x [Nx Px]] A3]]. split; [exact A1|]. split.
           ++ destruct (NN _ _ Nx) as [x' [Nx' [Px' _]]]. exists x'. split; [exact Nx'|congruence].
           ++ rewrite (go_topic _ _ _ _ Nc). exact A3.
        -- intros i [<-|I].
           ++ rewrite EP, app_nil_r. destruct G as [G|G]; [left|right; apply cut_more; exact G].
              exists c. eexists. cbn [t_nodes]. rewrite (go_topic _ _ _ _ Nc). split; [exact G|].
              split; [exact (at_same _ _ _ _ Nc)|]. left. reflexivity.
           ++ destruct (H5 i I) as [[m [x [G' [Nm Im]]]]|C]; [left|right; exact C].
              destruct (NN _ _ Nm) as [x' [Nx' [_ T']]]. exists m, x'. cbn [t_nodes]. rewrite (go_topic _ _ _ _ Nc). auto.
        -- intros k' h' N. apply at_inv in N. destruct N as [[_ N]|[_ N]].
           ++ left. congruence.
           ++ right. exact (H6 _ _ N).
      * rewrite Nc. destruct (kid (tn_kids n) p) as [d|] eqn:K.
        -- apply ok_set; [exact H|]. split; [rewrite EP, <- app_assoc; reflexivity|].
           destruct (o_kids _ _ H _ _ _ _ Nc K) as [y [Ny Py]].
           split; [exists y; split; [exact Ny|congruence]|].
           destruct G as [G|G]; [left|right; apply cut_longer; exact G].
           rewrite (go_snoc _ _ _ _ _ _ G Nc). exact K.
        -- apply ok_set; [exact H|]. split; [exact EP|]. split; [exists n; auto|exact G].
    + (* a new node *)
      destruct (o_set _ _ H _ _ _ _ _ _ Nk) as [EP [[n [Nc Pn]] G]]. rewrite Nc.
      set (nodes' := put_at c (TN (tn_path n) ((p, length (t_nodes st)) :: tn_kids n) (tn_topics n)) (t_nodes st)
              ++ [TN (b ++ [p]) [] []]).
      assert (NN : forall m x, nth_error (t_nodes st) m = Some x ->
                exists x', nth_error nodes' m = Some x' /\ tn_path x' = tn_path x /\ tn_topics x' = tn_topics x).
      { intros m x Nm. destruct (Nat.eq_dec c m) as [<-|E].
        - assert (x = n) by congruence. subst x. eexists. split; [exact (old_nth _ _ _ _ (at_same _ _ _ _ Nc))|]. cbn. auto.
        - exists x. split; [|auto]. apply old_nth. rewrite at_other by exact E. exact Nm. }
      assert (NEW : nth_error nodes' (length (t_nodes st)) = Some (TN (b ++ [p]) [] [])).
      { unfold nodes'. rewrite nth_error_app2 by (rewrite at_len; lia). rewrite at_len, Nat.sub_diag. reflexivity. }
      assert (REP : kid (tn_kids n) p <> None -> replaced shard parts (es ++ [EStep k]) (b ++ [p])).
      { intros K. exists es, k, [], h, b, p, t, c, n. rewrite <- Est. auto 10. }
      (* ways down from the root *)
      assert (DOWN : forall path m, go_down (t_nodes st) 0 path = Some m ->
                go_down nodes' 0 path = Some m \/ cut (es ++ [EStep k]) path).
      { intros path m G'. destruct (o_root _ _ H) as [r [Nr Pr]].
        destruct (go_set _ _ _ p (length (t_nodes st)) (TN (b ++ [p]) [] []) (o_kids _ _ H) Nc _ _ _ _ Nr G') as [D|[K [rest E]]].
        - left. exact D.
        - right. rewrite Pr, Pn in E. cbn [app] in E. exists (b ++ [p]), rest. split; [exact E|exact (REP K)]. }
      pose proof (ok_same _ (EStep k) _ H) as [H1 H2 H3 H4 H5 H6].
      constructor; cbn [t_nodes t_adds t_summary]; fold nodes'.
      * destruct H1 as [r [Nr Pr]]. destruct (NN _ _ Nr) as [r' [Nr' [Pr' _]]]. exists r'. split; [exact Nr'|congruence].
      * intros m x q d Nm K. unfold nodes' in Nm. apply snoc_inv in Nm. destruct Nm as [Nm|[_ ->]]; [|discriminate].
        apply at_inv in Nm. destruct Nm as [[<- ->]|[_ Nm]].
        -- cbn [tn_kids kid tn_path] in *. destruct (Nat.eqb p q) eqn:Q.
           ++ apply Nat.eqb_eq in Q. subst q. assert (d = length (t_nodes st)) by congruence. subst d.
              eexists. split; [exact NEW|]. cbn. congruence.
           ++ destruct (H2 _ _ _ _ Nc K) as [y [Ny Py]]. destruct (NN _ _ Ny) as [y' [Ny' [Py' _]]].
              exists y'. split; [exact Ny'|congruence].
        -- destruct (H2 _ _ _ _ Nm K) as [y [Ny Py]]. destruct (NN _ _ Ny) as [y' [Ny' [Py' _]]].
           exists y'. split; [exact Ny'|congruence].
      * intros k' h' b' t' c' N. apply at_inv in N. destruct N as [[_ N]|[_ N]].
        -- assert (h' = h) by congruence. assert (b' = b ++ [p]) by congruence. assert (t' = t) by congruence.
           assert (c' = length (t_nodes st)) by congruence. subst h' b' t' c'. split; [rewrite EP, <- app_assoc; reflexivity|].
           split; [eexists; split; [exact NEW|reflexivity]|].
           destruct G as [G|G]; [|right; apply cut_longer, cut_more; exact G].
           destruct (DOWN _ _ G) as [D|D]; [left|right; apply cut_longer; exact D].
           destruct (NN _ _ Nc) as [n' [Nc' _]].
           rewrite (go_snoc _ _ _ _ _ _ D Nc').
           unfold nodes' in Nc'. rewrite (old_nth _ _ _ _ (at_same _ _ _ _ Nc)) in Nc'.
           assert (n' = TN (tn_path n) ((p, length (t_nodes st)) :: tn_kids n) (tn_topics n)) by congruence. subst n'.
           cbn [tn_kids kid]. rewrite Nat.eqb_refl. reflexivity.
        -- destruct (H3 _ _ _ _ _ N) as [A1 [[x [Nx Px]] A3]]. split; [exact A1|]. split.
           ++ destruct (NN _ _ Nx) as [x' [Nx' [Px' _]]]. exists x'. split; [exact Nx'|congruence].
           ++ destruct A3 as [A3|A3]; [exact (DOWN _ _ A3)|right; exact A3].
      * intros k' h' b' p' t' c' N. apply at_inv in N. destruct N as [[_ N]|[_ N]]; [discriminate|].
        destruct (H4 _ _ _ _ _ _ N) as [A1 [[x [Nx Px]] A3]]. split; [exact A1|]. split.
        -- destruct (NN _ _ Nx) as [x' [Nx' [Px' _]]]. exists x'. split; [exact Nx'|congruence].
        -- destruct A3 as [A3|A3]; [exact (DOWN _ _ A3)|right; exact A3].
      * intros i I. destruct (H5 i I) as [[m [x [G' [Nm Im]]]]|C]; [|right; exact C].
        destruct (DOWN _ _ G') as [D|D]; [left|right; exact D].
        destruct (NN _ _ Nm) as [x' [Nx' [_ T']]]. exists m, x'. split; [exact D|]. split; [exact Nx'|congruence].
      * intros k' h' N. apply at_inv in N. destruct N as [[_ N]|[_ N]]; [discriminate|exact (H6 _ _ N)].
Qed.

Lemma ok_run es : ok es (trun shard parts tstart es).
Proof.
  induction es as [|e es IH] using rev_ind; [exact ok_start|]. apply ok_step. exact IH.
Qed.

Lemma added_found es k h : added (trun shard parts tstart es) k h ->
  found (trun shard parts tstart es) h (parts h) \/
  exists path rest, parts h = path ++ rest /\ replaced shard parts es path.
Proof.
  intros A. pose proof (ok_run es) as H. exact (o_sum _ _ H _ (o_done _ _ H _ _ A)).
Qed.

(* ---- one mutex ---- *)

Definition busy (a : tadd) : bool := match a with AAt _ _ _ _ | ASet _ _ _ _ _ => true | _ => false end.

(* With one mutex, at most one call is under way, and what it has seen is so. *)
Definition alone (st : tst) : Prop :=
  (forall k k' a a', nth_error (t_adds st) k = Some a -> nth_error (t_adds st) k' = Some a' ->
     busy a = true -> busy a' = true -> k = k') /\
  (forall k h b p t c n, nth_error (t_adds st) k = Some (ASet h b p t c) ->
     nth_error (t_nodes st) c = Some n -> kid (tn_kids n) p = None).

Lemma alone_set st k a a0 : alone st -> nth_error (t_adds st) k = Some a0 ->
  (busy a = true -> busy a0 = true \/ forall k' a', nth_error (t_adds st) k' = Some a' -> busy a' = false) ->
  (forall h b p t c n, a = ASet h b p t c -> nth_error (t_nodes st) c = Some n -> kid (tn_kids n) p = None) ->
  alone (set_add st k a).
Proof.
  intros [A1 A2] Nk B S. split; cbn.
  - intros k1 k2 a1 a2 N1 N2 B1 B2. apply at_inv in N1. apply at_inv in N2.
    destruct N1 as [[<- ->]|[D1 N1]]; destruct N2 as [[<- ->]|[D2 N2]]; try reflexivity.
    + destruct (B B1) as [B0|B0]; [exact (A1 _ _ _ _ Nk N2 B0 B2)|rewrite (B0 _ _ N2) in B2; discriminate].
    + destruct (B B2) as [B0|B0]; [exact (A1 _ _ _ _ N1 Nk B1 B0)|rewrite (B0 _ _ N1) in B1; discriminate].
    + exact (A1 _ _ _ _ N1 N2 B1 B2).
  - intros k' h b p t c n N Nc. apply at_inv in N. destruct N as [[_ E]|[_ N]]; [exact (S _ _ _ _ _ _ (eq_sym E) Nc)|].
    exact (A2 _ _ _ _ _ _ _ N Nc).
Qed.

Lemma alone_step st e : (forall h h', shard h = shard h') -> alone st -> alone (tstep shard parts st e).
Proof.
  intros One A. destruct e as [h|k]; cbn [tstep].
  - destruct A as [A1 A2]. split; cbn.
    + intros k1 k2 a1 a2 N1 N2 B1 B2. apply snoc_inv in N1. apply snoc_inv in N2.
      destruct N1 as [N1|[_ ->]]; [|discriminate]. destruct N2 as [N2|[_ ->]]; [|discriminate].
      exact (A1 _ _ _ _ N1 N2 B1 B2).
    + intros k h' b p t c n N Nc. apply snoc_inv in N. destruct N as [N|[_ N]]; [|discriminate].
      exact (A2 _ _ _ _ _ _ _ N Nc).
  - unfold add_step. destruct (nth_error (t_adds st) k) as [[h|h b t c|h b p t c|h]|] eqn:Nk; try exact A.
    + destruct (existsb (holds shard h) (t_adds st)) eqn:X; [exact A|].
      assert (NB : forall k' a', nth_error (t_adds st) k' = Some a' -> busy a' = false).
      { intros k' a' N. destruct (busy a') eqn:B; [|reflexivity]. exfalso.
        assert (Y : existsb (holds shard h) (t_adds st) = true); [|congruence].
        apply existsb_exists. exists a'. split; [exact (nth_error_In _ _ N)|].
        destruct a'; try discriminate; cbn; apply Nat.eqb_eq; apply One. }
      destruct (existsb (Nat.eqb h) (t_summary st)); apply (alone_set _ _ _ _ A Nk); try discriminate.
      intros _. right. exact NB.
    + destruct t as [|p t]; destruct (nth_error (t_nodes st) c) as [n|] eqn:Nc; try exact A.
      * destruct A as [A1 A2]. split; cbn.
        -- intros k1 k2 a1 a2 N1 N2 B1 B2. apply at_inv in N1. apply at_inv in N2.
           destruct N1 as [[_ ->]|[_ N1]]; [discriminate|]. destruct N2 as [[_ ->]|[_ N2]]; [discriminate|].
           exact (A1 _ _ _ _ N1 N2 B1 B2).
        -- intros k' h' b' p t c' n' N Nn. apply at_inv in N. destruct N as [[_ N]|[D N]]; [discriminate|].
           exfalso. apply D. exact (A1 _ _ _ _ Nk N eq_refl eq_refl).
      * destruct (kid (tn_kids n) p) as [d|] eqn:K; apply (alone_set _ _ _ _ A Nk); try discriminate.
        -- intros _. left. reflexivity.
        -- intros _. left. reflexivity.
        -- intros h' b' p' t' c' n' E N'. assert (c' = c) by congruence. assert (p' = p) by congruence. subst.
           assert (n' = n) by congruence. subst. exact K.
    + destruct (nth_error (t_nodes st) c) as [n|] eqn:Nc; [|exact A]. destruct A as [A1 A2]. split; cbn.
      * intros k1 k2 a1 a2 N1 N2 B1 B2. apply at_inv in N1. apply at_inv in N2.
        destruct N1 as [[<- ->]|[D1 N1]]; destruct N2 as [[<- ->]|[D2 N2]]; try reflexivity.
        -- exact (A1 _ _ _ _ Nk N2 eq_refl B2).
        -- exact (A1 _ _ _ _ N1 Nk B1 eq_refl).
        -- exact (A1 _ _ _ _ N1 N2 B1 B2).
      * intros k' h' b' p' t' c' n' N Nn. apply at_inv in N. destruct N as [[_ N]|[D N]]; [discriminate|].
        exfalso. apply D. exact (A1 _ _ _ _ Nk N eq_refl eq_refl).
Qed.

Lemma alone_run es : (forall h h', shard h = shard h') -> forall st, alone st -> alone (trun shard parts st es).
Proof.
  intros One. induction es as [|e es IH]; intros st H; [exact H|]. cbn. apply IH. apply alone_step; assumption.
Qed.

Lemma serial_found es k h : (forall h h', shard h = shard h') ->
  added (trun shard parts tstart es) k h -> found (trun shard parts tstart es) h (parts h).
Proof.
  intros One A. destruct (added_found _ _ _ A) as [F|[path [rest [_ R]]]]; [exact F|]. exfalso.
  destruct R as [es1 [k' [es2 [h' [b [p [t [c [n [_ [N [Nc [K _]]]]]]]]]]]]]. apply K.
  assert (AL : alone (trun shard parts tstart es1)).
  { apply alone_run; [exact One|]. split; cbn; intros [|x]; intros; discriminate. }
  exact (proj2 AL _ _ _ _ _ _ _ N Nc).
Qed.

End Run.
