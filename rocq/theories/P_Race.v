(* Proofs about Puts at the same time as the loops (M_Race.v): one invariant over
   all runs. *)

From Coq Require Import List Arith Bool Lia.
Import ListNotations.
From Verif Require Import M_Race S_Race.

(* ---- lists ---- *)

Lemma nth_upd_same {A : Type} : forall (xs : list A) i x y,
  nth_error xs i = Some y -> nth_error (upd i x xs) i = Some x.
Proof. induction xs as [|z xs IH]; intros [|i] x y H; try discriminate; cbn in *; [reflexivity|exact (IH _ _ _ H)]. Qed.

Lemma nth_upd_other {A : Type} : forall (xs : list A) i j x,
  i <> j -> nth_error (upd i x xs) j = nth_error xs j.
Proof.
  induction xs as [|z xs IH]; intros [|i] [|j] x H; cbn; try reflexivity; try congruence.
  apply IH. congruence.
Qed.

Lemma nth_upd {A : Type} (xs : list A) i j x y : nth_error (upd i x xs) j = Some y ->
  (i = j /\ y = x) \/ (i <> j /\ nth_error xs j = Some y).
Proof.
  intros H. destruct (Nat.eq_dec i j) as [E|E].
  - subst j. left. split; [reflexivity|].
    destruct (nth_error xs i) as [z|] eqn:N.
    + rewrite (nth_upd_same _ _ _ _ N) in H. congruence.
    + exfalso. revert i H N. clear. induction xs as [|z xs IH]; intros [|i] H N; try discriminate.
      cbn in *. exact (IH _ H N).
  - right. rewrite nth_upd_other in H by exact E. auto.
Qed.

Lemma length_upd {A : Type} : forall (xs : list A) i x, length (upd i x xs) = length xs.
Proof. induction xs as [|z xs IH]; intros [|i] x; cbn; try reflexivity. rewrite IH. reflexivity. Qed.

Lemma nth_app_old {A : Type} (xs ys : list A) i x : nth_error xs i = Some x -> nth_error (xs ++ ys) i = Some x.
Proof. intros H. rewrite nth_error_app1; [exact H|]. apply nth_error_Some. congruence. Qed.

Lemma nth_snoc {A : Type} (xs : list A) i x y : nth_error (xs ++ [x]) i = Some y ->
  nth_error xs i = Some y \/ (i = length xs /\ y = x).
Proof.
  intros H. destruct (Nat.lt_ge_cases i (length xs)) as [L|L].
  - left. rewrite nth_error_app1 in H by exact L. exact H.
  - right. rewrite nth_error_app2 in H by exact L.
    destruct (i - length xs) as [|k] eqn:E; cbn in H.
    + split; [lia|congruence].
    + destruct k; discriminate.
Qed.

Lemma nth_lt {A : Type} (xs : list A) i x : nth_error xs i = Some x -> i < length xs.
Proof. intros H. apply nth_error_Some. congruence. Qed.

Lemma nth_some {A : Type} (xs : list A) i : i < length xs -> exists x, nth_error xs i = Some x.
Proof. intros H. destruct (nth_error xs i) as [x|] eqn:E; [exists x; reflexivity|]. apply nth_error_None in E. lia. Qed.

Lemma look_filter m s s' : look (filter (fun e => negb (Nat.eqb (fst e) s)) m) s' =
  if Nat.eqb s' s then None else look m s'.
Proof.
  induction m as [|[k p] m IH]; cbn [filter look fst].
  - destruct (Nat.eqb s' s); reflexivity.
  - destruct (Nat.eqb k s) eqn:E; cbn [negb].
    + rewrite IH. destruct (Nat.eqb s' s) eqn:E2; [reflexivity|].
      apply Nat.eqb_eq in E. subst k. rewrite Nat.eqb_sym, E2. reflexivity.
    + cbn [look]. rewrite IH. destruct (Nat.eqb k s') eqn:E3; [|reflexivity].
      apply Nat.eqb_eq in E3. subst k. rewrite E. reflexivity.
Qed.

Lemma in_without s x xs : In x (without s xs) <-> In x xs /\ x <> s.
Proof.
  unfold without. rewrite filter_In. destruct (Nat.eqb x s) eqn:E; cbn.
  - apply Nat.eqb_eq in E. split; [intros [_ H]; discriminate|intros [_ H]; congruence].
  - apply Nat.eqb_neq in E. tauto.
Qed.

Lemma insert_in x y l : In x (insert y l) -> x = y \/ In x l.
Proof.
  induction l as [|z l IH]; cbn; [intros [H|[]]; auto|]. destruct (Nat.leb y z); cbn; intuition.
Qed.

Lemma refs_before_lt st x : In x (refs_before st) -> x < r_cur st.
Proof.
  unfold refs_before.
  assert (H : forall l, (forall y, In y l -> y < r_cur st) -> In x (fold_right insert [] l) -> x < r_cur st).
  { induction l as [|y l IH]; cbn; intros Hl I; [destruct I|].
    apply insert_in in I. destruct I as [->|I]; [apply Hl; left; reflexivity|].
    apply IH; [|exact I]. intros z Hz. apply Hl. right. exact Hz. }
  apply H. intros y I. apply filter_In in I. apply Nat.ltb_lt. exact (proj2 I).
Qed.

(* ---- the invariant ---- *)

Definition com_id (c : rcommit) : option nat :=
  match c with
  | CLook id _ | CSlice id _ _ | CLog id _ _ _ _ | CSet id _ _ _ => Some id
  | CIdle | CMark _ => None
  end.

Definition cover (c : rcommit) (s p j : nat) : Prop :=
  match c with
  | CLook _ s' => s' = s
  | CSlice _ s' p' => s' = s /\ p' = p
  | CLog _ s' p' _ upto | CSet _ s' p' upto => s' = s /\ p' = p /\ j < upto
  | CIdle | CMark _ => False
  end.

Definition live (st : rst) (s p : nat) (b : rblock) : Prop :=
  look (r_map st) s = Some p /\ nth_error (r_blocks st) p = Some b.

Definition kept (st : rst) (i s : nat) : Prop :=
  In i (r_handed st) \/
  exists p b d j, live st s p b /\ nth_error (r_bufs st) (rb_buf b) = Some d /\ In i (rb_recs b) /\
    nth_error d j = Some i /\
    (j < rb_off b \/ s = r_cur st \/ In s (map snd (r_queue st)) \/ cover (r_com st) s p j).

Record heap_ok (st : rst) : Prop := HO {
  h_map : forall s p, look (r_map st) s = Some p -> s <= r_cur st /\
          exists b, nth_error (r_blocks st) p = Some b;
  h_free : forall s p b, live st s p b -> ~ In (rb_buf b) (r_pool st);
  h_inj : forall s p b s' p' b', live st s p b -> live st s' p' b' -> s <> s' ->
          p <> p' /\ rb_buf b <> rb_buf b';
  h_cur : exists p, look (r_map st) (r_cur st) = Some p;
  h_bufs : forall p b, nth_error (r_blocks st) p = Some b -> rb_buf b < length (r_bufs st);
  h_pool : forall i, In i (r_pool st) -> i < length (r_bufs st);
  h_off : forall s p b d, live st s p b -> nth_error (r_bufs st) (rb_buf b) = Some d ->
          rb_off b <= length d /\
          forall j i, j < rb_off b -> nth_error d j = Some i ->
          exists id data, In id (rb_refs b) /\ In (id, data) (r_wal st) /\ In i data
}.

Record ids_ok (st : rst) : Prop := IO {
  d_refs : forall s p b id, live st s p b -> In id (rb_refs b) ->
           id < r_id st /\ ~ In id (map fst (r_queue st)) /\ com_id (r_com st) <> Some id;
  d_disj : forall s p b s' p' b' id, live st s p b -> live st s' p' b' -> s <> s' ->
           In id (rb_refs b) -> ~ In id (rb_refs b');
  d_nodup : NoDup (map fst (r_queue st));
  d_queue : forall id, In id (map fst (r_queue st)) -> id < r_id st;
  d_com : forall id, com_id (r_com st) = Some id -> id < r_id st /\ ~ In id (map fst (r_queue st))
}.

Definition own (st : rst) (s p : nat) : Prop :=
  p < length (r_blocks st) /\ forall s', look (r_map st) s' = Some p -> s' = s.

Definition com_ok (st : rst) : Prop :=
  match r_com st with
  | CSlice id s p => own st s p
  | CLog id s p data upto => own st s p /\
      forall b d, live st s p b -> nth_error (r_bufs st) (rb_buf b) = Some d ->
        rb_off b <= upto /\ upto <= length d /\
        forall j i, rb_off b <= j -> j < upto -> nth_error d j = Some i -> In i data
  | CSet id s p upto => own st s p /\
      exists data, In (id, data) (r_wal st) /\
      forall b d, live st s p b -> nth_error (r_bufs st) (rb_buf b) = Some d ->
        rb_off b <= upto /\ upto <= length d /\
        forall j i, rb_off b <= j -> j < upto -> nth_error d j = Some i -> In i data
  | _ => True
  end.

Definition puts_ok (st : rst) : Prop := forall i x, nth_error (r_puts st) i = Some x ->
  match x with
  | PTime s => s <= r_cur st
  | PBlk s p => s <= r_cur st /\ (s = r_cur st -> look (r_map st) s = Some p)
  | PDone s now => now <= r_cur st
  | PNew | PRefused => True
  end.

Definition time_ok (st : rst) : Prop := forall i s, in_time st i s -> kept st i s.

Definition todo_ok (st : rst) (todo : list nat) : Prop := forall s, In s todo -> s < r_cur st.

Definition iter_ok (st : rst) : Prop :=
  match r_iter st with
  | YIdle => True
  | YNext todo => todo_ok st todo
  | YBlk s p todo => s < r_cur st /\ look (r_map st) s = Some p /\ todo_ok st todo
  | YKeys s keys todo => s < r_cur st /\ todo_ok st todo /\
      forall i, in_time st i s -> In i (r_handed st) \/ In i keys
  | YFree s todo => s < r_cur st /\ todo_ok st todo /\
      forall i, in_time st i s -> In i (r_handed st)
  end.

Record inv (st : rst) : Prop := IV {
  v_heap : heap_ok st; v_ids : ids_ok st; v_com : com_ok st; v_puts : puts_ok st;
  v_time : time_ok st; v_iter : iter_ok st
}.

Lemma start_inv s : inv (rstart s).
Proof.
  constructor.
  - constructor; unfold live; cbn.
    + intros s' p H. destruct (Nat.eqb s s') eqn:E; [|discriminate]. apply Nat.eqb_eq in E.
      assert (p = 0) by congruence. subst. split; [lia|]. eexists; reflexivity.
    + intros s' p b [H1 H2] [].
    + intros s1 p1 b1 s2 p2 b2 [H1 _] [H2 _] D.
      destruct (Nat.eqb s s1) eqn:E1; [|discriminate]. destruct (Nat.eqb s s2) eqn:E2; [|discriminate].
      apply Nat.eqb_eq in E1, E2. congruence.
    + exists 0. rewrite Nat.eqb_refl. reflexivity.
    + intros [|[|p]] b H; try discriminate. assert (b = RB 0 [] 0 []) by (cbn in H; congruence).
      subst b. cbn. lia.
    + intros i [].
    + intros s' p b d [H1 H2] Hd. destruct (Nat.eqb s s'); [|discriminate].
      assert (p = 0) by congruence. subst. assert (b = RB 0 [] 0 []) by (cbn in H2; congruence). subst b.
      cbn. split; [lia|]. intros j i L. lia.
  - constructor; unfold live; cbn.
    + intros s' p b id [H1 H2] I. destruct (Nat.eqb s s'); [|discriminate].
      assert (p = 0) by congruence. subst. assert (b = RB 0 [] 0 []) by (cbn in H2; congruence). subst b.
      destruct I.
    + intros s' p b s2 p2 b2 id [H1 H2] _ _ I. destruct (Nat.eqb s s'); [|discriminate].
      assert (p = 0) by congruence. subst. assert (b = RB 0 [] 0 []) by (cbn in H2; congruence). subst b.
      destruct I.
    + constructor.
    + intros id [].
    + intros id H. discriminate.
  - exact I.
  - intros i x H. destruct i; discriminate.
  - intros i s' H. unfold in_time in H. cbn in H. destruct i; discriminate.
  - exact I.
Qed.

(* ---- a Put ---- *)

Lemma in_time_set st i x j s : (forall now, x <> PDone s now) ->
  in_time (set_put st i x) j s -> in_time st j s.
Proof.
  unfold in_time. cbn. intros N H. apply nth_upd in H. destruct H as [[_ H]|[_ H]]; [|exact H].
  exfalso. exact (N s (eq_sym H)).
Qed.

Lemma set_put_inv st i x : inv st ->
  (forall s now, x <> PDone s now) ->
  match x with
  | PTime s => s <= r_cur st
  | PBlk s p => s <= r_cur st /\ (s = r_cur st -> look (r_map st) s = Some p)
  | PDone s now => now <= r_cur st
  | PNew | PRefused => True
  end -> inv (set_put st i x).
Proof.
  intros [Hh Hi Hc Hp Ht Hy] N X. constructor.
  - destruct Hh. constructor; assumption.
  - destruct Hi. constructor; assumption.
  - exact Hc.
  - intros j y H. cbn in H. apply nth_upd in H. destruct H as [[_ ->]|[_ H]]; [exact X|].
    exact (Hp _ _ H).
  - intros j s H. apply in_time_set in H; [|apply N]. exact (Ht j s H).
  - unfold iter_ok in *. cbn [r_iter set_put]. destruct (r_iter st); try exact Hy.
    + destruct Hy as [A [B C]]. split; [exact A|]. split; [exact B|].
      intros j H. apply in_time_set in H; [|apply N]. exact (C j H).
    + destruct Hy as [A [B C]]. split; [exact A|]. split; [exact B|].
      intros j H. apply in_time_set in H; [|apply N]. exact (C j H).
Qed.

Lemma live_append st i s p b d s' p' b' :
  nth_error (r_blocks st) p = Some b -> nth_error (r_bufs st) (rb_buf b) = Some d ->
  live (append st i s p) s' p' b' ->
  (p' = p /\ live st s' p b /\ b' = RB (rb_buf b) (rb_recs b ++ [i]) (rb_off b) (rb_refs b)) \/
  (p' <> p /\ live st s' p' b').
Proof.
  intros Hb Hd. unfold live, append. rewrite Hb, Hd. cbn. intros [L N].
  apply nth_upd in N. destruct N as [[E ->]|[D N]].
  - subst p'. left. split; [reflexivity|]. split; [split; [exact L|reflexivity]|reflexivity].
  - right. split; [congruence|]. split; assumption.
Qed.

(* The buffers only grow. *)
Lemma buf_append st i s p b d k d' :
  nth_error (r_blocks st) p = Some b -> nth_error (r_bufs st) (rb_buf b) = Some d ->
  nth_error (r_bufs (append st i s p)) k = Some d' ->
  exists d0, nth_error (r_bufs st) k = Some d0 /\ (d' = d0 \/ (k = rb_buf b /\ d' = d0 ++ [i])).
Proof.
  intros Hb Hd. unfold append. rewrite Hb, Hd. cbn. intros H. apply nth_upd in H.
  destruct H as [[<- ->]|[D H]].
  - exists d. split; [exact Hd|]. right. split; reflexivity.
  - exists d'. split; [exact H|]. left. reflexivity.
Qed.

(* The old block behind a block after an append, with its buffer. *)
Lemma back_append st i s p b d s' p' b' d' :
  nth_error (r_blocks st) p = Some b -> nth_error (r_bufs st) (rb_buf b) = Some d ->
  live (append st i s p) s' p' b' -> nth_error (r_bufs (append st i s p)) (rb_buf b') = Some d' ->
  exists b0 d0 e, live st s' p' b0 /\ rb_buf b' = rb_buf b0 /\ rb_off b' = rb_off b0 /\
    rb_refs b' = rb_refs b0 /\ nth_error (r_bufs st) (rb_buf b0) = Some d0 /\ d' = d0 ++ e.
Proof.
  intros Hb Hd L N.
  assert (Q : exists b0, live st s' p' b0 /\ rb_buf b' = rb_buf b0 /\ rb_off b' = rb_off b0 /\
              rb_refs b' = rb_refs b0).
  { destruct (live_append _ _ _ _ _ _ _ _ _ Hb Hd L) as [[-> [L0 ->]]|[_ L0]].
    - exists b. split; [exact L0|]. cbn. auto.
    - exists b'. split; [exact L0|]. auto. }
  destruct Q as [b0 [L0 [Eb [Eo Er]]]]. rewrite Eb in N.
  destruct (buf_append _ _ _ _ _ _ _ _ Hb Hd N) as [d0 [N0 E]].
  destruct E as [->|[_ ->]].
  - exists b0, d0, []. rewrite app_nil_r. auto 10.
  - exists b0, d0, [i]. auto 10.
Qed.

Lemma nth_app_back {A : Type} (d e : list A) j x n : j < n -> n <= length d ->
  nth_error (d ++ e) j = Some x -> nth_error d j = Some x.
Proof. intros L N H. rewrite nth_error_app1 in H by lia. exact H. Qed.

Lemma append_slice (d0 e data : list nat) o upto :
  (o <= upto /\ upto <= length d0 /\
   forall j i, o <= j -> j < upto -> nth_error d0 j = Some i -> In i data) ->
  o <= upto /\ upto <= length (d0 ++ e) /\
  forall j i, o <= j -> j < upto -> nth_error (d0 ++ e) j = Some i -> In i data.
Proof.
  intros [A [B C]]. rewrite app_length. split; [lia|]. split; [lia|].
  intros j k L1 L2 N. apply (C j k L1 L2). exact (nth_app_back _ _ _ _ _ L2 B N).
Qed.

Lemma append_inv st i s p : inv st -> nth_error (r_puts st) i = Some (PBlk s p) -> inv (append st i s p).
Proof.
  intros IH HP. destruct IH as [Hh Hi Hc Hp Ht Hy].
  destruct (nth_error (r_blocks st) p) as [b|] eqn:Hb.
  2:{ unfold append. rewrite Hb. constructor; assumption. }
  destruct (nth_error (r_bufs st) (rb_buf b)) as [d|] eqn:Hd.
  2:{ unfold append. rewrite Hb, Hd. constructor; assumption. }
  assert (Ecur : r_cur (append st i s p) = r_cur st) by (unfold append; rewrite Hb, Hd; reflexivity).
  assert (Eid : r_id (append st i s p) = r_id st) by (unfold append; rewrite Hb, Hd; reflexivity).
  assert (Emap : r_map (append st i s p) = r_map st) by (unfold append; rewrite Hb, Hd; reflexivity).
  assert (Epool : r_pool (append st i s p) = r_pool st) by (unfold append; rewrite Hb, Hd; reflexivity).
  assert (Eq : r_queue (append st i s p) = r_queue st) by (unfold append; rewrite Hb, Hd; reflexivity).
  assert (Ecom : r_com (append st i s p) = r_com st) by (unfold append; rewrite Hb, Hd; reflexivity).
  assert (Ewal : r_wal (append st i s p) = r_wal st) by (unfold append; rewrite Hb, Hd; reflexivity).
  assert (Eiter : r_iter (append st i s p) = r_iter st) by (unfold append; rewrite Hb, Hd; reflexivity).
  assert (Ehand : r_handed (append st i s p) = r_handed st) by (unfold append; rewrite Hb, Hd; reflexivity).
  assert (Elen : length (r_bufs (append st i s p)) = length (r_bufs st))
    by (unfold append; rewrite Hb, Hd; cbn; apply length_upd).
  assert (Eblen : length (r_blocks (append st i s p)) = length (r_blocks st))
    by (unfold append; rewrite Hb, Hd; cbn; apply length_upd).
  assert (Eputs : r_puts (append st i s p) = upd i (PDone s (r_cur st)) (r_puts st))
    by (unfold append; rewrite Hb, Hd; reflexivity).
  (* blocks: same buffer, offset and refs *)
  assert (BK : forall s' p' b', live (append st i s p) s' p' b' ->
            exists b0, live st s' p' b0 /\ rb_buf b' = rb_buf b0 /\ rb_refs b' = rb_refs b0).
  { intros s' p' b' L. destruct (live_append _ _ _ _ _ _ _ _ _ Hb Hd L) as [[-> [L0 ->]]|[_ L0]].
    - exists b. cbn. auto.
    - exists b'. auto. }
  (* a timely record stays where it is *)
  assert (KP : forall j s', kept st j s' -> kept (append st i s p) j s').
  { intros j s' [K|[p' [b' [d' [k [L [N [Ir [Nk C]]]]]]]]]; [left; rewrite Ehand; exact K|]. right.
    destruct L as [Lm Lb].
    assert (N' : exists e, nth_error (r_bufs (append st i s p)) (rb_buf b') = Some (d' ++ e)).
    { unfold append. rewrite Hb, Hd. cbn. destruct (Nat.eq_dec (rb_buf b) (rb_buf b')) as [E|E].
      - rewrite E in *. rewrite N in Hd. assert (d = d') by congruence. subst d.
        exists [i]. apply (nth_upd_same _ _ _ _ N).
      - exists []. rewrite app_nil_r. rewrite nth_upd_other by exact E. exact N. }
    destruct N' as [e N'].
    destruct (Nat.eq_dec p p') as [E|E].
    - subst p'. assert (b' = b) by congruence. subst b'.
      exists p, (RB (rb_buf b) (rb_recs b ++ [i]) (rb_off b) (rb_refs b)), (d' ++ e), k.
      split; [split; [rewrite Emap; exact Lm|]|].
      { unfold append. rewrite Hb, Hd. cbn. apply (nth_upd_same _ _ _ _ Hb). }
      split; [exact N'|]. split; [cbn; apply in_or_app; left; exact Ir|].
      split; [apply nth_app_old; exact Nk|]. cbn [rb_off]. rewrite Ecur, Eq, Ecom. exact C.
    - exists p', b', (d' ++ e), k.
      split; [split; [rewrite Emap; exact Lm|]|].
      { unfold append. rewrite Hb, Hd. cbn. rewrite nth_upd_other by exact E. exact Lb. }
      split; [exact N'|]. split; [exact Ir|].
      split; [apply nth_app_old; exact Nk|]. rewrite Ecur, Eq, Ecom. exact C. }
  constructor.
  - constructor.
    + intros s' p' L. rewrite Emap in L. rewrite Ecur. destruct (h_map _ Hh _ _ L) as [A [b0 B]].
      split; [exact A|]. unfold append. rewrite Hb, Hd. cbn.
      destruct (Nat.eq_dec p p') as [->|E].
      * eexists. apply (nth_upd_same _ _ _ _ Hb).
      * exists b0. rewrite nth_upd_other by exact E. exact B.
    + intros s' p' b' L. rewrite Epool. destruct (BK _ _ _ L) as [b0 [L0 [E _]]]. rewrite E.
      exact (h_free _ Hh _ _ _ L0).
    + intros s1 p1 b1 s2 p2 b2 L1 L2 D. destruct (BK _ _ _ L1) as [b3 [L3 [E3 _]]].
      destruct (BK _ _ _ L2) as [b4 [L4 [E4 _]]]. rewrite E3, E4. exact (h_inj _ Hh _ _ _ _ _ _ L3 L4 D).
    + rewrite Ecur, Emap. exact (h_cur _ Hh).
    + intros p' b' N. rewrite Elen. unfold append in N. rewrite Hb, Hd in N. cbn in N.
      apply nth_upd in N. destruct N as [[_ ->]|[_ N]]; [exact (h_bufs _ Hh _ _ Hb)|exact (h_bufs _ Hh _ _ N)].
    + intros k I. rewrite Elen. rewrite Epool in I. exact (h_pool _ Hh _ I).
    + intros s' p' b' d' L N.
      destruct (back_append _ _ _ _ _ _ _ _ _ _ Hb Hd L N) as [b0 [d0 [e [L0 [Eb [Eo [Er [N0 ->]]]]]]]].
      destruct (h_off _ Hh _ _ _ _ L0 N0) as [A B]. rewrite Eo, Er, Ewal, app_length.
      split; [lia|]. intros j k Lj Nj. apply (B j k Lj). exact (nth_app_back _ _ _ _ _ Lj A Nj).
  - constructor.
    + intros s' p' b' id L I. destruct (BK _ _ _ L) as [b0 [L0 [_ Er]]]. rewrite Er in I.
      rewrite Eid, Eq, Ecom. exact (d_refs _ Hi _ _ _ _ L0 I).
    + intros s1 p1 b1 s2 p2 b2 id L1 L2 D. destruct (BK _ _ _ L1) as [b3 [L3 [_ E3]]].
      destruct (BK _ _ _ L2) as [b4 [L4 [_ E4]]]. rewrite E3, E4. exact (d_disj _ Hi _ _ _ _ _ _ _ L3 L4 D).
    + rewrite Eq. exact (d_nodup _ Hi).
    + rewrite Eq, Eid. exact (d_queue _ Hi).
    + rewrite Ecom, Eq, Eid. exact (d_com _ Hi).
  - unfold com_ok in *. rewrite Ecom. destruct (r_com st) as [| | |id s' p' data upto|id s' p' upto|]; try exact Hc.
    + unfold own. rewrite Eblen, Emap. exact Hc.
    + unfold own. rewrite Eblen, Emap. destruct Hc as [HL Hc]. split; [exact HL|]. intros b' d' L N.
      destruct (back_append _ _ _ _ _ _ _ _ _ _ Hb Hd L N) as [b0 [d0 [e [L0 [Eb [Eo [Er [N0 ->]]]]]]]].
      rewrite Eo. apply append_slice. exact (Hc _ _ L0 N0).
    + unfold own. rewrite Eblen, Emap. destruct Hc as [HL [data [W Hc]]]. split; [exact HL|]. exists data. rewrite Ewal. split; [exact W|]. intros b' d' L N.
      destruct (back_append _ _ _ _ _ _ _ _ _ _ Hb Hd L N) as [b0 [d0 [e [L0 [Eb [Eo [Er [N0 ->]]]]]]]].
      rewrite Eo. apply append_slice. exact (Hc _ _ L0 N0).
  - intros j x N. rewrite Eputs in N. rewrite Ecur, Emap. apply nth_upd in N.
    destruct N as [[_ ->]|[_ N]]; [lia|exact (Hp _ _ N)].
  - intros j s' H. unfold in_time in H. rewrite Eputs in H. apply nth_upd in H.
    destruct H as [[<- H]|[_ H]].
    + assert (s' = s) by congruence. assert (Es : s = r_cur st) by congruence. subst s'. clear H. right.
      destruct (Hp _ _ HP) as [_ Q]. pose proof (Q Es) as Lm.
      exists p, (RB (rb_buf b) (rb_recs b ++ [i]) (rb_off b) (rb_refs b)), (d ++ [i]), (length d).
      unfold live. rewrite Emap. split.
      { split; [exact Lm|]. unfold append. rewrite Hb, Hd. cbn. apply (nth_upd_same _ _ _ _ Hb). }
      split; [unfold append; rewrite Hb, Hd; cbn; apply (nth_upd_same _ _ _ _ Hd)|].
      split; [cbn; apply in_or_app; right; left; reflexivity|].
      split; [rewrite nth_error_app2 by lia; rewrite Nat.sub_diag; reflexivity|].
      right. left. rewrite Ecur. exact Es.
    + apply KP. exact (Ht j s' H).
  - unfold iter_ok in *. rewrite Eiter.
    assert (TD : forall s', s' < r_cur st -> forall j, in_time (append st i s p) j s' -> in_time st j s').
    { intros s' L j H. unfold in_time in *. rewrite Eputs in H. apply nth_upd in H.
      destruct H as [[_ H]|[_ H]]; [|exact H].
      assert (s' = s) by congruence. assert (s' = r_cur st) by congruence. lia. }
    destruct (r_iter st) as [|todo|s' p' todo|s' keys todo|s' todo].
    + exact I.
    + intros x Hx. rewrite Ecur. exact (Hy x Hx).
    + rewrite Ecur, Emap. destruct Hy as [A [B C]]. split; [exact A|]. split; [exact B|].
      intros x Hx. rewrite Ecur. exact (C x Hx).
    + rewrite Ecur, Ehand. destruct Hy as [A [B C]]. split; [exact A|]. split.
      * intros x Hx. rewrite Ecur. exact (B x Hx).
      * intros j H. exact (C j (TD s' A j H)).
    + rewrite Ecur, Ehand. destruct Hy as [A [B C]]. split; [exact A|]. split.
      * intros x Hx. rewrite Ecur. exact (B x Hx).
      * intros j H. exact (C j (TD s' A j H)).
Qed.

Lemma put_inv st i : inv st -> inv (put_step st i).
Proof.
  intros H. unfold put_step. destruct (nth_error (r_puts st) i) as [[|s|s p|s now|]|] eqn:E; try exact H.
  - apply set_put_inv; [exact H|discriminate|lia].
  - pose proof (v_puts _ H _ _ E) as L. cbn in L.
    destruct (look (r_map st) s) as [p|] eqn:M; apply set_put_inv; try exact H; try discriminate; [|exact I].
    split; [exact L|]. intros _. exact M.
  - apply append_inv; assumption.
Qed.

(* ---- the write loop ---- *)

Lemma tick_inv st s pick : inv st -> inv (tick_step st s pick).
Proof.
  intros IH. unfold tick_step. destruct (Nat.leb (r_cur st) s) eqn:Ls; [|exact IH].
  apply Nat.leb_le in Ls. destruct IH as [Hh Hi Hc Hp Ht Hy].
  destruct (add_block st s pick) as [[[bufs pool] blocks] m] eqn:AB.
  (* what add_block does *)
  assert (OLD : (forall p b, nth_error (r_blocks st) p = Some b -> nth_error blocks p = Some b) /\
                (forall s', s' <> s -> look m s' = look (r_map st) s') /\
                (forall s' p, look (r_map st) s' = Some p -> look m s' = Some p) /\
                (exists p, look m s = Some p)).
  { unfold add_block in AB. destruct (look (r_map st) s) as [q|] eqn:L.
    - assert (blocks = r_blocks st) by congruence. assert (m = r_map st) by congruence. subst.
      repeat split; auto. exists q. exact L.
    - assert (E1 : blocks = r_blocks st ++ [RB match pick with Some i => if existsb (Nat.eqb i) (r_pool st) then i else length (r_bufs st) | None => length (r_bufs st) end [] 0 []] /\ m = (s, length (r_blocks st)) :: r_map st).
      { destruct pick as [i|]; [destruct (existsb (Nat.eqb i) (r_pool st))|]; split; congruence. }
      destruct E1 as [-> ->]. split; [intros p b N; apply nth_app_old; exact N|]. split.
      + intros s' D. cbn. destruct (Nat.eqb s s') eqn:E; [apply Nat.eqb_eq in E; congruence|reflexivity].
      + split.
        * intros s' p L'. cbn. destruct (Nat.eqb s s') eqn:E; [apply Nat.eqb_eq in E; congruence|exact L'].
        * cbn. rewrite Nat.eqb_refl. eexists; reflexivity. }
  destruct OLD as [OB [OM [OM2 [q Lq]]]].
  (* live blocks: old ones with unchanged buffers, or the new one *)
  assert (LV : forall s' p b, look m s' = Some p -> nth_error blocks p = Some b ->
    (live st s' p b /\ nth_error bufs (rb_buf b) = nth_error (r_bufs st) (rb_buf b) /\ ~ In (rb_buf b) pool) \/
    (s' = s /\ look (r_map st) s = None /\ rb_recs b = [] /\ rb_off b = 0 /\ rb_refs b = [] /\
     nth_error bufs (rb_buf b) = Some [] /\ ~ In (rb_buf b) pool /\ p = length (r_blocks st) /\
     forall s2 p2 b2, live st s2 p2 b2 -> rb_buf b2 <> rb_buf b)).
  { intros s' p b L N. unfold add_block in AB. destruct (look (r_map st) s) as [q0|] eqn:Lk.
    - assert (blocks = r_blocks st) by congruence. assert (m = r_map st) by congruence.
      assert (bufs = r_bufs st) by congruence. assert (pool = r_pool st) by congruence. subst.
      left. split; [split; assumption|]. split; [reflexivity|]. apply (h_free _ Hh s' p). split; assumption.
    - assert (Lo : look m s' = if Nat.eqb s s' then Some (length (r_blocks st)) else look (r_map st) s').
      { destruct pick as [i|]; [destruct (existsb (Nat.eqb i) (r_pool st))|];
          assert (m = (s, length (r_blocks st)) :: r_map st) by congruence; subst m; reflexivity. }
      rewrite L in Lo. destruct (Nat.eqb s s') eqn:E.
      + apply Nat.eqb_eq in E. subst s'. right. assert (p = length (r_blocks st)) by congruence. subst p.
        assert (NB : forall i r, nth_error (r_blocks st ++ [RB i [] 0 r]) (length (r_blocks st)) = Some (RB i [] 0 r))
          by (intros i r; rewrite nth_error_app2 by lia; rewrite Nat.sub_diag; reflexivity).
        assert (CASE : (exists i, In i (r_pool st) /\ bufs = upd i [] (r_bufs st) /\ pool = without i (r_pool st) /\ b = RB i [] 0 []) \/
                       (bufs = r_bufs st ++ [[]] /\ pool = r_pool st /\ b = RB (length (r_bufs st)) [] 0 [])).
        { destruct pick as [i|]; [destruct (existsb (Nat.eqb i) (r_pool st)) eqn:X|].
          - left. exists i. apply existsb_exists in X. destruct X as [i' [Ii X]]. apply Nat.eqb_eq in X. subst i'.
            split; [exact Ii|]. split; [congruence|]. split; [congruence|].
            assert (blocks = r_blocks st ++ [RB i [] 0 []]) by congruence. subst blocks.
            rewrite NB in N. congruence.
          - right. split; [congruence|]. split; [congruence|].
            assert (blocks = r_blocks st ++ [RB (length (r_bufs st)) [] 0 []]) by congruence. subst blocks.
            rewrite NB in N. congruence.
          - right. split; [congruence|]. split; [congruence|].
            assert (blocks = r_blocks st ++ [RB (length (r_bufs st)) [] 0 []]) by congruence. subst blocks.
            rewrite NB in N. congruence. }
        split; [reflexivity|]. split; [reflexivity|].
        destruct CASE as [[i [Ii [-> [-> ->]]]]|[-> [-> ->]]]; cbn.
        * split; [reflexivity|]. split; [reflexivity|]. split; [reflexivity|].
          destruct (nth_some _ _ (h_pool _ Hh _ Ii)) as [x Hx].
          split; [exact (nth_upd_same _ _ _ _ Hx)|].
          split; [intros Q; apply in_without in Q; destruct Q; congruence|]. split; [reflexivity|].
          intros s2 p2 b2 L2 Eb. pose proof (h_free _ Hh _ _ _ L2) as F. rewrite Eb in F. exact (F Ii).
        * split; [reflexivity|]. split; [reflexivity|]. split; [reflexivity|].
          split; [rewrite nth_error_app2 by lia; rewrite Nat.sub_diag; reflexivity|].
          split; [intros Q; pose proof (h_pool _ Hh _ Q); lia|]. split; [reflexivity|].
          intros s2 p2 b2 L2 Eb. pose proof (h_bufs _ Hh _ _ (proj2 L2)). lia.
      + left. symmetry in Lo. destruct (h_map _ Hh _ _ Lo) as [_ [b0 N0]].
        pose proof (OB _ _ N0) as N1. assert (b0 = b) by congruence. subst b0.
        assert (LL : live st s' p b) by (split; assumption). split; [exact LL|].
        pose proof (h_free _ Hh _ _ _ LL) as F. pose proof (h_bufs _ Hh _ _ N0) as BL.
        destruct pick as [i|]; [destruct (existsb (Nat.eqb i) (r_pool st)) eqn:X|].
        * apply existsb_exists in X. destruct X as [i' [Ii X]]. apply Nat.eqb_eq in X. subst i'.
          assert (bufs = upd i [] (r_bufs st)) by congruence. assert (pool = without i (r_pool st)) by congruence. subst.
          split; [apply nth_upd_other; intros ->; exact (F Ii)|].
          intros Q. apply in_without in Q. exact (F (proj1 Q)).
        * assert (bufs = r_bufs st ++ [[]]) by congruence. assert (pool = r_pool st) by congruence. subst.
          split; [apply nth_error_app1; exact BL|exact F].
        * assert (bufs = r_bufs st ++ [[]]) by congruence. assert (pool = r_pool st) by congruence. subst.
          split; [apply nth_error_app1; exact BL|exact F]. }
  assert (LEN : length (r_bufs st) <= length bufs /\ (forall p b, nth_error blocks p = Some b -> rb_buf b < length bufs) /\
                (forall i, In i pool -> i < length bufs)).
  { assert (B0 : forall p b, nth_error (r_blocks st) p = Some b -> rb_buf b < length (r_bufs st)) by exact (h_bufs _ Hh).
    assert (P0 : forall i, In i (r_pool st) -> i < length (r_bufs st)) by exact (h_pool _ Hh).
    unfold add_block in AB. destruct (look (r_map st) s) as [q0|] eqn:Lk.
    - assert (blocks = r_blocks st) by congruence. assert (bufs = r_bufs st) by congruence.
      assert (pool = r_pool st) by congruence. subst. auto.
    - destruct pick as [i|]; [destruct (existsb (Nat.eqb i) (r_pool st)) eqn:X|].
      + apply existsb_exists in X. destruct X as [i' [Ii X]]. apply Nat.eqb_eq in X. subst i'.
        assert (bufs = upd i [] (r_bufs st)) by congruence. assert (pool = without i (r_pool st)) by congruence.
        assert (blocks = r_blocks st ++ [RB i [] 0 []]) by congruence. subst. rewrite length_upd.
        split; [lia|]. split.
        * intros p b N. apply nth_snoc in N. destruct N as [N|[_ ->]]; [exact (B0 _ _ N)|cbn; exact (P0 _ Ii)].
        * intros k Q. apply in_without in Q. exact (P0 _ (proj1 Q)).
      + assert (bufs = r_bufs st ++ [[]]) by congruence. assert (pool = r_pool st) by congruence.
        assert (blocks = r_blocks st ++ [RB (length (r_bufs st)) [] 0 []]) by congruence. subst. rewrite app_length. cbn.
        split; [lia|]. split.
        * intros p b N. apply nth_snoc in N. destruct N as [N|[_ ->]]; [pose proof (B0 _ _ N); lia|cbn; lia].
        * intros k Q. pose proof (P0 _ Q). lia.
      + assert (bufs = r_bufs st ++ [[]]) by congruence. assert (pool = r_pool st) by congruence.
        assert (blocks = r_blocks st ++ [RB (length (r_bufs st)) [] 0 []]) by congruence. subst. rewrite app_length. cbn.
        split; [lia|]. split.
        * intros p b N. apply nth_snoc in N. destruct N as [N|[_ ->]]; [pose proof (B0 _ _ N); lia|cbn; lia].
        * intros k Q. pose proof (P0 _ Q). lia. }
  destruct LEN as [_ [LB LP]].
  assert (BL : length (r_blocks st) <= length blocks).
  { destruct (Nat.le_gt_cases (length (r_blocks st)) (length blocks)) as [L|L]; [exact L|].
    destruct (nth_some _ _ L) as [x Hx]. pose proof (nth_lt _ _ _ (OB _ _ Hx)). lia. }
  assert (OWN : forall s' p', own st s' p' -> p' < length blocks /\
                forall s2, look m s2 = Some p' -> s2 = s').
  { intros s' p' [A B]. split; [lia|]. intros s2 L2. destruct (nth_some _ _ A) as [b0 N0].
    destruct (LV _ _ _ L2 (OB _ _ N0)) as [[[V _] _]|[_ [_ [_ [_ [_ [_ [_ [Ep _]]]]]]]]]; [|lia].
    exact (B _ V). }
  assert (OLDC : forall s' p, look m s' = Some p -> s' = s \/ s' <= r_cur st).
  { intros s' p L. destruct (Nat.eq_dec s' s) as [->|D]; [left; reflexivity|]. right.
    rewrite (OM _ D) in L. exact (proj1 (h_map _ Hh _ _ L)). }
  constructor.
  - constructor; unfold live; cbn [r_map r_blocks r_bufs r_pool r_cur r_wal].
    + intros s' p L. split; [destruct (OLDC _ _ L); lia|].
      destruct (look (r_map st) s') as [p0|] eqn:E.
      * pose proof (OM2 _ _ E). assert (p0 = p) by congruence. subst p0.
        destruct (h_map _ Hh _ _ E) as [_ [b N]]. exists b. exact (OB _ _ N).
      * assert (s' = s).
        { destruct (Nat.eq_dec s' s) as [D|D]; [exact D|]. rewrite (OM _ D) in L. congruence. }
        subst s'. unfold add_block in AB. rewrite E in AB.
        assert (Hn : exists b, blocks = r_blocks st ++ [b] /\ m = (s, length (r_blocks st)) :: r_map st).
        { destruct pick as [i|]; [destruct (existsb (Nat.eqb i) (r_pool st))|]; eexists; split;
            try (symmetry; exact (f_equal (fun z => snd (fst z)) AB)); congruence. }
        destruct Hn as [b [-> ->]]. cbn in L. rewrite Nat.eqb_refl in L.
        assert (p = length (r_blocks st)) by congruence. subst p. exists b.
        rewrite nth_error_app2 by lia. rewrite Nat.sub_diag. reflexivity.
    + intros s' p b [L N]. destruct (LV _ _ _ L N) as [[_ [_ F]]|[_ [_ [_ [_ [_ [_ [F _]]]]]]]]; exact F.
    + intros s1 p1 b1 s2 p2 b2 [L1 N1] [L2 N2] D.
      destruct (LV _ _ _ L1 N1) as [[V1 _]|V1]; destruct (LV _ _ _ L2 N2) as [[V2 _]|V2].
      * exact (h_inj _ Hh _ _ _ _ _ _ V1 V2 D).
      * destruct V2 as [_ [_ [_ [_ [_ [_ [_ [Ep V2]]]]]]]]. split; [|exact (V2 _ _ _ V1)].
        pose proof (nth_lt _ _ _ (proj2 V1)). lia.
      * destruct V1 as [_ [_ [_ [_ [_ [_ [_ [Ep V1]]]]]]]]. split; [|intros E; exact (V1 _ _ _ V2 (eq_sym E))].
        pose proof (nth_lt _ _ _ (proj2 V2)). lia.
      * exfalso. destruct V1 as [E1 _]. destruct V2 as [E2 _]. congruence.
    + exists q. exact Lq.
    + exact LB.
    + exact LP.
    + intros s' p b d [L N] Nd. destruct (LV _ _ _ L N) as [[V [E _]]|[_ [_ [_ [Eo [_ [_ _]]]]]]].
      * rewrite E in Nd. exact (h_off _ Hh _ _ _ _ V Nd).
      * rewrite Eo. split; [lia|]. intros j i Lj. lia.
  - constructor; unfold live; cbn [r_map r_blocks r_queue r_id r_com].
    + intros s' p b id [L N] J. destruct (LV _ _ _ L N) as [[V _]|[_ [_ [_ [_ [Er _]]]]]].
      * destruct (d_refs _ Hi _ _ _ _ V J) as [A [B C]]. split; [lia|]. split; [|exact C].
        rewrite map_app, in_app_iff. cbn. intros [Q|[Q|[]]]; [exact (B Q)|lia].
      * rewrite Er in J. destruct J.
    + intros s1 p1 b1 s2 p2 b2 id [L1 N1] [L2 N2] D J K.
      destruct (LV _ _ _ L1 N1) as [[V1 _]|[_ [_ [_ [_ [Er _]]]]]]; [|rewrite Er in J; destruct J].
      destruct (LV _ _ _ L2 N2) as [[V2 _]|[_ [_ [_ [_ [Er _]]]]]]; [|rewrite Er in K; destruct K].
      exact (d_disj _ Hi _ _ _ _ _ _ _ V1 V2 D J K).
    + rewrite map_app. cbn. pose proof (d_nodup _ Hi) as ND. pose proof (d_queue _ Hi) as DQ.
      revert ND DQ. generalize (map fst (r_queue st)). intros l ND DQ.
      apply NoDup_rev in ND. rewrite <- (rev_involutive (l ++ [r_id st])). apply NoDup_rev.
      rewrite rev_app_distr. cbn. constructor; [|exact ND].
      rewrite <- in_rev. intros Q. pose proof (DQ _ Q). lia.
    + intros id J. rewrite map_app in J. apply in_app_or in J. cbn in J.
      destruct J as [J|[J|[]]]; [pose proof (d_queue _ Hi _ J); lia|lia].
    + intros id E. destruct (d_com _ Hi _ E) as [A B]. split; [lia|].
      rewrite map_app, in_app_iff. cbn. intros [Q|[Q|[]]]; [exact (B Q)|lia].
  - unfold com_ok in *. cbn [r_com]. destruct (r_com st) as [| | |id s' p' data upto|id s' p' upto|]; try exact Hc.
    + exact (OWN _ _ Hc).
    + destruct Hc as [HL Hc]. split; [exact (OWN _ _ HL)|].
      intros b d [L N] Nd. cbn in L, N, Nd. destruct (LV _ _ _ L N) as [[V [E _]]|V].
      * rewrite E in Nd. exact (Hc _ _ V Nd).
      * exfalso. destruct V as [_ [_ [_ [_ [_ [_ [_ [Ep _]]]]]]]]. destruct HL. lia.
    + destruct Hc as [HL [data [W Hc]]]. split; [exact (OWN _ _ HL)|]. exists data. split; [exact W|].
      intros b d [L N] Nd. cbn in L, N, Nd. destruct (LV _ _ _ L N) as [[V [E _]]|V].
      * rewrite E in Nd. exact (Hc _ _ V Nd).
      * exfalso. destruct V as [_ [_ [_ [_ [_ [_ [_ [Ep _]]]]]]]]. destruct HL. lia.
  - intros i x N. cbn in N. pose proof (Hp _ _ N) as Q. cbn [r_cur r_map].
    destruct x; try exact I; try lia.
    destruct Q as [Q1 Q2]. split; [lia|]. intros ->. assert (Ec : s = r_cur st) by lia.
    rewrite Ec in *. rewrite (OM2 _ _ (Q2 eq_refl)). reflexivity.
  - intros i s' H. change (in_time st i s') in H.
    destruct (Ht i s' H) as [K|[p [b [d [j [[Lm Lb] [Nd [Ir [Nj C]]]]]]]]]; [left; exact K|]. right.
    exists p, b, d, j. pose proof (OM2 _ _ Lm) as Lm'. pose proof (OB _ _ Lb) as Lb'.
    split; [split; assumption|].
    destruct (LV _ _ _ Lm' Lb') as [[_ [E _]]|V].
    2:{ exfalso. destruct V as [-> [Ln _]]. congruence. }
    cbn [r_bufs r_cur r_queue r_com]. rewrite E. split; [exact Nd|]. split; [exact Ir|]. split; [exact Nj|].
    destruct C as [C|[C|[C|C]]]; auto.
    + right. right. left. rewrite map_app. apply in_or_app. right. left. symmetry. exact C.
    + right. right. left. rewrite map_app. apply in_or_app. left. exact C.
  - unfold iter_ok in *. cbn [r_iter].
    assert (TD : forall todo, todo_ok st todo -> todo_ok (RS s (S (r_id st)) bufs pool blocks m
      (r_queue st ++ [(r_id st, r_cur st)]) (r_com st) (r_wal st) (s :: without s (r_marks st)) (r_rel st)
      (r_iter st) (r_puts st) (r_handed st)) todo).
    { intros todo T x Hx. cbn. pose proof (T x Hx). lia. }
    destruct (r_iter st) as [|todo|s' p' todo|s' keys todo|s' todo].
    + exact I.
    + exact (TD _ Hy).
    + destruct Hy as [A [B C]]. cbn [r_cur r_map]. split; [lia|]. split; [exact (OM2 _ _ B)|exact (TD _ C)].
    + destruct Hy as [A [B C]]. cbn [r_cur r_map]. split; [lia|]. split; [exact (TD _ B)|exact C].
    + destruct Hy as [A [B C]]. cbn [r_cur r_map]. split; [lia|]. split; [exact (TD _ B)|exact C].
Qed.

(* ---- the commit loop ---- *)

(* Changing only the committer. *)
Lemma set_com_inv st c : inv st ->
  (forall id, com_id c = Some id -> id < r_id st /\ ~ In id (map fst (r_queue st)) /\
     forall s p b, live st s p b -> ~ In id (rb_refs b)) ->
  com_ok (set_com st c) ->
  (forall s p b d j i, live st s p b -> nth_error (r_bufs st) (rb_buf b) = Some d ->
     nth_error d j = Some i -> cover (r_com st) s p j -> j < rb_off b \/ cover c s p j) ->
  inv (set_com st c).
Proof.
  intros [Hh Hi Hc Hp Ht Hy] D C V. constructor.
  - destruct Hh. constructor; assumption.
  - destruct Hi as [I1 I2 I3 I4 I5]. constructor.
    + intros s p b id L J. destruct (I1 _ _ _ _ L J) as [A [B _]]. split; [exact A|]. split; [exact B|].
      intros E. destruct (D id E) as [_ [_ Q]]. exact (Q _ _ _ L J).
    + exact I2.
    + exact I3.
    + exact I4.
    + intros id E. destruct (D id E) as [A [B _]]. split; assumption.
  - exact C.
  - exact Hp.
  - intros i s H. destruct (Ht i s H) as [K|[p [b [d [j [L [Nd [Ir [Nj K]]]]]]]]]; [left; exact K|]. right.
    exists p, b, d, j. split; [exact L|]. split; [exact Nd|]. split; [exact Ir|]. split; [exact Nj|].
    destruct K as [K|[K|[K|K]]]; auto. destruct (V _ _ _ _ _ _ L Nd Nj K); auto.
  - exact Hy.
Qed.

Lemma com_fresh st id : inv st -> com_id (r_com st) = Some id ->
  id < r_id st /\ ~ In id (map fst (r_queue st)) /\ forall s p b, live st s p b -> ~ In id (rb_refs b).
Proof.
  intros H E. destruct (d_com _ (v_ids _ H) _ E) as [A B]. split; [exact A|]. split; [exact B|].
  intros s p b L J. destruct (d_refs _ (v_ids _ H) _ _ _ _ L J) as [_ [_ Q]]. exact (Q E).
Qed.

Lemma commit_inv st : inv st -> inv (commit_step st).
Proof.
  intros H. unfold commit_step. destruct (r_com st) as [|id s|id s p|id s p data upto|id s p upto|s] eqn:EC.
  - destruct (r_queue st) as [|[id s] q] eqn:EQ; [exact H|].
    destruct H as [Hh Hi Hc Hp Ht Hy]. constructor.
    + destruct Hh. constructor; assumption.
    + destruct Hi as [I1 I2 I3 I4 I5]. rewrite EQ in *. cbn [map fst] in *.
      constructor; cbn [r_queue r_com r_id com_id].
      * intros s' p b id' L J. destruct (I1 _ _ _ _ L J) as [A [B _]]. split; [exact A|].
        split; [intros Q; apply B; right; exact Q|]. intros E. apply B. left. congruence.
      * exact I2.
      * inversion I3; assumption.
      * intros id' J. apply I4. right. exact J.
      * intros id' E. assert (id' = id) by congruence. subst id'. split; [apply I4; left; reflexivity|].
        inversion I3; assumption.
    + exact I.
    + exact Hp.
    + intros i s' T. destruct (Ht i s' T) as [K|[p [b [d [j [L [Nd [Ir [Nj K]]]]]]]]]; [left; exact K|]. right.
      exists p, b, d, j. split; [exact L|]. split; [exact Nd|]. split; [exact Ir|]. split; [exact Nj|].
      rewrite EC, EQ in K. cbn [r_queue r_com r_cur]. cbn [map snd In cover] in *.
      destruct K as [K|[K|[[K|K]|[]]]]; auto.
    + exact Hy.
  - assert (ID : com_id (r_com st) = Some id) by (rewrite EC; reflexivity).
    destruct (look (r_map st) s) as [p|] eqn:Lk.
    + apply set_com_inv; [exact H| | |].
      * intros id' E. cbn in E. assert (id' = id) by congruence. subst id'. exact (com_fresh _ _ H ID).
      * unfold com_ok. cbn. destruct (h_map _ (v_heap _ H) _ _ Lk) as [_ [b N]].
        split; [exact (nth_lt _ _ _ N)|]. cbn. intros s' L'. destruct (Nat.eq_dec s' s) as [E|E]; [exact E|].
        exfalso. exact (proj1 (h_inj _ (v_heap _ H) s' p b s p b (conj L' N) (conj Lk N) E) eq_refl).
      * intros s' p' b d j i [L _] _ _ C. rewrite EC in C. cbn in C. subst s'. right. cbn.
        split; [reflexivity|]. congruence.
    + apply set_com_inv; [exact H|intros id' E; discriminate|exact I|].
      intros s' p' b d j i [L _] _ _ C. rewrite EC in C. cbn in C. subst s'. congruence.
  - assert (ID : com_id (r_com st) = Some id) by (rewrite EC; reflexivity).
    destruct (nth_error (r_blocks st) p) as [b|] eqn:Nb; [|exact H].
    destruct (nth_error (r_bufs st) (rb_buf b)) as [d|] eqn:Nd; [|exact H].
    (* a live block of the committer *)
    assert (LV : forall s' p' b' d' j i, live st s' p' b' -> nth_error (r_bufs st) (rb_buf b') = Some d' ->
              nth_error d' j = Some i -> cover (r_com st) s' p' j ->
              s' = s /\ p' = p /\ b' = b /\ d' = d /\ rb_off b <= length d /\ j < length d).
    { intros s' p' b' d' j i L N' Nj C. rewrite EC in C. cbn in C. destruct C as [-> ->].
      assert (b' = b) by (destruct L; congruence). subst b'. assert (d' = d) by congruence. subst d'.
      destruct (h_off _ (v_heap _ H) _ _ _ _ L Nd) as [O _]. pose proof (nth_lt _ _ _ Nj). auto 10. }
    destruct (Nat.ltb (length d) (rb_off b)) eqn:LT.
    + apply Nat.ltb_lt in LT. apply set_com_inv; [exact H|intros id' E; discriminate|exact I|].
      intros s' p' b' d' j i L N' Nj C. destruct (LV _ _ _ _ _ _ L N' Nj C) as [_ [_ [_ [_ [O _]]]]]. lia.
    + apply Nat.ltb_ge in LT. destruct (skipn (rb_off b) d) as [|x data] eqn:SK.
      * apply set_com_inv; [exact H|intros id' E; discriminate|exact I|].
        intros s' p' b' d' j i L N' Nj C. destruct (LV _ _ _ _ _ _ L N' Nj C) as [_ [_ [-> [-> [O J]]]]].
        left. pose proof (skipn_length (rb_off b) d) as Q. rewrite SK in Q. cbn in Q. lia.
      * rewrite <- SK. apply set_com_inv; [exact H| | |].
        -- intros id' E. cbn in E. assert (id' = id) by congruence. subst id'. exact (com_fresh _ _ H ID).
        -- unfold com_ok. cbn. split; [pose proof (v_com _ H) as Q; unfold com_ok in Q; rewrite EC in Q; exact Q|].
           intros b' d' [_ L] N'. cbn in L, N'. assert (b' = b) by congruence. subst b'.
           assert (d' = d) by congruence. subst d'. split; [exact LT|]. split; [lia|].
           intros j i L1 L2 Nj. rewrite <- (firstn_skipn (rb_off b) d) in Nj.
           rewrite nth_error_app2 in Nj by (rewrite firstn_length; lia). exact (nth_error_In _ _ Nj).
        -- intros s' p' b' d' j i L N' Nj C. destruct (LV _ _ _ _ _ _ L N' Nj C) as [-> [-> [-> [-> [O J]]]]].
           right. cbn. auto.
  - assert (ID : com_id (r_com st) = Some id) by (rewrite EC; reflexivity).
    destruct H as [Hh Hi Hc Hp Ht Hy]. constructor.
    + destruct Hh as [H1 H2 H3 H4 H5 H6 H7]. constructor; try assumption.
      intros s' p' b d L N. destruct (H7 _ _ _ _ L N) as [A B]. split; [exact A|].
      intros j i Lj Nj. destruct (B j i Lj Nj) as [id' [data' [J [W K]]]]. exists id', data'.
      split; [exact J|]. split; [right; exact W|exact K].
    + destruct Hi as [I1 I2 I3 I4 I5]. rewrite EC in *. constructor; assumption.
    + unfold com_ok in *. rewrite EC in Hc. cbn. destruct Hc as [A B]. split; [exact A|].
      exists data. split; [left; reflexivity|exact B].
    + exact Hp.
    + intros i s' T. destruct (Ht i s' T) as [K|[p' [b [d [j [L [Nd [Ir [Nj K]]]]]]]]]; [left; exact K|]. right.
      exists p', b, d, j. rewrite EC in K. auto 10.
    + exact Hy.
  - assert (ID : com_id (r_com st) = Some id) by (rewrite EC; reflexivity).
    pose proof (com_fresh _ _ H ID) as [F1 [F2 F3]].
    destruct (nth_error (r_blocks st) p) as [b|] eqn:Nb; [|exact H].
    destruct H as [Hh Hi Hc Hp Ht Hy]. unfold com_ok in Hc. rewrite EC in Hc.
    destruct Hc as [HL [data [W Hc]]].
    remember (RB (rb_buf b) (rb_recs b) upto (rb_refs b ++ [id])) as nb eqn:Enb.
    assert (BK : forall s' p' b', look (r_map st) s' = Some p' ->
               nth_error (upd p nb (r_blocks st)) p' = Some b' ->
               (p' = p /\ live st s' p b /\ b' = nb) \/ (p' <> p /\ live st s' p' b')).
    { intros s' p' b' L N. apply nth_upd in N. destruct N as [[E ->]|[D N]].
      - subst p'. left. split; [reflexivity|]. split; [split; assumption|reflexivity].
      - right. split; [congruence|]. split; assumption. }
    constructor.
    + constructor; unfold live; cbn [r_map r_blocks r_bufs r_pool r_cur r_wal].
      * intros s' p' L. destruct (h_map _ Hh _ _ L) as [A [b0 B]]. split; [exact A|].
        destruct (Nat.eq_dec p p') as [->|E].
        -- exists nb. exact (nth_upd_same _ _ _ _ Nb).
        -- exists b0. rewrite nth_upd_other by exact E. exact B.
      * intros s' p' b' [L N]. destruct (BK _ _ _ L N) as [[_ [L0 ->]]|[_ L0]];
          [subst nb; cbn|]; exact (h_free _ Hh _ _ _ L0).
      * intros s1 p1 b1 s2 p2 b2 [L1 N1] [L2 N2] D.
        destruct (BK _ _ _ L1 N1) as [[-> [L3 ->]]|[_ L3]]; destruct (BK _ _ _ L2 N2) as [[-> [L4 ->]]|[_ L4]];
          subst; exact (h_inj _ Hh _ _ _ _ _ _ L3 L4 D).
      * exact (h_cur _ Hh).
      * intros p' b' N. apply nth_upd in N. destruct N as [[_ ->]|[_ N]]; [subst nb; exact (h_bufs _ Hh _ _ Nb)|].
        exact (h_bufs _ Hh _ _ N).
      * exact (h_pool _ Hh).
      * intros s' p' b' d [L N] Nd. destruct (BK _ _ _ L N) as [[-> [L0 ->]]|[_ L0]].
        2:{ exact (h_off _ Hh _ _ _ _ L0 Nd). }
        subst nb. cbn [rb_buf rb_off rb_refs] in *. assert (s' = s) by (exact (proj2 HL _ L)). subst s'.
        destruct (Hc _ _ L0 Nd) as [A [B C]]. split; [exact B|]. intros j i Lj Nj.
        destruct (Nat.lt_ge_cases j (rb_off b)) as [J|J].
        -- destruct (proj2 (h_off _ Hh _ _ _ _ L0 Nd) j i J Nj) as [id' [data' [Q1 [Q2 Q3]]]].
           exists id', data'. split; [apply in_or_app; left; exact Q1|]. split; assumption.
        -- exists id, data. split; [apply in_or_app; right; left; reflexivity|]. split; [exact W|].
           exact (C j i J Lj Nj).
    + constructor; unfold live; cbn [r_map r_blocks r_queue r_id r_com com_id].
      * intros s' p' b' id' [L N] J. split; [|split; [|discriminate]].
        -- destruct (BK _ _ _ L N) as [[-> [L0 ->]]|[_ L0]]; [|exact (proj1 (d_refs _ Hi _ _ _ _ L0 J))].
           subst nb. cbn in J. apply in_app_or in J. destruct J as [J|[<-|[]]]; [|exact F1].
           exact (proj1 (d_refs _ Hi _ _ _ _ L0 J)).
        -- destruct (BK _ _ _ L N) as [[-> [L0 ->]]|[_ L0]]; [|exact (proj1 (proj2 (d_refs _ Hi _ _ _ _ L0 J)))].
           subst nb. cbn in J. apply in_app_or in J. destruct J as [J|[<-|[]]]; [|exact F2].
           exact (proj1 (proj2 (d_refs _ Hi _ _ _ _ L0 J))).
      * intros s1 p1 b1 s2 p2 b2 id' [L1 N1] [L2 N2] D J1 J2.
        destruct (BK _ _ _ L1 N1) as [[-> [L3 ->]]|[_ L3]]; destruct (BK _ _ _ L2 N2) as [[-> [L4 ->]]|[_ L4]].
        -- exact (proj1 (h_inj _ Hh _ _ _ _ _ _ L3 L4 D) eq_refl).
        -- subst nb. cbn in J1. apply in_app_or in J1. destruct J1 as [J1|[<-|[]]]; [|exact (F3 _ _ _ L4 J2)].
           exact (d_disj _ Hi _ _ _ _ _ _ _ L3 L4 D J1 J2).
        -- subst nb. cbn in J2. apply in_app_or in J2. destruct J2 as [J2|[<-|[]]]; [|exact (F3 _ _ _ L3 J1)].
           exact (d_disj _ Hi _ _ _ _ _ _ _ L3 L4 D J1 J2).
        -- exact (d_disj _ Hi _ _ _ _ _ _ _ L3 L4 D J1 J2).
      * exact (d_nodup _ Hi).
      * exact (d_queue _ Hi).
      * discriminate.
    + exact I.
    + exact Hp.
    + intros i s' T. destruct (Ht i s' T) as [K|[p' [b' [d [j [[Lm Lb] [Nd [Ir [Nj K]]]]]]]]]; [left; exact K|]. right.
      rewrite EC in K. cbn [cover] in K.
      destruct (Nat.eq_dec p p') as [E|E].
      * subst p'. assert (b' = b) by congruence. subst b'. exists p, nb, d, j. subst nb.
        split; [split; [exact Lm|exact (nth_upd_same _ _ _ _ Nb)]|].
        split; [exact Nd|]. split; [exact Ir|]. split; [exact Nj|]. cbn [rb_off r_cur r_queue r_com cover].
        destruct K as [K|[K|[K|K]]]; auto.
        -- left. assert (s' = s) by (exact (proj2 HL _ Lm)). subst s'.
           destruct (Hc _ _ (conj Lm Nb) Nd) as [A _]. lia.
        -- left. tauto.
      * exists p', b', d, j.
        split; [split; [exact Lm|cbn; rewrite nth_upd_other by exact E; exact Lb]|].
        split; [exact Nd|]. split; [exact Ir|]. split; [exact Nj|].
        destruct K as [K|[K|[K|K]]]; auto. exfalso. destruct K as [_ [K _]]. congruence.
    + exact Hy.
  - assert (K : inv (set_com st CIdle)).
    { apply set_com_inv; [exact H|intros id' E; discriminate|exact I|].
      intros s' p' b d j i _ _ _ C. rewrite EC in C. destruct C. }
    destruct (existsb (Nat.eqb s) (r_marks st)); [|exact K].
    destruct K as [Hh Hi Hc Hp Ht Hy]. constructor; try assumption.
    + destruct Hh. constructor; assumption.
    + destruct Hi. constructor; assumption.
Qed.

(* ---- the iteration ---- *)

Lemma set_iter_inv st y : inv st -> iter_ok (set_iter st y) -> inv (set_iter st y).
Proof.
  intros [Hh Hi Hc Hp Ht Hy] Y. constructor; try assumption.
  - destruct Hh. constructor; assumption.
  - destruct Hi. constructor; assumption.
Qed.

Lemma release_inv st s todo : inv st -> s < r_cur st -> todo_ok st todo ->
  (forall i, in_time st i s -> In i (r_handed st)) -> inv (release st s (YNext todo)).
Proof.
  intros H Ls TD AH. unfold release.
  assert (SI : inv (set_iter st (YNext todo))) by (apply set_iter_inv; [exact H|exact TD]).
  destruct (look (r_map st) s) as [p|] eqn:Lm; [|exact SI].
  destruct (nth_error (r_blocks st) p) as [b|] eqn:Nb; [|exact SI]. clear SI.
  destruct H as [Hh Hi Hc Hp Ht Hy].
  assert (L0 : live st s p b) by (split; assumption).
  assert (BK : forall s' p' b', look (filter (fun e => negb (Nat.eqb (fst e) s)) (r_map st)) s' = Some p' ->
               nth_error (r_blocks st) p' = Some b' ->
               s' <> s /\ live st s' p' b' /\
               nth_error (upd (rb_buf b) [] (r_bufs st)) (rb_buf b') = nth_error (r_bufs st) (rb_buf b')).
  { intros s' p' b' L N. rewrite look_filter in L. destruct (Nat.eqb s' s) eqn:E; [discriminate|].
    apply Nat.eqb_neq in E. assert (V : live st s' p' b') by (split; assumption).
    split; [exact E|]. split; [exact V|]. apply nth_upd_other. intros Q.
    exact (proj2 (h_inj _ Hh _ _ _ _ _ _ V L0 E) (eq_sym Q)). }
  constructor.
  - constructor; unfold live; cbn [r_map r_blocks r_bufs r_pool r_cur r_wal].
    + intros s' p' L. rewrite look_filter in L. destruct (Nat.eqb s' s); [discriminate|].
      exact (h_map _ Hh _ _ L).
    + intros s' p' b' [L N] [Q|Q].
      * destruct (BK _ _ _ L N) as [E [V _]]. exact (proj2 (h_inj _ Hh _ _ _ _ _ _ V L0 E) (eq_sym Q)).
      * destruct (BK _ _ _ L N) as [E [V _]]. exact (h_free _ Hh _ _ _ V Q).
    + intros s1 p1 b1 s2 p2 b2 [L1 N1] [L2 N2] D. destruct (BK _ _ _ L1 N1) as [_ [V1 _]].
      destruct (BK _ _ _ L2 N2) as [_ [V2 _]]. exact (h_inj _ Hh _ _ _ _ _ _ V1 V2 D).
    + destruct (h_cur _ Hh) as [q Q]. exists q. rewrite look_filter.
      destruct (Nat.eqb (r_cur st) s) eqn:E; [apply Nat.eqb_eq in E; lia|exact Q].
    + intros p' b' N. rewrite length_upd. exact (h_bufs _ Hh _ _ N).
    + intros k J. rewrite length_upd. destruct J as [<-|J]; [exact (h_bufs _ Hh _ _ Nb)|exact (h_pool _ Hh _ J)].
    + intros s' p' b' d [L N] Nd. destruct (BK _ _ _ L N) as [E [V EB]]. rewrite EB in Nd.
      destruct (h_off _ Hh _ _ _ _ V Nd) as [A B]. split; [exact A|]. intros j i Lj Nj.
      destruct (B j i Lj Nj) as [id [data [J [W K]]]]. exists id, data. split; [exact J|]. split; [|exact K].
      apply filter_In. split; [exact W|]. cbn [fst]. apply negb_true_iff.
      destruct (existsb (Nat.eqb id) (rb_refs b)) eqn:X; [|reflexivity]. exfalso.
      apply existsb_exists in X. destruct X as [id' [J' X]]. apply Nat.eqb_eq in X. subst id'.
      exact (d_disj _ Hi _ _ _ _ _ _ _ V L0 E J J').
  - constructor; unfold live; cbn [r_map r_blocks r_queue r_id r_com].
    + intros s' p' b' id [L N] J. destruct (BK _ _ _ L N) as [_ [V _]]. exact (d_refs _ Hi _ _ _ _ V J).
    + intros s1 p1 b1 s2 p2 b2 id [L1 N1] [L2 N2] D. destruct (BK _ _ _ L1 N1) as [_ [V1 _]].
      destruct (BK _ _ _ L2 N2) as [_ [V2 _]]. exact (d_disj _ Hi _ _ _ _ _ _ _ V1 V2 D).
    + exact (d_nodup _ Hi).
    + exact (d_queue _ Hi).
    + exact (d_com _ Hi).
  - unfold com_ok in *. cbn [r_com].
    assert (OW : forall s' p', own st s' p' -> p' < length (r_blocks st) /\
       forall s2, look (filter (fun e => negb (Nat.eqb (fst e) s)) (r_map st)) s2 = Some p' -> s2 = s').
    { intros s' p' [A B]. split; [exact A|]. intros s2 L2. rewrite look_filter in L2.
      destruct (Nat.eqb s2 s); [discriminate|exact (B _ L2)]. }
    destruct (r_com st) as [| |id s' p'|id s' p' data upto|id s' p' upto|] eqn:EC; try exact Hc.
    + exact (OW _ _ Hc).
    + destruct Hc as [HL Hc]. split; [exact (OW _ _ HL)|]. intros b' d [L N] Nd. cbn in L, N, Nd.
      destruct (BK _ _ _ L N) as [_ [V EB]]. rewrite EB in Nd. exact (Hc _ _ V Nd).
    + destruct Hc as [HL [data [W Hc]]]. split; [exact (OW _ _ HL)|]. exists data. split.
      * cbn [r_wal]. apply filter_In. split; [exact W|]. cbn [fst]. apply negb_true_iff.
        destruct (existsb (Nat.eqb id) (rb_refs b)) eqn:X; [|reflexivity]. exfalso.
        apply existsb_exists in X. destruct X as [id' [J' X]]. apply Nat.eqb_eq in X. subst id'.
        destruct (d_refs _ Hi _ _ _ _ L0 J') as [_ [_ Q]]. rewrite EC in Q. apply Q. reflexivity.
      * intros b' d [L N] Nd. cbn in L, N, Nd.
        destruct (BK _ _ _ L N) as [_ [V EB]]. rewrite EB in Nd. exact (Hc _ _ V Nd).
  - intros i x N. cbn in N. pose proof (Hp _ _ N) as Q. cbn [r_cur r_map].
    destruct x as [|s'|s' p'|s' now|]; try exact Q.
    destruct Q as [Q1 Q2]. split; [exact Q1|]. intros E. rewrite look_filter.
    destruct (Nat.eqb s' s) eqn:E2; [apply Nat.eqb_eq in E2; lia|exact (Q2 E)].
  - intros i s' T. change (in_time st i s') in T.
    destruct (Nat.eq_dec s' s) as [->|D]; [left; exact (AH i T)|].
    destruct (Ht i s' T) as [K|[p' [b' [d [j [[Lm' Lb'] [Nd [Ir [Nj K]]]]]]]]]; [left; exact K|]. right.
    exists p', b', d, j.
    assert (LF : look (filter (fun e => negb (Nat.eqb (fst e) s)) (r_map st)) s' = Some p').
    { rewrite look_filter. destruct (Nat.eqb s' s) eqn:E; [apply Nat.eqb_eq in E; congruence|exact Lm']. }
    destruct (BK _ _ _ LF Lb') as [_ [_ EB]].
    split; [split; [exact LF|exact Lb']|]. cbn [r_bufs]. rewrite EB. auto 10.
  - exact TD.
Qed.

Lemma iter_inv st : inv st -> inv (iter_step st).
Proof.
  intros H. pose proof (v_iter _ H) as Y. unfold iter_ok in Y. unfold iter_step.
  destruct (r_iter st) as [|todo|s p todo|s keys todo|s todo].
  - apply set_iter_inv; [exact H|]. intros x Hx. exact (refs_before_lt _ _ Hx).
  - destruct todo as [|s todo]; [apply set_iter_inv; [exact H|exact I]|].
    assert (TD : todo_ok st todo) by (intros x Hx; apply Y; right; exact Hx).
    destruct (look (r_map st) s) as [p|] eqn:L; apply set_iter_inv; try exact H; [|exact TD].
    split; [apply Y; left; reflexivity|]. split; [exact L|exact TD].
  - destruct Y as [Ls [Lm TD]]. destruct (nth_error (r_blocks st) p) as [b|] eqn:Nb; [|exact H].
    destruct (rb_recs b) as [|k keys] eqn:R.
    + apply set_iter_inv; [exact H|exact TD].
    + rewrite <- R. apply set_iter_inv; [exact H|]. split; [exact Ls|]. split; [exact TD|].
      intros i T. change (in_time st i s) in T.
      destruct (v_time _ H _ _ T) as [K|[p' [b' [d [j [[Lm' Lb'] [Nd [Ir _]]]]]]]]; [left; exact K|]. right.
      assert (p' = p) by congruence. subst p'. assert (b' = b) by congruence. subst b'. exact Ir.
  - destruct Y as [Ls [TD C]]. destruct H as [Hh Hi Hc Hp Ht Hy]. constructor; try assumption.
    + destruct Hh. constructor; assumption.
    + destruct Hi. constructor; assumption.
    + intros i s' T. destruct (Ht i s' T) as [K|K]; [left; cbn; apply in_or_app; left; exact K|right; exact K].
    + split; [exact Ls|]. split; [exact TD|]. intros i T. cbn. apply in_or_app. exact (C i T).
  - destruct Y as [Ls [TD C]]. apply release_inv; assumption.
Qed.

Lemma step_inv st e : inv st -> inv (rstep st e).
Proof.
  intros H. destruct e as [|i|s pick| |].
  - destruct H as [Hh Hi Hc Hp Ht Hy].
    assert (TM : forall i s, nth_error (r_puts st ++ [PNew]) i = Some (PDone s s) -> in_time st i s).
    { intros i s N. apply nth_snoc in N. destruct N as [N|[_ N]]; [exact N|discriminate]. }
    constructor; try assumption.
    + destruct Hh. constructor; assumption.
    + destruct Hi. constructor; assumption.
    + intros i x N. cbn in N. apply nth_snoc in N. destruct N as [N|[_ ->]]; [exact (Hp _ _ N)|exact I].
    + intros i s T. exact (Ht i s (TM _ _ T)).
    + unfold iter_ok in *. cbn [r_iter rstep]. destruct (r_iter st); try exact Hy.
      * destruct Hy as [A [B C]]. split; [exact A|]. split; [exact B|]. intros i T. exact (C i (TM _ _ T)).
      * destruct Hy as [A [B C]]. split; [exact A|]. split; [exact B|]. intros i T. exact (C i (TM _ _ T)).
  - apply put_inv. exact H.
  - apply tick_inv. exact H.
  - apply commit_inv. exact H.
  - apply iter_inv. exact H.
Qed.

Lemma run_inv es : forall st, inv st -> inv (rrun st es).
Proof.
  induction es as [|e es IH]; intros st H; [exact H|]. cbn. apply IH. apply step_inv. exact H.
Qed.

(* ---- what a timely Put can rely on ---- *)

Lemma timely_safe s0 es i s : in_time (rrun (rstart s0) es) i s ->
  (In i (r_handed (rrun (rstart s0) es)) \/ in_memory (rrun (rstart s0) es) i s) /\
  (r_cur (rrun (rstart s0) es) <> s -> ~ pending (rrun (rstart s0) es) s ->
   In i (r_handed (rrun (rstart s0) es)) \/ logged (rrun (rstart s0) es) i).
Proof.
  intros T. pose proof (run_inv es _ (start_inv s0)) as H.
  revert T H. generalize (rrun (rstart s0) es). intros st T H.
  destruct (v_time _ H _ _ T) as [K|[p [b [d [j [L [Nd [Ir [Nj C]]]]]]]]].
  - split; [left; exact K|intros _ _; left; exact K].
  - split.
    + right. exists p, b, d. destruct L as [L1 L2]. repeat split; try assumption. exact (nth_error_In _ _ Nj).
    + intros Nc Np. right. destruct C as [C|[C|[C|C]]].
      * destruct (proj2 (h_off _ (v_heap _ H) _ _ _ _ L Nd) j i C Nj) as [id [data [_ [W J]]]].
        exists id, data. split; assumption.
      * congruence.
      * exfalso. apply Np. left. exact C.
      * exfalso. apply Np. right. destruct (r_com st); cbn in C; try tauto; try (symmetry; tauto).
Qed.
