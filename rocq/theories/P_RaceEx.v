(* Runs of M_Race.v in which a Put that has returned is not logged, or is lost. *)

From Coq Require Import List Arith Bool Lia.
Import ListNotations.
From Verif Require Import M_Race S_Race P_Race.

(* Put 0 reads the time and finds the block, the write loop goes on, the log of the
   old time is written without the record, then Put 0 writes it. *)
Definition late_events : list revent :=
  [EPut; EGo 0; EGo 0; ETick 6 None; ECommit; ECommit; ECommit; ECommit; EGo 0].

Lemma late_not_logged :
  put_ok (rrun (rstart 5) late_events) 0 /\
  (forall s, s <> r_cur (rrun (rstart 5) late_events) -> ~ pending (rrun (rstart 5) late_events) s) /\
  ~ logged (rrun (rstart 5) late_events) 0 /\ ~ In 0 (r_handed (rrun (rstart 5) late_events)).
Proof.
  assert (E : rrun (rstart 5) late_events =
    RS 6 1 [[0]; []] [] [RB 0 [0] 0 []; RB 1 [] 0 []] [(6, 1); (5, 0)] [] CIdle [] [6] [5] YIdle [PDone 5 6] [])
    by (vm_compute; reflexivity).
  rewrite E. split; [exists 5, 6; reflexivity|]. split.
  - intros s _ [[]|[]].
  - split; [|intros []]. intros [id [d [[] _]]].
Qed.

(* Put 0 finds the block of the old time, with Put 1 in it; the block is logged;
   the iteration takes its keys, Put 0 writes, the iteration frees the block. *)
Definition lost_events : list revent :=
  [EPut; EGo 0; EGo 0; EPut; EGo 1; EGo 1; EGo 1; ETick 6 None;
   ECommit; ECommit; ECommit; ECommit; ECommit; ECommit;
   EIter; EIter; EIter; EGo 0; EIter; EIter].

Record nowhere (st : rst) (i p0 : nat) : Prop := NW {
  n_put : exists s now, nth_error (r_puts st) i = Some (PDone s now);
  n_hand : ~ In i (r_handed st);
  n_bufs : forall k d, nth_error (r_bufs st) k = Some d -> ~ In i d;
  n_wal : forall id d, In (id, d) (r_wal st) -> ~ In i d;
  n_com : match r_com st with CLog _ _ _ data _ => ~ In i data | _ => True end;
  n_iter : match r_iter st with YKeys _ keys _ => ~ In i keys | YBlk _ p _ => p <> p0 | _ => True end;
  n_map : forall s, look (r_map st) s <> Some p0;
  n_len : p0 < length (r_blocks st);
  n_recs : forall p b, p <> p0 -> nth_error (r_blocks st) p = Some b -> ~ In i (rb_recs b)
}.

Lemma nowhere_gone st i p0 : nowhere st i p0 -> gone st i.
Proof.
  intros [A B C D E F G H J]. split; [|split; [|exact B]].
  - intros [s [p [b [d [L [N [Nd [Ir Id]]]]]]]]. exact (C _ _ Nd Id).
  - intros [id [d [W Id]]]. exact (D _ _ W Id).
Qed.

Lemma set_put_nowhere st i p0 j x : nowhere st i p0 -> j <> i -> nowhere (set_put st j x) i p0.
Proof.
  intros [A B C D E F G H J] Ne. constructor; try assumption.
  destruct A as [s [now A]]. exists s, now. cbn. rewrite nth_upd_other by exact Ne. exact A.
Qed.

Lemma step_nowhere st i p0 e : nowhere st i p0 -> nowhere (rstep st e) i p0.
Proof.
  intros NWH. pose proof NWH as [A B C D E F G H J]. destruct A as [s [now A]].
  destruct e as [|j|t pick| |]; cbn [rstep].
  - constructor; try assumption. exists s, now. cbn. apply nth_app_old. exact A.
  - unfold put_step. destruct (Nat.eq_dec j i) as [->|Ne]; [rewrite A; exact NWH|].
    destruct (nth_error (r_puts st) j) as [[|s'|s' p|s' now'|]|] eqn:N; try exact NWH.
    + apply set_put_nowhere; assumption.
    + destruct (look (r_map st) s'); apply set_put_nowhere; assumption.
    + unfold append. destruct (nth_error (r_blocks st) p) as [b|] eqn:Nb; [|exact NWH].
      destruct (nth_error (r_bufs st) (rb_buf b)) as [d|] eqn:Nd; [|exact NWH].
      constructor; try assumption.
      * exists s, now. cbn. rewrite nth_upd_other by exact Ne. exact A.
      * cbn. intros k d' Nk. apply nth_upd in Nk. destruct Nk as [[_ ->]|[_ Nk]]; [|exact (C _ _ Nk)].
        intros Q. apply in_app_or in Q. destruct Q as [Q|[Q|[]]]; [exact (C _ _ Nd Q)|congruence].
      * cbn. rewrite length_upd. exact H.
      * cbn. intros p' b' Np Nk. apply nth_upd in Nk. destruct Nk as [[E1 ->]|[_ Nk]]; [|exact (J _ _ Np Nk)].
        subst p'. cbn. intros Q. apply in_app_or in Q. destruct Q as [Q|[Q|[]]]; [exact (J _ _ Np Nb Q)|congruence].
  - unfold tick_step. destruct (Nat.leb (r_cur st) t); [|exact NWH].
    assert (NB : forall bf p b, p <> p0 -> nth_error (r_blocks st ++ [RB bf [] 0 []]) p = Some b -> ~ In i (rb_recs b)).
    { intros bf p b Np N. apply nth_snoc in N. destruct N as [N|[_ ->]]; [exact (J _ _ Np N)|intros []]. }
    assert (NM : forall s', look ((t, length (r_blocks st)) :: r_map st) s' <> Some p0).
    { intros s'. cbn. destruct (Nat.eqb t s'); [|exact (G s')]. intros Q. assert (length (r_blocks st) = p0) by congruence. lia. }
    assert (NL : forall bf, p0 < length (r_blocks st ++ [RB bf [] 0 []])) by (intros bf; rewrite app_length; lia).
    assert (NF : forall k d, nth_error (r_bufs st ++ [[]]) k = Some d -> ~ In i d).
    { intros k d N. apply nth_snoc in N. destruct N as [N|[_ ->]]; [exact (C _ _ N)|intros []]. }
    unfold add_block. destruct (look (r_map st) t).
    + constructor; try assumption. exists s, now. exact A.
    + destruct pick as [k|]; [destruct (existsb (Nat.eqb k) (r_pool st))|];
        (constructor; cbn [r_puts r_handed r_bufs r_wal r_com r_iter r_map r_blocks];
         [exists s, now; exact A|exact B| |exact D|exact E|exact F|exact NM|exact (NL _)|exact (NB _)]).
      * intros k' d N. apply nth_upd in N. destruct N as [[_ ->]|[_ N]]; [intros []|exact (C _ _ N)].
      * exact NF.
      * exact NF.
  - assert (SC : forall c, match c with CLog _ _ _ data _ => ~ In i data | _ => True end -> nowhere (set_com st c) i p0).
    { intros c X. constructor; try assumption. exists s, now. exact A. }
    unfold commit_step. destruct (r_com st) as [|id t|id t p|id t p data upto|id t p upto|t].
    + destruct (r_queue st) as [|[id t] q]; [exact NWH|]. constructor; try assumption; try exact I. exists s, now. exact A.
    + destruct (look (r_map st) t); apply SC; exact I.
    + destruct (nth_error (r_blocks st) p) as [b|]; [|exact NWH].
      destruct (nth_error (r_bufs st) (rb_buf b)) as [d|] eqn:Nd; [|exact NWH].
      destruct (Nat.ltb (length d) (rb_off b)); [apply SC; exact I|].
      destruct (skipn (rb_off b) d) as [|x data] eqn:SK; [apply SC; exact I|]. apply SC. rewrite <- SK.
      intros Q. apply (C _ _ Nd). rewrite <- (firstn_skipn (rb_off b) d). apply in_or_app. right. exact Q.
    + constructor; try assumption; try exact I; [exists s, now; exact A|].
      cbn. intros id' d [Q|Q]; [|exact (D _ _ Q)]. assert (d = data) by congruence. subst d. exact E.
    + destruct (nth_error (r_blocks st) p) as [b|] eqn:Nb; [|exact NWH].
      constructor; try assumption; try exact I; [exists s, now; exact A| |].
      * cbn. rewrite length_upd. exact H.
      * cbn. intros p' b' Np Nk. apply nth_upd in Nk. destruct Nk as [[E1 ->]|[_ Nk]]; [|exact (J _ _ Np Nk)].
        subst p'. cbn. exact (J _ _ Np Nb).
    + destruct (existsb (Nat.eqb t) (r_marks st)); [|apply SC; exact I].
      constructor; try assumption; try exact I. exists s, now. exact A.
  - assert (SI : forall y, match y with YKeys _ keys _ => ~ In i keys | YBlk _ p _ => p <> p0 | _ => True end -> nowhere (set_iter st y) i p0).
    { intros y X. constructor; try assumption. exists s, now. exact A. }
    unfold iter_step. destruct (r_iter st) as [|todo|t p todo|t keys todo|t todo].
    + apply SI. exact I.
    + destruct todo as [|t todo]; [apply SI; exact I|].
      destruct (look (r_map st) t) as [p|] eqn:L; apply SI; [|exact I]. intros ->. exact (G t L).
    + destruct (nth_error (r_blocks st) p) as [b|] eqn:Nb; [|exact NWH].
      destruct (rb_recs b) as [|k keys] eqn:R; apply SI; [exact I|]. rewrite <- R. exact (J _ _ F Nb).
    + constructor; try assumption; try exact I; [exists s, now; exact A|].
      cbn. intros Q. apply in_app_or in Q. destruct Q as [Q|Q]; [exact (B Q)|exact (F Q)].
    + unfold release. destruct (look (r_map st) t) as [p|] eqn:L; [|apply SI; exact I].
      destruct (nth_error (r_blocks st) p) as [b|] eqn:Nb; [|apply SI; exact I].
      constructor; try assumption; try exact I; [exists s, now; exact A| | |].
      * cbn. intros k d N. apply nth_upd in N. destruct N as [[_ ->]|[_ N]]; [intros []|exact (C _ _ N)].
      * cbn. intros id d W. apply filter_In in W. exact (D _ _ (proj1 W)).
      * cbn. intros s'. rewrite look_filter. destruct (Nat.eqb s' t); [discriminate|exact (G s')].
Qed.

Lemma run_nowhere i p0 es : forall st, nowhere st i p0 -> nowhere (rrun st es) i p0.
Proof. induction es as [|e es IH]; intros st H; [exact H|]. cbn. apply IH. apply step_nowhere. exact H. Qed.

Lemma lost_state : rrun (rstart 5) lost_events =
  RS 6 1 [[]; []] [0] [RB 0 [1; 0] 1 [0]; RB 1 [] 0 []] [(6, 1)] [] CIdle [] [6] [] (YNext []) [PDone 5 6; PDone 5 5] [1].
Proof. vm_compute. reflexivity. Qed.

Lemma lost_for_ever : put_ok (rrun (rstart 5) lost_events) 0 /\
  for_ever (fun st => gone st 0) (rrun (rstart 5) lost_events).
Proof.
  rewrite lost_state. split; [exists 5, 6; reflexivity|]. intros es. apply (nowhere_gone _ 0 0).
  apply run_nowhere. constructor; cbn [r_puts r_handed r_bufs r_wal r_com r_iter r_map r_blocks].
  - exists 5, 6. reflexivity.
  - intros [Q|[]]. discriminate.
  - intros [|[|[|k]]] d Q; try discriminate; assert (d = []) by (cbn in Q; congruence); subst d; intros [].
  - intros id d [].
  - exact I.
  - exact I.
  - intros s. cbn [look]. destruct (Nat.eqb 6 s); discriminate.
  - cbn. lia.
  - intros [|[|[|p]]] b Np Q; try discriminate; [congruence|]. assert (b = RB 1 [] 0 []) by (cbn in Q; congruence).
    subst b. intros [].
Qed.
