(* Puts and Gets at the same time as a Sync: what stays true in timely runs. *)

From Coq Require Import List Arith Bool Lia.
Import ListNotations.
From Verif Require Import M_Live S_Live P_Live.

Definition pend_of (y : lsync) : list (nat * lblock) :=
  match y with
  | YIdle | YSnap _ => []
  | YNext c | YTopics c _ _ _ | YWrite c _ _ | YIndex c _ _ | YRel c _ | YFree c _ => lw_pend (lc_w c)
  end.
Definition cview (st : lst) : nat -> option lblock := view (l_file st) (pend_of (l_sync st)).

Definition topic_of (x : lput) : nat := match x with LNew h | LMem _ h | LWin _ h | LDone _ h => h end.
Definition on (ps : list lput) (h q : nat) : Prop := exists x, nth_error ps q = Some x /\ topic_of x = h.

Definition stored (st : lst) (q : nat) : Prop :=
  In q (l_index st) \/
  match l_sync st with
  | YTopics _ _ fresh groups => In q fresh /\ forall h es, In (h, es) groups -> ~ In q es
  | YWrite _ _ fresh | YIndex _ _ fresh => In q fresh
  | _ => False
  end.

Definition agree (f : lfile) (pend : list (nat * lblock)) : Prop := forall p b, view f pend p = Some b -> read_at f p = Some b.

(* The times a Sync still has to do have their keys among those it took. *)
Definition times_ok (st : lst) (keys : list (nat * nat)) (ts : list nat) : Prop :=
  NoDup ts /\ (forall t, In t ts -> t < l_cur st) /\ (forall t h q, In t ts -> In (t, h, q) (l_win st) -> In (t, h) keys).

Definition bounded (st : lst) (c : lctx) : Prop := below (cview st) (lw_idx (lc_w c)).

Definition sync_ok (st : lst) : Prop :=
  match l_sync st with
  | YIdle => True
  | YSnap keys => forall t h q, t < l_cur st -> In (t, h, q) (l_win st) -> In (t, h) keys
  | YNext c => bounded st c /\ agree (l_file st) (lw_pend (lc_w c)) /\ times_ok st (lc_keys c) (lc_todo c)
  | YTopics c t fresh groups => bounded st c /\ times_ok st (lc_keys c) (t :: lc_todo c) /\
      fresh = map fst (block_of st t) /\ nfind (l_mem st) t <> None /\ NoDup (map fst groups) /\
      (forall h es, In (h, es) groups -> es <> [] /\ NoDup es /\ (forall q, In q es <-> In (q, h) (block_of st t)))
  | YWrite c t fresh => bounded st c /\ times_ok st (lc_keys c) (t :: lc_todo c) /\ 
      fresh = map fst (block_of st t) /\ nfind (l_mem st) t <> None
  | YIndex c t fresh => bounded st c /\ agree (l_file st) (lw_pend (lc_w c)) /\ times_ok st (lc_keys c) (t :: lc_todo c) /\ 
      fresh = map fst (block_of st t) /\ nfind (l_mem st) t <> None
  | YRel c t | YFree c t => bounded st c /\ agree (l_file st) (lw_pend (lc_w c)) /\ times_ok st (lc_keys c) (t :: lc_todo c) /\
      nfind (l_mem st) t <> None /\ (forall q h, In (q, h) (block_of st t) -> In q (l_index st))
  end.

Definition freeing (y : lsync) (t : nat) : Prop := exists c, y = YFree c t.
Definition leaving (y : lsync) (t : nat) : Prop := exists c, y = YRel c t \/ y = YFree c t.

Record inv (h0 : nat) (st : lst) : Prop := {
  i_first : exists es, read_at (l_file st) 0 = Some (LB h0 es 0);
  i_cfirst : exists es, cview st 0 = Some (LB h0 es 0);
  i_now : forall q t h, nth_error (l_puts st) q = Some (LMem t h) \/ nth_error (l_puts st) q = Some (LWin t h) ->
            t = l_cur st /\ In (q, h) (block_of st t);
  i_topic : forall q x, nth_error (l_puts st) q = Some x -> topic_of x <> h0;
  i_times : NoDup (map fst (l_mem st));
  i_mem : forall t recs, nfind (l_mem st) t = Some recs -> recs <> [] /\ t <= l_cur st /\ NoDup (map fst recs) /\
            forall q h, In (q, h) recs -> nth_error (l_puts st) q = Some (LMem t h) \/ nth_error (l_puts st) q = Some (LWin t h) \/
                          nth_error (l_puts st) q = Some (LDone t h);
  i_wnodup : NoDup (l_win st);
  i_win : forall t h q, In (t, h, q) (l_win st) -> In (q, h) (block_of st t) /\ ~ freeing (l_sync st) t /\
            (nth_error (l_puts st) q = Some (LWin t h) \/ nth_error (l_puts st) q = Some (LDone t h));
  i_inwin : forall t h q, In (q, h) (block_of st t) ->
            nth_error (l_puts st) q = Some (LWin t h) \/ nth_error (l_puts st) q = Some (LDone t h) ->
            In (t, h, q) (l_win st) \/ freeing (l_sync st) t;
  i_tnodup : NoDup (map fst (l_trie st));
  i_trie : forall h off, nfind (l_trie st) h = Some off -> h <> h0 /\
            exists l, chain (cview st) h off l /\ NoDup l /\ forall q, In q l <-> stored st q /\ on (l_puts st) h q;
  i_intrie : forall q t h, nth_error (l_puts st) q = Some (LDone t h) -> nfind (l_trie st) h <> None;
  i_index : forall q, In q (l_index st) -> exists t h, nth_error (l_puts st) q = Some (LDone t h) /\ t < l_cur st /\
            (In (q, h) (block_of st t) -> leaving (l_sync st) t);
  i_done : forall q t h, nth_error (l_puts st) q = Some (LDone t h) -> In (q, h) (block_of st t) \/ In q (l_index st);
  i_sync : sync_ok st;
  i_blocks : forall p b, cview st p = Some b \/ read_at (l_file st) p = Some b -> 0 < p ->
            forall q, In q (lb_ents b) -> on (l_puts st) (lb_hash b) q;
  i_gets : forall j x, nth_error (l_gets st) j = Some x ->
            match x with GMem h _ es | GDone h es => forall q, In q es -> on (l_puts st) h q | _ => True end /\
            match x with GOff h _ | GMem h _ _ => h <> h0 | _ => True end
}.

Lemma put_on_on st h q : put_on st h q <-> on (l_puts st) h q.
Proof. unfold put_on, on, topic_of. split; intros (x & Hx & E); exists x; (split; [exact Hx|]); destruct x; exact E. Qed.

Lemma on_fun ps h k q : on ps h q -> on ps k q -> h = k.
Proof. intros (x & Hx & E) (y & Hy & E2). congruence. Qed.

Lemma nodup_cat {A} (l m : list A) : NoDup l -> NoDup m -> (forall x, In x l -> In x m -> False) -> NoDup (l ++ m).
Proof.
  induction l as [|x r IH]; intros Hl Hm Hd; cbn [app]; [exact Hm|]. inversion Hl; subst. constructor.
  - intros Hin. apply in_app_or in Hin as [Hin|Hin]; [contradiction|]. eapply Hd; [now left|exact Hin].
  - apply IH; auto. intros y Hy. apply Hd. now right.
Qed.

(* ---- what holds in such a state ---- *)

Section state.
Variables (h0 : nat) (st : lst).
Hypothesis I : inv h0 st.

Lemma past_done t q h : In (q, h) (block_of st t) -> t < l_cur st -> nth_error (l_puts st) q = Some (LDone t h).
Proof.
  intros Hb Ht. unfold block_of in Hb. destruct (nfind (l_mem st) t) as [recs|] eqn:E; [|destruct Hb].
  destruct (i_mem _ _ I _ _ E) as (_ & _ & _ & H).
  destruct (H q h Hb) as [Hq|[Hq|Hq]]; [| |exact Hq];
    destruct (i_now _ _ I q t h) as [Hc _]; auto; lia.
Qed.

Lemma block_on t q h : In (q, h) (block_of st t) -> on (l_puts st) h q.
Proof.
  intros Hb. unfold block_of in Hb. destruct (nfind (l_mem st) t) as [recs|] eqn:E; [|destruct Hb].
  destruct (i_mem _ _ I _ _ E) as (_ & _ & _ & H).
  destruct (H q h Hb) as [Hq|[Hq|Hq]]; eexists; split; try exact Hq; reflexivity.
Qed.

Lemma block_time t q h t' h' : In (q, h) (block_of st t) -> In (q, h') (block_of st t') -> t = t' /\ h = h'.
Proof.
  intros Hb Hb'. unfold block_of in *.
  destruct (nfind (l_mem st) t) as [recs|] eqn:E; [|destruct Hb].
  destruct (nfind (l_mem st) t') as [recs'|] eqn:E'; [|destruct Hb'].
  destruct (i_mem _ _ I _ _ E) as (_ & _ & _ & H). destruct (i_mem _ _ I _ _ E') as (_ & _ & _ & H').
  destruct (H q h Hb) as [Hq|[Hq|Hq]]; destruct (H' q h' Hb') as [Hq'|[Hq'|Hq']]; split; congruence.
Qed.

Lemma stored_past q : stored st q -> exists t h, nth_error (l_puts st) q = Some (LDone t h).
Proof.
  intros [H|H].
  - destruct (i_index _ _ I _ H) as (t & h & Hq & _). eauto.
  - pose proof (i_sync _ _ I) as S0. unfold sync_ok in S0.
    assert (F : forall t fresh, fresh = map fst (block_of st t) -> t < l_cur st -> In q fresh -> exists t h, nth_error (l_puts st) q = Some (LDone t h)).
    { intros t fresh -> Ht Hin. apply in_map_iff in Hin as ((q', h) & Eq & Hin). cbn in Eq. subst q'. exists t, h. now apply past_done. }
    destruct (l_sync st) as [| | |c t fresh groups|c t fresh|c t fresh| |]; try contradiction.
    + destruct S0 as (_ & (_ & Ht & _) & Ef & _). destruct H as [H _]. eapply (F t); eauto. apply Ht. now left.
    + destruct S0 as (_ & (_ & Ht & _) & Ef & _). eapply (F t); eauto. apply Ht. now left.
    + destruct S0 as (_ & _ & (_ & Ht & _) & Ef & _). eapply (F t); eauto. apply Ht. now left.
Qed.

Lemma agree_walk h off l : h <> h0 -> (forall p b, cview st p = Some b -> read_at (l_file st) p = Some b) ->
  chain (cview st) h off l -> on_file st h off = l.
Proof.
  intros Hh Ha Hc. assert (C : chain (read_at (l_file st)) h off l).
  { eapply chain_ext; [exact Hc|]. intros; auto. }
  unfold on_file. apply chain_walk; [|exact C|now apply (chain_len _ _ _ _ C)].
  intros b Hb. destruct (i_first _ _ I) as (es & E). rewrite E in Hb. injection Hb as <-. cbn. congruence.
Qed.

Lemma agree_now : not_writing st -> forall p b, cview st p = Some b -> read_at (l_file st) p = Some b.
Proof.
  intros Hn. pose proof (i_sync _ _ I) as S0. unfold sync_ok in S0. unfold not_writing in Hn. unfold cview.
  destruct (l_sync st); cbn [pend_of]; try contradiction; intros p b Hp.
  - exact Hp.
  - exact Hp.
  - destruct S0 as (_ & A & _). now apply A.
  - destruct S0 as (_ & A & _). now apply A.
  - destruct S0 as (_ & A & _). now apply A.
  - destruct S0 as (_ & A & _). now apply A.
Qed.

Lemma in_window_in h q : In q (in_window st h) <-> exists t, In (t, h, q) (l_win st).
Proof.
  unfold in_window. rewrite in_map_iff. split.
  - intros (((t, k), q') & Eq & Hin). apply filter_In in Hin as [Hin Hk]. cbn in *. apply Nat.eqb_eq in Hk. subst. eauto.
  - intros (t & Hin). exists (t, h, q). split; [reflexivity|]. apply filter_In. split; [exact Hin|]. cbn. apply Nat.eqb_refl.
Qed.

Theorem got_all h q : not_writing st -> returned st h q -> In q (get_now st h).
Proof.
  intros Hn (t & Hq). unfold get_now. pose proof (i_intrie _ _ I _ _ _ Hq) as Ht.
  destruct (nfind (l_trie st) h) as [off|] eqn:E; [|contradiction]. clear Ht.
  destruct (i_trie _ _ I _ _ E) as (Hh & l & Hc & Hnd & Hl).
  rewrite (agree_walk h off l Hh (agree_now Hn) Hc).
  assert (D : In q (l_index st) -> In q (in_window st h ++ l)).
  { intros Hi. apply in_or_app. right. apply Hl. split; [now left|]. exists (LDone t h). auto. }
  destruct (i_done _ _ I _ _ _ Hq) as [Hb|Hi]; [|auto].
  destruct (i_inwin _ _ I t h q Hb (or_intror Hq)) as [Hw|(c & Ef)].
  - apply in_or_app. left. apply in_window_in. eauto.
  - pose proof (i_sync _ _ I) as S0. unfold sync_ok in S0. rewrite Ef in S0. apply D. apply (proj2 (proj2 (proj2 (proj2 S0)))) in Hb. exact Hb.
Qed.

Lemma window_nodup h : NoDup (in_window st h).
Proof.
  unfold in_window. pose proof (i_wnodup _ _ I) as N. pose proof (i_win _ _ I) as Wn. revert N Wn.
  generalize (l_win st). induction l as [|[[t k] q] r IH]; intros N Wn; cbn [filter map]; [constructor|].
  inversion N; subst. cbn [fst snd].
  assert (IH' := IH H2 (fun a b c Hin => Wn a b c (or_intror Hin))).
  destruct (Nat.eqb_spec k h) as [->|]; [|exact IH']. cbn [map snd]. constructor; [|exact IH'].
  intros Hin. apply in_map_iff in Hin as (((t', k'), q') & Eq & Hin). apply filter_In in Hin as [Hin Hk]. cbn in *.
  apply Nat.eqb_eq in Hk. subst. apply H1.
  destruct (Wn t h q (or_introl eq_refl)) as [B _]. destruct (Wn t' h q (or_intror Hin)) as [B' _].
  destruct (block_time _ _ _ _ _ B B') as [-> _]. exact Hin.
Qed.

Theorem got_once h : settled st -> NoDup (get_now st h).
Proof.
  intros Hs. assert (Hn : not_writing st) by (unfold settled, not_writing in *; destruct (l_sync st); auto).
  unfold get_now. destruct (nfind (l_trie st) h) as [off|] eqn:E; [|constructor].
  destruct (i_trie _ _ I _ _ E) as (Hh & l & Hc & Hnd & Hl).
  rewrite (agree_walk h off l Hh (agree_now Hn) Hc).
  apply nodup_cat; [apply window_nodup|exact Hnd|]. intros q Hw Hq.
  apply in_window_in in Hw as (t & Hw). apply Hl in Hq as [Hq _].
  assert (Hi : In q (l_index st)) by (destruct Hq as [Hq|Hq]; [exact Hq|]; unfold settled in Hs; destruct (l_sync st); contradiction).
  destruct (i_index _ _ I _ Hi) as (t' & h' & Hp & _ & Hlv).
  destruct (i_win _ _ I _ _ _ Hw) as (Hb & Hf & Hpc).
  assert (t' = t /\ h' = h) as [-> ->] by (destruct Hpc as [Hpc|Hpc]; rewrite Hp in Hpc; [discriminate|injection Hpc as -> ->; auto]).
  destruct (Hlv Hb) as (c & [Hy|Hy]).
  - unfold settled in Hs. rewrite Hy in Hs. exact Hs.
  - apply Hf. now exists c.
Qed.
End state.
