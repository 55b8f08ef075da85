(* Puts and Gets at the same time as a Sync: the steps of the Sync keep [inv]. *)

From Coq Require Import List Arith Bool Lia.
Import ListNotations.
From Verif Require Import M_Live S_Live P_Live P_LiveInv P_LiveStep.

(* ---- the entries by topic ---- *)

Lemma add_to_keys g h q k : In k (map fst (add_to g h q)) -> k = h \/ In k (map fst g).
Proof.
  induction g as [|[k' l] r IH]; cbn [add_to map fst]; [intros [E|[]]; auto|].
  destruct (Nat.eqb k' h); cbn [map fst In]; [tauto|]. intros [E|E]; [tauto|]. destruct (IH E); tauto.
Qed.
Lemma add_to_nodup g h q : NoDup (map fst g) -> NoDup (map fst (add_to g h q)).
Proof.
  induction g as [|[k l] r IH]; cbn [add_to map fst]; [intros _; constructor; [intros []|constructor]|].
  intros H. inversion H; subst. destruct (Nat.eqb_spec k h); cbn [map fst]; [now constructor|].
  constructor; [|auto]. intros E. destruct (add_to_keys _ _ _ _ E); contradiction.
Qed.
Lemma add_to_in g h q : NoDup (map fst g) -> forall k es, In (k, es) (add_to g h q) ->
  (k <> h /\ In (k, es) g) \/ (k = h /\ exists es0, es = es0 ++ [q] /\ (In (h, es0) g \/ (es0 = [] /\ ~ In h (map fst g)))).
Proof.
  induction g as [|[k' l] r IH]; cbn [add_to map fst]; intros Hn k es.
  - intros [E|[]]. injection E as <- <-. right. split; [reflexivity|]. exists []. auto.
  - inversion Hn; subst. destruct (Nat.eqb_spec k' h) as [->|Hne].
    + intros [E|E].
      * injection E as <- <-. right. split; [reflexivity|]. exists l. split; [reflexivity|]. left. now left.
      * left. split; [intros ->; apply H1; apply in_map_iff; now exists (h, es)|now right].
    + intros [E|E].
      * injection E as <- <-. left. split; [exact Hne|now left].
      * destruct (IH H2 k es E) as [[A B]|(A & es0 & B & C)]; [left; split; [exact A|now right]|].
        right. split; [exact A|]. exists es0. split; [exact B|]. destruct C as [C|[C D]]; [left; now right|right].
        split; [exact C|]. intros [F|F]; contradiction.
Qed.

Definition groups_ok (g : list (nat * list nat)) (recs : list (nat * nat)) : Prop :=
  NoDup (map fst g) /\
  (forall h es, In (h, es) g -> es <> [] /\ NoDup es /\ (forall q, In q es <-> In (q, h) recs)) /\
  (forall q h, In (q, h) recs -> In h (map fst g)).

Lemma add_to_has g h q k : k = h \/ In k (map fst g) -> In k (map fst (add_to g h q)).
Proof.
  induction g as [|[k' l] r IH]; cbn [add_to map fst].
  - intros [->|[]]. now left.
  - destruct (Nat.eqb_spec k' h) as [->|]; cbn [map fst In]; intros [E|[E|E]]; auto.
Qed.

Lemma groups_add g recs q h : groups_ok g recs -> ~ In q (map fst recs) -> groups_ok (add_to g h q) (recs ++ [(q, h)]).
Proof.
  intros (G1 & G2 & G3) Hq. split; [now apply add_to_nodup|]. split.
  - intros k es Hin. apply add_to_in in Hin; [|exact G1]. destruct Hin as [[Hk Hin]|(-> & es0 & -> & Hin)].
    + destruct (G2 _ _ Hin) as (A & B & C). split; [exact A|]. split; [exact B|]. intros x. rewrite C, in_app_iff. cbn [In]. split; [auto|].
      intros [D|[D|[]]]; [exact D|]. congruence.
    + split; [now destruct es0|]. destruct Hin as [Hin|[-> Hn]].
      * destruct (G2 _ _ Hin) as (A & B & C). split.
        -- apply nodup_snoc; [exact B|]. intros Hx. apply C in Hx. apply Hq. apply in_map_iff. now exists (q, h).
        -- intros x. rewrite !in_app_iff, C. cbn [In]. split; (intros [D|[D|[]]]; [auto|right; left; congruence]).
      * split; [repeat constructor; intros []|]. intros x. cbn [app]. rewrite in_app_iff. cbn [In]. split.
        -- intros [<-|[]]. right. now left.
        -- intros [D|[D|[]]]; [exfalso; apply Hn; eapply G3, D|left; congruence].
  - intros x k Hin. apply add_to_has. apply in_app_or in Hin as [Hin|[Hin|[]]]; [right; eapply G3, Hin|]. left. congruence.
Qed.

Lemma by_topic_ok recs : NoDup (map fst recs) -> groups_ok (by_topic recs) recs.
Proof.
  unfold by_topic. assert (G : forall r done g, groups_ok g done -> NoDup (map fst (done ++ r)) ->
    groups_ok (fold_left (fun g e => add_to g (snd e) (fst e)) r g) (done ++ r)).
  { induction r as [|[q h] r IH]; intros dn g Hg Hn; cbn [fold_left fst snd]; [now rewrite app_nil_r|].
    replace (dn ++ (q, h) :: r) with ((dn ++ [(q, h)]) ++ r) in * by now rewrite <- app_assoc.
    apply IH; [|exact Hn]. apply groups_add; [exact Hg|]. rewrite !map_app in Hn. cbn [map fst] in Hn.
    rewrite <- app_assoc in Hn. apply NoDup_remove_2 in Hn. intros Hx. apply Hn. apply in_or_app. now left. }
  intros Hn. apply (G recs [] []); [|exact Hn]. split; [constructor|]. split; [intros ? ? []|intros ? ? []].
Qed.

(* ---- steps ---- *)

Lemma filter_all {A} (f : A -> bool) l : (forall x, In x l -> f x = true) -> filter f l = l.
Proof.
  induction l as [|x r IH]; cbn [filter]; intros H; [reflexivity|]. rewrite (H x (or_introl eq_refl)). f_equal. apply IH.
  intros y Hy. apply H. now right.
Qed.

(* A step that changes nothing but where the Sync is. *)
Lemma move h0 st y : inv h0 st ->
  (forall p b, view (l_file st) (pend_of y) p = Some b <-> cview st p = Some b) ->
  (forall q, stored (set_sync st y) q <-> stored st q) ->
  (forall t, ~ freeing (l_sync st) t) -> (forall t, ~ leaving (l_sync st) t) -> (forall t, ~ freeing y t) ->
  sync_ok (set_sync st y) -> inv h0 (set_sync st y).
Proof.
  intros I Hv Hs Hf Hl Hf' Hok. destruct I.
  constructor; unfold cview in *; cbn [set_sync l_cur l_mem l_win l_trie l_file l_index l_puts l_gets l_sync]; auto.
  - destruct i_cfirst as (es & E). exists es. now apply Hv.
  - intros t h q Hin. destruct (i_win t h q Hin) as (A & _ & C). split; [exact A|]. split; [apply Hf'|exact C].
  - intros t h q Hb Hq. destruct (i_inwin t h q Hb Hq) as [A|A]; [now left|exfalso; now apply (Hf t)].
  - intros h off Hh. destruct (i_trie h off Hh) as (A & l & C & D & E). split; [exact A|]. exists l. split.
    + eapply chain_ext; [exact C|]. intros p b Hp _ _. now apply Hv.
    + split; [exact D|]. intros q. rewrite Hs. apply E.
  - intros q Hq. destruct (i_index q Hq) as (t & h & A & B & C). exists t, h. split; [exact A|]. split; [exact B|].
    intros Hb. exfalso. apply (Hl t). apply C. exact Hb.
  - intros p b Hp. apply (i_blocks p). destruct Hp as [Hp|Hp]; [left; now apply Hv|now right].
Qed.

Ltac no_fr := intros ? (? & ?); discriminate.
Ltac no_lv := intros ? (? & [?|?]); discriminate.

Section sync.
Variables (W h0 : nat) (st : lst) (pick : nat -> bool) (n : nat).
Hypothesis I : inv h0 st.

Lemma sync_idle : l_sync st = YIdle -> inv h0 (sync_go W st pick n).
Proof.
  intros E. unfold sync_go. rewrite E. apply move; auto; rewrite ?E; try no_fr; try no_lv.
  - intros p b. unfold cview. rewrite E. reflexivity.
  - intros q. unfold stored. cbn. rewrite E. reflexivity.
  - unfold sync_ok. cbn [set_sync l_sync l_cur l_win]. intros t h q _ Hin. apply in_map_iff. now exists (t, h, q).
Qed.

Lemma nodup_filter {A} (f : A -> bool) l : NoDup l -> NoDup (filter f l).
Proof.
  induction l as [|x r IH]; cbn [filter]; intros H; [constructor|]. inversion H; subst. destruct (f x); auto. constructor; auto.
  intros E. apply filter_In in E as [E _]. contradiction.
Qed.

Lemma sync_snap keys : l_sync st = YSnap keys -> inv h0 (sync_go W st pick n).
Proof.
  intros E. unfold sync_go. rewrite E. pose proof (i_sync _ _ I) as S0. unfold sync_ok in S0. rewrite E in S0.
  apply move; auto; rewrite ?E; try no_fr; try no_lv.
  - intros p b. unfold cview. rewrite E. reflexivity.
  - intros q. unfold stored. cbn. rewrite E. reflexivity.
  - unfold sync_ok. cbn [set_sync l_sync l_cur l_win lc_w lw_pend lc_keys lc_todo l_file]. split; [|split; [|split; [|split]]].
    + intros p b. unfold cview, view. cbn. unfold read_at. intros H. destruct (nth_error (l_file st) p) eqn:Ep; [|discriminate].
      assert (p < length (l_file st)) by (apply nth_error_Some; congruence). lia.
    + intros p b Hp. exact Hp.
    + apply nodup_filter. apply seq_NoDup.
    + intros t Ht. apply filter_In in Ht as [Ht _]. apply in_seq in Ht. cbn. lia.
    + intros t h q Ht Hin. apply filter_In in Ht as [Ht _]. apply in_seq in Ht. apply (S0 t h q); [lia|exact Hin].
Qed.

Lemma sync_next c : l_sync st = YNext c -> inv h0 (sync_go W st pick n).
Proof.
  intros E. destruct c as [keys w todo]. unfold sync_go. rewrite E. pose proof (i_sync _ _ I) as S0. unfold sync_ok in S0. rewrite E in S0.
  cbn [lc_w lc_keys lc_todo] in S0. destruct S0 as (Bd & Ag & T1 & T2 & T3).
  destruct todo as [|t todo].
  - apply move; auto; rewrite ?E; try no_fr; try no_lv; [| |exact Logic.I].
    + intros p b. unfold cview. rewrite E. cbn [pend_of]. split; [|apply Ag].
      intros Hp. unfold view in *. cbn [pfind] in Hp. destruct (pfind (lw_pend (lc_w (LC keys w []))) p) as [b'|] eqn:Ep; [|exact Hp].
      assert (Hb := Ag p b'). unfold view in Hb. cbn [lc_w] in Ep. rewrite Ep in Hb. rewrite (Hb eq_refl) in Hp. exact Hp.
    + intros q. unfold stored. cbn. rewrite E. reflexivity.
  - assert (Tt : times_ok st keys todo).
    { inversion T1; subst. split; [assumption|]. split; [intros; apply T2; now right|]. intros x h q Hx. apply T3. now right. }
    destruct (nfind (l_mem st) t) as [recs|] eqn:Em.
    + destruct (i_mem _ _ I _ _ Em) as (M1 & M2 & M3 & M4).
      assert (Eb : block_of st t = recs) by (unfold block_of; now rewrite Em).
      assert (Ef : filter (fun e => negb (memb (fst e) (l_index st))) recs = recs).
      { apply filter_all. intros (q, h) Hin. cbn [fst]. destruct (memb q (l_index st)) eqn:Eq; [|reflexivity]. exfalso.
        unfold memb in Eq. apply existsb_exists in Eq as (q' & Hq & Eq). apply Nat.eqb_eq in Eq. subst q'.
        destruct (i_index _ _ I _ Hq) as (t' & h' & A & _ & C). rewrite <- Eb in Hin.
        assert (P := past_done _ _ I _ _ _ Hin (T2 t (or_introl eq_refl))). rewrite A in P. injection P as -> ->.
        destruct (C Hin) as (c & [Hc|Hc]); rewrite E in Hc; discriminate. }
      rewrite Ef. destruct (by_topic_ok recs M3) as (G1 & G2 & G3).
      apply move; auto; rewrite ?E; try no_fr; try no_lv.
      * intros p b. unfold cview. rewrite E. reflexivity.
      * intros q. unfold stored. cbn. rewrite E. split; [|intros [A|[]]; now left]. intros [A|[A B]]; [now left|]. exfalso.
        apply in_map_iff in A as ((q', h) & Eq & Hin). cbn in Eq. subst q'. assert (Hh := G3 q h Hin). apply in_map_iff in Hh as ((h', es) & Eh & Hg). cbn in Eh. subst h'.
        apply (B h es Hg). apply (G2 h es Hg). exact Hin.
      * unfold sync_ok. cbn [set_sync l_sync l_cur l_win lc_w lw_pend lc_keys lc_todo l_file l_mem].
        split; [unfold bounded, cview in *; rewrite E in Bd; exact Bd|]. split; [split; [exact T1|]; split; [exact T2|exact T3]|].
        change (block_of (set_sync st (YTopics (LC keys w todo) t (map fst recs) (by_topic recs))) t) with (block_of st t). rewrite Eb.
        split; [reflexivity|]. split; [congruence|]. split; [exact G1|exact G2].
    + apply move; auto; rewrite ?E; try no_fr; try no_lv.
      * intros p b. unfold cview. rewrite E. reflexivity.
      * intros q. unfold stored. cbn. rewrite E. reflexivity.
      * unfold sync_ok. cbn [set_sync l_sync l_cur l_win lc_w lw_pend lc_keys lc_todo l_file]. unfold bounded, cview in *. rewrite E in Bd. auto.
Qed.

Lemma sync_topics c t fresh groups : l_sync st = YTopics c t fresh groups -> inv h0 (sync_go W st pick n).
Proof.
  intros E. destruct c as [keys w todo]. unfold sync_go. rewrite E. pose proof (i_sync _ _ I) as S0. unfold sync_ok in S0. rewrite E in S0.
  cbn [lc_w lc_keys lc_todo] in S0. destruct S0 as (Bd & T & Ef & Em & G1 & G2).
  assert (Ht : t < l_cur st) by (apply T; now left).
  destruct groups as [|g0 gr].
  - apply move; auto; rewrite ?E; try no_fr; try no_lv.
    + intros p b. unfold cview. rewrite E. reflexivity.
    + intros q. unfold stored. cbn. rewrite E. split; intros [A|A]; try (now left); right; [|tauto]. split; [exact A|]. intros ? ? [].
    + unfold sync_ok. cbn [set_sync l_sync lc_keys lc_todo]. unfold bounded, cview in *. rewrite E in Bd. auto.
  - cbv iota. cbv beta. destruct (nth_error (g0 :: gr) n) as [[h es]|] eqn:En.
    2: exact I.
    remember (g0 :: gr) as groups eqn:Eg. clear Eg g0 gr.
    assert (Hg : In (h, es) groups) by (eapply nth_error_In, En).
    destruct (G2 h es Hg) as (E1 & E2 & E3).
    assert (Pd : forall q, In q es -> nth_error (l_puts st) q = Some (LDone t h)) by (intros q Hq; apply (past_done _ _ I); [now apply E3|exact Ht]).
    destruct (nfind (l_trie st) h) as [off|] eqn:Eo.
    2: { exfalso. destruct es as [|q es]; [now apply E1|]. exact (i_intrie _ _ I _ _ _ (Pd q (or_introl eq_refl)) Eo). }
    destruct (i_trie _ _ I _ _ Eo) as (Hh & l & Hc & Hnd & Hl).
    unfold cview in Hc. rewrite E in Hc. cbn [pend_of lc_w] in Hc. unfold bounded, cview in Bd. rewrite E in Bd. cbn [pend_of lc_w] in Bd.
    destruct (append_ok W w (l_file st) h off es l Bd Hc) as (w' & off' & Ea & A1 & A2 & A3 & A4); [auto|].
    rewrite Ea.
    set (groups' := filter (fun g => negb (Nat.eqb (fst g) h)) groups).
    assert (Gi : forall k l', In (k, l') groups' <-> In (k, l') groups /\ k <> h).
    { intros k l'. unfold groups'. rewrite filter_In. cbn [fst]. destruct (Nat.eqb_spec k h); cbn [negb]; intuition congruence. }
    assert (Only : forall k l' q, In (k, l') groups -> In q l' -> In q es -> k = h).
    { intros k l' q Hk Hq Hq2. destruct (G2 k l' Hk) as (_ & _ & F). apply F in Hq. apply E3 in Hq2. destruct (block_time _ _ I _ _ _ _ _ Hq Hq2) as [_ Hx]. exact Hx. }
    assert (Uniq : forall l', In (h, l') groups -> l' = es).
    { intros l' Hk. apply in_nfind in Hk; [|exact G1]. apply in_nfind in Hg; [|exact G1]. congruence. }
    set (st' := LS _ _ _ _ _ _ _ _ _).
    assert (St : forall q, stored st' q <-> stored st q \/ In q es).
    { intros q. unfold stored, st'. cbn [l_index l_sync]. rewrite E. split.
      - intros [A|[A B]]; [left; now left|]. destruct (in_dec Nat.eq_dec q es) as [Hq|Hq]; [now right|]. left. right. split; [exact A|].
        intros k l' Hk Hx. destruct (Nat.eq_dec k h) as [->|Hn]; [rewrite (Uniq l' Hk) in Hx; contradiction|]. apply (B k l'); [apply Gi; auto|exact Hx].
      - intros [[A|[A B]]|A]; [now left| |].
        + right. split; [exact A|]. intros k l' Hk. apply Gi in Hk as [Hk _]. eauto.
        + right. split.
          * rewrite Ef. apply in_map_iff. exists (q, h). split; [reflexivity|]. now apply E3.
          * intros k l' Hk Hx. apply Gi in Hk as [Hk Hn]. apply Hn. eapply Only; eauto. }
    assert (Dis : forall q, In q es -> ~ stored st q).
    { intros q Hq [A|A].
      - destruct (i_index _ _ I _ A) as (t' & h' & P & _ & C). rewrite (Pd q Hq) in P. injection P as <- <-.
        destruct (C (proj1 (E3 q) Hq)) as (c & [Hx|Hx]); rewrite E in Hx; discriminate.
      - rewrite E in A. destruct A as [_ B]. now apply (B h es Hg). }
    assert (On : forall q, In q es -> on (l_puts st) h q) by (intros q Hq; exists (LDone t h); auto).
    pose proof I as I0. destruct I0. constructor; unfold cview; cbn [st' l_cur l_mem l_win l_trie l_file l_index l_puts l_gets l_sync pend_of lc_w]; auto.
    + destruct i_cfirst as (es0 & E0). exists es0. unfold cview in E0. rewrite E in E0. apply A3; [exact E0|]. cbn. congruence.
    + intros t' k q Hin. destruct (i_win t' k q Hin) as (A & _ & C). split; [exact A|]. split; [intros (? & ?); discriminate|exact C].
    + intros t' k q Hb Hq. destruct (i_inwin t' k q Hb Hq) as [A|(c & A)]; [now left|rewrite E in A; discriminate].
    + now apply nset_keys.
    + intros k o. rewrite nset_find. destruct (Nat.eqb_spec h k) as [<-|Hk].
      * intros [= <-]. split; [exact Hh|]. exists (rev es ++ l). split; [exact A2|]. split.
        -- apply nodup_cat; [now apply NoDup_rev|exact Hnd|]. intros q Hq Hq2. apply in_rev in Hq. apply Hl in Hq2 as [Hq2 _]. now apply (Dis q Hq).
        -- intros q. rewrite in_app_iff, <- in_rev, Hl, St. intuition.
      * intros Hk2. destruct (i_trie k o Hk2) as (B1 & l' & B2 & B3 & B4). split; [exact B1|]. exists l'. split; [|split; [exact B3|]].
        -- unfold cview in B2. rewrite E in B2. eapply chain_ext; [exact B2|]. intros p b Hp Hb _. apply A3; [exact Hp|]. congruence.
        -- intros q. rewrite B4, St. split; [tauto|]. intros [[S1|S1] O1]; [auto|]. exfalso. apply Hk. eapply on_fun; [apply On, S1|exact O1].
    + intros q t' k Hq. rewrite nset_find. destruct (Nat.eqb h k); [discriminate|eauto].
    + intros q Hq. destruct (i_index q Hq) as (t' & k & B1 & B2 & B3). exists t', k. split; [exact B1|]. split; [exact B2|].
      intros Hb. destruct (B3 Hb) as (c & [Hx|Hx]); rewrite E in Hx; discriminate.
    + unfold sync_ok. cbn [st' l_sync lc_w lc_keys lc_todo l_mem]. split; [exact A1|]. split; [exact T|]. split; [exact Ef|]. split; [exact Em|].
      split; [now apply filter_keys|]. intros k l' Hk. apply Gi in Hk as [Hk _]. exact (G2 k l' Hk).
    + intros p b [Hp|Hp] Hpos q Hq.
      * destruct (A4 p b Hp) as [Hp'|(_ & Hb & b0 & Hi & Hb0)].
        -- eapply i_blocks; [left; unfold cview; rewrite E; exact Hp'|exact Hpos|exact Hq].
        -- rewrite Hb. apply Hi in Hq. apply in_app_or in Hq as [Hq|Hq]; [|now apply On].
           destruct Hb0 as [->|(b1 & p1 & Hp1 & Hb1 & -> & Hpos1)]; [destruct Hq|]. rewrite <- Hb1. eapply i_blocks; [left; unfold cview; rewrite E; exact Hp1|exact Hpos1|exact Hq].
      * eapply i_blocks; [right; exact Hp|exact Hpos|exact Hq].
Qed.

Lemma sync_write c t fresh : l_sync st = YWrite c t fresh -> inv h0 (sync_go W st pick n).
Proof.
  intros E. unfold sync_go. rewrite E. pose proof (i_sync _ _ I) as S0. unfold sync_ok in S0. rewrite E in S0.
  destruct S0 as (Bd & T & Ef & Em).
  assert (V : forall p, view (w_write (l_file st) (lw_pend (lc_w c))) (lw_pend (lc_w c)) p = cview st p).
  { intros p. unfold cview. rewrite E. cbn [pend_of]. unfold view at 1. rewrite write_view. unfold view. destruct (pfind (lw_pend (lc_w c)) p); reflexivity. }
  assert (R : forall p, read_at (w_write (l_file st) (lw_pend (lc_w c))) p = cview st p).
  { intros p. rewrite write_view. unfold cview. rewrite E. reflexivity. }
  pose proof I as I0. destruct I0. constructor; unfold cview; cbn [l_cur l_mem l_win l_trie l_file l_index l_puts l_gets l_sync pend_of lc_w]; auto.
  - rewrite R. exact i_cfirst.
  - rewrite V. exact i_cfirst.
  - intros t' k q Hin. destruct (i_win t' k q Hin) as (A & _ & C). split; [exact A|]. split; [intros (? & ?); discriminate|exact C].
  - intros t' k q Hb Hq. destruct (i_inwin t' k q Hb Hq) as [A|(c' & A)]; [now left|rewrite E in A; discriminate].
  - intros k o Hk. destruct (i_trie k o Hk) as (B1 & l' & B2 & B3 & B4). split; [exact B1|]. exists l'. split; [|split; [exact B3|]].
    + eapply chain_ext; [exact B2|]. intros p b Hp Hb _. now rewrite V.
    + intros q. rewrite B4. unfold stored. cbn [l_index l_sync]. rewrite E. reflexivity.
  - intros q Hq. destruct (i_index q Hq) as (t' & k & B1 & B2 & B3). exists t', k. split; [exact B1|]. split; [exact B2|].
    intros Hb. destruct (B3 Hb) as (c' & [Hx|Hx]); rewrite E in Hx; discriminate.
  - unfold sync_ok. cbn [l_sync lc_w lc_keys lc_todo l_mem l_file]. split.
    + intros p b. unfold cview. cbn [l_file l_sync pend_of]. rewrite V. apply Bd.
    + split; [intros p b Hp; rewrite V in Hp; now rewrite R|]. auto.
  - intros p b Hp. rewrite V, R in Hp. apply (i_blocks p). tauto.
Qed.

Lemma sync_index c t fresh : l_sync st = YIndex c t fresh -> inv h0 (sync_go W st pick n).
Proof.
  intros E. unfold sync_go. rewrite E. pose proof (i_sync _ _ I) as S0. unfold sync_ok in S0. rewrite E in S0.
  destruct S0 as (Bd & Ag & T & Ef & Em).
  assert (Ht : t < l_cur st) by (apply T; now left).
  assert (V : forall y, pend_of y = lw_pend (lc_w c) -> view (l_file st) (pend_of y) = cview st) by (intros y Hy; unfold cview; now rewrite E, Hy).
  pose proof I as I0. destruct I0. constructor; unfold cview in *; cbn [l_cur l_mem l_win l_trie l_file l_index l_puts l_gets l_sync] in *;
    rewrite ?(V (YRel c t) eq_refl); auto.
  - intros t' k q Hin. destruct (i_win t' k q Hin) as (A & _ & C). split; [exact A|]. split; [intros (? & ?); discriminate|exact C].
  - intros t' k q Hb Hq. destruct (i_inwin t' k q Hb Hq) as [A|(c' & A)]; [now left|rewrite E in A; discriminate].
  - intros k o Hk. destruct (i_trie k o Hk) as (B1 & l' & B2 & B3 & B4). split; [exact B1|]. exists l'. split; [exact B2|split; [exact B3|]].
    intros q. rewrite B4. unfold stored. cbn [l_index l_sync]. rewrite E, in_app_iff. tauto.
  - intros q Hq. apply in_app_or in Hq as [Hq|Hq].
    + destruct (i_index q Hq) as (t' & k & B1 & B2 & B3). exists t', k. split; [exact B1|]. split; [exact B2|].
      intros Hb. destruct (B3 Hb) as (c' & [Hx|Hx]); rewrite E in Hx; discriminate.
    + rewrite Ef in Hq. apply in_map_iff in Hq as ((q', h) & Eq & Hin). cbn in Eq. subst q'. exists t, h.
      split; [now apply (past_done _ _ I)|]. split; [exact Ht|]. intros _. exists c. now left.
  - intros q t' k Hq. rewrite in_app_iff. destruct (i_done q t' k Hq); auto.
  - unfold sync_ok. cbn [l_sync lc_w lc_keys lc_todo l_mem l_file l_index]. split.
    + unfold bounded, cview in *. rewrite E in Bd. exact Bd.
    + split; [exact Ag|]. split; [exact T|]. split; [exact Em|]. intros q h Hin. apply in_or_app. right. rewrite Ef. apply in_map_iff. now exists (q, h).
Qed.

Lemma sync_rel c t : l_sync st = YRel c t -> inv h0 (sync_go W st pick n).
Proof.
  intros E. unfold sync_go. rewrite E. pose proof (i_sync _ _ I) as S0. unfold sync_ok in S0. rewrite E in S0.
  destruct S0 as (Bd & Ag & T & Em & Ix). pose proof T as (T1 & T2 & T3).
  assert (Ht : t < l_cur st) by (apply T2; now left).
  assert (Nf : forall x, ~ freeing (l_sync st) x) by (rewrite E; no_fr).
  assert (Key : existsb (fun k => Nat.eqb (fst k) t) (lc_keys c) = true).
  { destruct (nfind (l_mem st) t) as [recs|] eqn:Er; [|contradiction]. destruct (i_mem _ _ I _ _ Er) as (M1 & _).
    destruct recs as [|[q h] r]; [contradiction|]. assert (Hb : In (q, h) (block_of st t)) by (unfold block_of; rewrite Er; now left).
    destruct (i_inwin _ _ I t h q Hb (or_intror (past_done _ _ I _ _ _ Hb Ht))) as [Hw|Hw]; [|exfalso; now apply (Nf t)].
    apply existsb_exists. exists (t, h). split; [eapply T3; [now left|exact Hw]|cbn; apply Nat.eqb_refl]. }
  rewrite Key.
  set (keep := fun e : nat * nat * nat => negb (Nat.eqb (fst (fst e)) t && existsb (key_eqb (fst e)) (lc_keys c))).
  assert (Kp : forall t' h q, In (t', h, q) (l_win st) -> keep (t', h, q) = true <-> t' <> t).
  { intros t' h q Hin. unfold keep. cbn [fst]. destruct (Nat.eqb_spec t' t) as [->|Hn]; cbn [andb negb]; [|tauto].
    assert (K : existsb (key_eqb (t, h)) (lc_keys c) = true).
    { apply existsb_exists. exists (t, h). split; [eapply T3; [now left|exact Hin]|]. unfold key_eqb. cbn. now rewrite !Nat.eqb_refl. }
    rewrite K. cbn. split; [discriminate|contradiction]. }
  pose proof I as I0. destruct I0. constructor; unfold cview in *; cbn [l_cur l_mem l_win l_trie l_file l_index l_puts l_gets l_sync] in *; auto.
  - rewrite E in i_cfirst. exact i_cfirst.
  - now apply nodup_filter.
  - intros t' k q Hin. apply filter_In in Hin as [Hin Hk]. destruct (i_win t' k q Hin) as (A & _ & C). split; [exact A|]. split; [|exact C].
    intros (c' & Hy). injection Hy as _ <-. apply (Kp _ _ _ Hin) in Hk. contradiction.
  - intros t' k q Hb Hq. destruct (i_inwin t' k q Hb Hq) as [A|A]; [|exfalso; now apply (Nf t')].
    destruct (Nat.eq_dec t' t) as [->|Hn]; [right; now exists c|]. left. apply filter_In. split; [exact A|]. now apply (Kp _ _ _ A).
  - intros k o Hk. destruct (i_trie k o Hk) as (B1 & l' & B2 & B3 & B4). split; [exact B1|]. exists l'. rewrite E in B2. split; [exact B2|split; [exact B3|]].
    intros q. rewrite B4. unfold stored. cbn [l_index l_sync]. rewrite E. reflexivity.
  - intros q Hq. destruct (i_index q Hq) as (t' & k & B1 & B2 & B3). exists t', k. split; [exact B1|]. split; [exact B2|].
    intros Hb. destruct (B3 Hb) as (c' & [Hx|Hx]); rewrite E in Hx; [|discriminate]. injection Hx as <- <-. exists c. now right.
  - unfold sync_ok. cbn [l_sync lc_w lc_keys lc_todo l_mem l_file l_index]. split.
    + unfold bounded, cview in *. rewrite E in Bd. exact Bd.
    + split; [exact Ag|]. split; [|split; [exact Em|exact Ix]]. split; [exact T1|]. split; [exact T2|].
      intros x h q Hx Hin. apply filter_In in Hin as [Hin _]. eapply T3; eauto.
  - intros p b Hp. apply (i_blocks p). rewrite E. exact Hp.
Qed.

Lemma sync_free c t : l_sync st = YFree c t -> inv h0 (sync_go W st pick n).
Proof.
  intros E. unfold sync_go. rewrite E. pose proof (i_sync _ _ I) as S0. unfold sync_ok in S0. rewrite E in S0.
  destruct S0 as (Bd & Ag & T & Em & Ix). pose proof T as (T1 & T2 & T3).
  assert (Ht : t < l_cur st) by (apply T2; now left).
  set (st' := LS _ _ _ _ _ _ _ _ _).
  assert (Bo : forall x, block_of st' x = if Nat.eqb x t then [] else block_of st x).
  { intros x. unfold block_of at 1, st'. cbn [l_mem]. rewrite nfind_filter. destruct (Nat.eqb x t); reflexivity. }
  assert (Bi : forall x q h, In (q, h) (block_of st' x) <-> In (q, h) (block_of st x) /\ x <> t).
  { intros x q h. rewrite Bo. destruct (Nat.eqb_spec x t); [split; [intros []|tauto]|tauto]. }
  pose proof I as I0. destruct I0. constructor; unfold cview in *; cbn [st' l_cur l_mem l_win l_trie l_file l_index l_puts l_gets l_sync] in *; auto.
  - rewrite E in i_cfirst. exact i_cfirst.
  - intros q x h Hq. destruct (i_now q x h Hq) as [A B]. split; [exact A|]. apply Bi. split; [exact B|lia].
  - now apply filter_keys.
  - intros x recs. rewrite nfind_filter. destruct (Nat.eqb x t); [discriminate|]. apply i_mem.
  - intros x h q Hin. destruct (i_win x h q Hin) as (A & B & C). split; [|split; [intros (? & ?); discriminate|exact C]]. apply Bi. split; [exact A|].
    intros ->. apply B. rewrite E. now exists c.
  - intros x h q Hb Hq. apply Bi in Hb as [Hb Hn]. destruct (i_inwin x h q Hb Hq) as [A|(c' & A)]; [now left|]. rewrite E in A. injection A as _ <-. contradiction.
  - intros k o Hk. destruct (i_trie k o Hk) as (B1 & l' & B2 & B3 & B4). split; [exact B1|]. exists l'. rewrite E in B2. split; [exact B2|split; [exact B3|]].
    intros q. rewrite B4. unfold stored. cbn [st' l_index l_sync]. rewrite E. reflexivity.
  - intros q Hq. destruct (i_index q Hq) as (x & k & B1 & B2 & B3). exists x, k. split; [exact B1|]. split; [exact B2|].
    intros Hb. apply Bi in Hb as [Hb Hn]. destruct (B3 Hb) as (c' & [Hx|Hx]); rewrite E in Hx; [discriminate|]. injection Hx as _ <-. contradiction.
  - intros q x h Hq. destruct (i_done q x h Hq) as [A|A]; [|now right]. destruct (Nat.eq_dec x t) as [->|Hn]; [right; eapply Ix, A|left; apply Bi; auto].
  - unfold sync_ok. cbn [st' l_sync lc_w lc_keys lc_todo l_mem l_file l_index]. split.
    + unfold bounded, cview in *. rewrite E in Bd. exact Bd.
    + split; [exact Ag|]. inversion T1; subst. split; [assumption|]. split; [intros; apply T2; now right|]. intros x h q Hx. apply T3. now right.
  - intros p b Hp. apply (i_blocks p). rewrite E. exact Hp.
Qed.

Lemma step_sync : inv h0 (sync_go W st pick n).
Proof.
  destruct (l_sync st) eqn:E.
  - now apply sync_idle.
  - eapply sync_snap, E.
  - eapply sync_next, E.
  - eapply sync_topics, E.
  - eapply sync_write, E.
  - eapply sync_index, E.
  - eapply sync_rel, E.
  - eapply sync_free, E.
Qed.
End sync.

Lemma inv_start h0 : inv h0 (lstart h0).
Proof.
  constructor; cbn.
  - now exists [].
  - now exists [].
  - intros q t h [H|H]; destruct q; discriminate.
  - intros q x H. destruct q; discriminate.
  - constructor.
  - discriminate.
  - constructor.
  - intros ? ? ? [].
  - intros ? ? ? [].
  - constructor.
  - discriminate.
  - intros q t h H. destruct q; discriminate.
  - intros q [].
  - intros q t h H. destruct q; discriminate.
  - exact I.
  - intros p b Hp Hpos q Hq. exfalso. unfold cview, view, read_at in Hp. cbn in Hp. destruct p; [lia|]. destruct p; cbn in Hp; destruct Hp; discriminate.
  - intros j x H. destruct j; discriminate.
Qed.

Theorem inv_run W h0 : forall es st, inv h0 st -> timely W h0 st es -> inv h0 (lrun W st es).
Proof.
  induction es as [|e r IH]; intros st I Ht; [exact I|]. destruct Ht as [He Hr]. unfold lrun. cbn [fold_left]. apply IH; [|exact Hr].
  destruct e as [h|i|h|j| |pick n].
  - now apply step_put.
  - now apply step_go.
  - now apply step_get.
  - now apply step_read.
  - destruct He. now apply step_tick.
  - cbn [lstep]. now apply step_sync.
Qed.

Theorem live_all W h0 es h q : timely W h0 (lstart h0) es -> let st := lrun W (lstart h0) es in
  not_writing st -> returned st h q -> In q (get_now st h).
Proof. intros Ht st Hn Hr. apply (got_all h0); auto. apply inv_run; [apply inv_start|exact Ht]. Qed.

Theorem live_once W h0 es h : timely W h0 (lstart h0) es -> let st := lrun W (lstart h0) es in
  settled st -> NoDup (get_now st h).
Proof. intros Ht st Hs. apply (got_once h0); auto. apply inv_run; [apply inv_start|exact Ht]. Qed.

Theorem live_only W h0 es j h l q : timely W h0 (lstart h0) es -> let st := lrun W (lstart h0) es in
  nth_error (l_gets st) j = Some (GDone h l) -> In q l -> put_on st h q.
Proof.
  intros Ht st Hj Hq. assert (I : inv h0 st) by (apply inv_run; [apply inv_start|exact Ht]).
  apply put_on_on. exact (proj1 (i_gets _ _ I _ _ Hj) q Hq).
Qed.
