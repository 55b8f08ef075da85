(* Puts and Gets at the same time as a Sync: every step keeps [inv]. *)

From Coq Require Import List Arith Bool Lia.
Import ListNotations.
From Verif Require Import M_Live S_Live P_Live P_LiveInv.

Lemma nodup_snoc {A} (l : list A) x : NoDup l -> ~ In x l -> NoDup (l ++ [x]).
Proof.
  intros H Hn. apply nodup_cat; [exact H|constructor; [intros []|constructor]|]. intros y Hy [<-|[]]. contradiction.
Qed.

Lemma sync_mono st st' : sync_ok st -> l_sync st' = l_sync st -> l_file st' = l_file st -> l_index st' = l_index st ->
  l_cur st <= l_cur st' -> (forall t, t < l_cur st -> nfind (l_mem st') t = nfind (l_mem st) t) ->
  (forall t h q, t < l_cur st -> In (t, h, q) (l_win st') -> In (t, h, q) (l_win st)) ->
  (forall k, l_sync st = YSnap k -> l_cur st' = l_cur st) -> sync_ok st'.
Proof.
  intros S0 Es Ef Ei Hc Hm Hw Hk. unfold sync_ok in *. rewrite Es. rewrite Ef, Ei.
  assert (B : forall c, bounded st c -> bounded st' c) by (intros c Hb; unfold bounded, cview in *; now rewrite Es, Ef).
  assert (T : forall keys ts, times_ok st keys ts -> times_ok st' keys ts).
  { intros keys ts (T1 & T2 & T3). split; [exact T1|]. split.
    - intros t Ht. specialize (T2 t Ht). lia.
    - intros t h q Ht Hin. apply (T3 t h q Ht). apply Hw; auto. }
  assert (Bl : forall t, t < l_cur st -> block_of st' t = block_of st t) by (intros t Ht; unfold block_of; now rewrite (Hm t Ht)).
  destruct (l_sync st) as [|k|c|c t fresh groups|c t fresh|c t fresh|c t|c t]; auto.
  - intros t h q Ht Hin. rewrite (Hk k eq_refl) in Ht. apply (S0 t h q Ht). apply Hw; auto.
  - destruct S0 as (? & ? & ?). auto.
  - destruct S0 as (? & T0 & ? & ? & ? & ?). assert (Ht : t < l_cur st) by (apply T0; now left). rewrite (Bl t Ht), (Hm t Ht). auto 10.
  - destruct S0 as (? & T0 & ? & ?). assert (Ht : t < l_cur st) by (apply T0; now left). rewrite (Bl t Ht), (Hm t Ht). auto 10.
  - destruct S0 as (? & ? & T0 & ? & ?). assert (Ht : t < l_cur st) by (apply T0; now left). rewrite (Bl t Ht), (Hm t Ht). auto 10.
  - destruct S0 as (? & ? & T0 & ? & ?). assert (Ht : t < l_cur st) by (apply T0; now left). rewrite (Bl t Ht), (Hm t Ht). auto 10.
  - destruct S0 as (? & ? & T0 & ? & ?). assert (Ht : t < l_cur st) by (apply T0; now left). rewrite (Bl t Ht), (Hm t Ht). auto 10.
Qed.

Lemma freeing_past st t : sync_ok st -> freeing (l_sync st) t -> t < l_cur st.
Proof. intros S0 (c & E). unfold sync_ok in S0. rewrite E in S0. destruct S0 as (_ & _ & (_ & H & _) & _). apply H. now left. Qed.

Lemma on_snoc ps x h q : on ps h q -> on (ps ++ [x]) h q.
Proof. intros (y & Hy & E). exists y. split; [now apply snoc_old|exact E]. Qed.

Lemma on_supd ps i x y h q : nth_error ps i = Some x -> topic_of y = topic_of x -> on (supd i y ps) h q <-> on ps h q.
Proof.
  intros Hx Ht. unfold on. destruct (Nat.eq_dec q i) as [->|Hn].
  - rewrite (supd_same _ _ _ _ Hx), Hx. split; intros (z & Ez & E); injection Ez as <-; eexists; split; try reflexivity; congruence.
  - now rewrite supd_other.
Qed.

(* What the puts say about gets and blocks when the topics stay. *)
Lemma gets_on ps ps' gs (h0 : nat) : (forall h q, on ps h q -> on ps' h q) ->
  (forall j x, nth_error gs j = Some x ->
            match x with GMem h _ es | GDone h es => forall q, In q es -> on ps h q | _ => True end /\
            match x with GOff h _ | GMem h _ _ => h <> h0 | _ => True end) ->
  forall j x, nth_error gs j = Some x ->
            match x with GMem h _ es | GDone h es => forall q, In q es -> on ps' h q | _ => True end /\
            match x with GOff h _ | GMem h _ _ => h <> h0 | _ => True end.
Proof. intros Ho H j x Hx. destruct (H j x Hx) as [A B]. destruct x; auto. Qed.

Lemma step_put W h0 st h : inv h0 st -> h <> h0 -> inv h0 (lstep W st (EPut h)).
Proof.
  intros I Hh. assert (SP := stored_past _ _ I). destruct I. constructor; cbn [lstep l_cur l_mem l_win l_trie l_file l_index l_puts l_gets l_sync]; auto.
  - intros q t k [Hq|Hq]; apply snoc_inv in Hq as [Hq|Hq]; try discriminate; apply (i_now q t k); auto.
  - intros q x Hq. apply snoc_inv in Hq as [Hq| ->]; [eauto|exact Hh].
  - intros t recs Hr. destruct (i_mem t recs Hr) as (A & B & C & D). split; [exact A|]. split; [exact B|]. split; [exact C|].
    intros q k Hin. destruct (D q k Hin) as [E|[E|E]]; auto using snoc_old.
  - intros t k q Hin. destruct (i_win t k q Hin) as (A & B & [C|C]); split; auto using snoc_old.
  - intros t k q Hb [Hq|Hq]; apply snoc_inv in Hq as [Hq|Hq]; try discriminate; apply (i_inwin t k q); auto.
  - intros k off Hk. destruct (i_trie k off Hk) as (A & l & C & D & E). split; [exact A|]. exists l. split; [exact C|]. split; [exact D|].
    intros q. rewrite E. split; intros [S1 O1]; (split; [exact S1|]); [now apply on_snoc|].
    destruct (SP q S1) as (t & k' & Hq). destruct O1 as (x & Hx & Ex). rewrite (snoc_old _ _ _ _ Hq) in Hx. injection Hx as <-. now exists (LDone t k').
  - intros q t k Hq. apply snoc_inv in Hq as [Hq|Hq]; [eauto|discriminate].
  - intros q Hq. destruct (i_index q Hq) as (t & k & A & B). exists t, k. split; [now apply snoc_old|exact B].
  - intros q t k Hq. apply snoc_inv in Hq as [Hq|Hq]; [eauto|discriminate].
  - intros p b Hp Hpos q Hq. apply on_snoc. eauto.
  - apply (gets_on (l_puts st)); [|assumption]. intros; now apply on_snoc.
Qed.

Lemma step_tick W h0 st : inv h0 st -> (forall x, In x (l_puts st) -> ~ underway x) -> (forall k, l_sync st <> YSnap k) ->
  inv h0 (lstep W st ETick).
Proof.
  intros I Hu Hk. destruct I. constructor; cbn [lstep l_cur l_mem l_win l_trie l_file l_index l_puts l_gets l_sync]; auto.
  - intros q t k [Hq|Hq]; exfalso; apply nth_error_In in Hq; apply (Hu _ Hq); exact Logic.I.
  - intros t recs Hr. destruct (i_mem t recs Hr) as (A & B & C & D). split; [exact A|]. split; [lia|]. auto.
  - intros q Hq. destruct (i_index q Hq) as (t & k & A & B & C). exists t, k. split; [exact A|]. split; [lia|exact C].
  - eapply sync_mono; [exact i_sync| | | | | | |]; try reflexivity; cbn; [lia|auto|]. intros k E. exfalso. now apply (Hk k).
Qed.

Lemma walk_in f h : forall fuel p q, In q (walk fuel f h p) -> exists p' b, read_at f p' = Some b /\ lb_hash b = h /\ In q (lb_ents b).
Proof.
  induction fuel as [|n IH]; intros p q; cbn [walk]; [intros []|]. destruct (read_at f p) as [b|] eqn:E; [|intros []].
  destruct (Nat.eqb_spec (lb_hash b) h) as [Hh|]; [|intros []]. intros Hin. apply in_app_or in Hin as [Hin|Hin].
  - apply in_rev in Hin. eauto.
  - destruct (Nat.eqb (lb_next b) 0); [destruct Hin|eauto].
Qed.

Lemma step_get W h0 st h : inv h0 st -> inv h0 (lstep W st (EGet h)).
Proof.
  intros I. destruct I. constructor; cbn [lstep l_cur l_mem l_win l_trie l_file l_index l_puts l_gets l_sync]; auto.
  intros j x Hx. apply snoc_inv in Hx as [Hx| ->]; [eauto|]. auto.
Qed.

Lemma gets_inv h0 st gs : inv h0 st ->
  (forall j x, nth_error gs j = Some x ->
            match x with GMem h _ es | GDone h es => forall q, In q es -> on (l_puts st) h q | _ => True end /\
            match x with GOff h _ | GMem h _ _ => h <> h0 | _ => True end) ->
  inv h0 (LS (l_cur st) (l_mem st) (l_win st) (l_trie st) (l_file st) (l_index st) (l_puts st) gs (l_sync st)).
Proof. intros I H. destruct I. constructor; cbn [l_cur l_mem l_win l_trie l_file l_index l_puts l_gets l_sync]; auto. Qed.

Lemma step_read W h0 st j : inv h0 st -> inv h0 (lstep W st (ERead j)).
Proof.
  intros I. cbn [lstep]. unfold get_go.
  assert (U : forall y x0, nth_error (l_gets st) j = Some x0 ->
      match y with GMem h _ es | GDone h es => forall q, In q es -> on (l_puts st) h q | _ => True end /\
            match y with GOff h _ | GMem h _ _ => h <> h0 | _ => True end ->
      inv h0 (LS (l_cur st) (l_mem st) (l_win st) (l_trie st) (l_file st) (l_index st) (l_puts st) (supd j y (l_gets st)) (l_sync st))).
  { intros y x0 Hx0 Hy. apply gets_inv; [exact I|]. intros i x Hx. destruct (Nat.eq_dec i j) as [->|Hn].
    - rewrite (supd_same _ _ _ _ Hx0) in Hx. injection Hx as <-. exact Hy.
    - rewrite supd_other in Hx by exact Hn. exact (i_gets _ _ I i x Hx). }
  destruct (nth_error (l_gets st) j) as [[h|h off|h off es|h es]|] eqn:E; [| | | |exact I].
  - destruct (nfind (l_trie st) h) as [off|] eqn:Et; (eapply U; [reflexivity|]).
    + split; [exact Logic.I|]. exact (proj1 (i_trie _ _ I _ _ Et)).
    + split; [|exact Logic.I]. intros q [].
  - eapply U; [reflexivity|]. split; [|exact (proj2 (i_gets _ _ I _ _ E))]. intros q Hq. apply in_window_in in Hq as (t & Hq).
    destruct (i_win _ _ I _ _ _ Hq) as (_ & _ & [A|A]); eexists; split; try exact A; reflexivity.
  - eapply U; [reflexivity|]. destruct (i_gets _ _ I _ _ E) as [A B]. split; [|exact Logic.I]. intros q Hq. apply in_app_or in Hq as [Hq|Hq]; [auto|].
    unfold on_file in Hq. apply walk_in in Hq as (p & b & Hp & <- & Hq). eapply (i_blocks _ _ I); [right; exact Hp| |exact Hq].
    destruct p; [|lia]. destruct (i_first _ _ I) as (es0 & E0). rewrite E0 in Hp. injection Hp as <-. cbn in B. congruence.
  - exact I.
Qed.

Lemma block_nset st t r x : block_of (LS (l_cur st) (nset (l_mem st) t r) (l_win st) (l_trie st) (l_file st) (l_index st) (l_puts st) (l_gets st) (l_sync st)) x
  = if Nat.eqb t x then r else block_of st x.
Proof. unfold block_of. cbn [l_mem]. rewrite nset_find. destruct (Nat.eqb t x); reflexivity. Qed.

Lemma go_new h0 st i h : inv h0 st -> nth_error (l_puts st) i = Some (LNew h) -> inv h0 (put_go st i).
Proof.
  intros I Hi. unfold put_go. rewrite Hi. unfold set_put.
  set (st' := LS _ _ _ _ _ _ _ _ _).
  assert (Bo : forall x, block_of st' x = if Nat.eqb (l_cur st) x then block_of st (l_cur st) ++ [(i, h)] else block_of st x).
  { intros x. unfold block_of at 1. unfold st'. cbn [l_mem]. rewrite nset_find. destruct (Nat.eqb (l_cur st) x); reflexivity. }
  assert (Bi : forall x q k, In (q, k) (block_of st x) -> In (q, k) (block_of st' x)).
  { intros x q k H. rewrite Bo. destruct (Nat.eqb_spec (l_cur st) x) as [<-|]; [apply in_or_app; now left|exact H]. }
  assert (Be : forall x q k, In (q, k) (block_of st' x) -> In (q, k) (block_of st x) \/ (q = i /\ k = h /\ x = l_cur st)).
  { intros x q k. rewrite Bo. destruct (Nat.eqb_spec (l_cur st) x) as [<-|]; [|auto]. intros H. apply in_app_or in H as [H|[H|[]]]; [auto|].
    injection H as <- <-. auto. }
  assert (Ot : forall q, q <> i -> nth_error (supd i (LMem (l_cur st) h) (l_puts st)) q = nth_error (l_puts st) q) by (intros q Hq; now apply supd_other).
  assert (Sm := supd_same _ _ (LMem (l_cur st) h) _ Hi).
  assert (Oi : forall k q, on (supd i (LMem (l_cur st) h) (l_puts st)) k q <-> on (l_puts st) k q) by (intros; eapply on_supd; [exact Hi|reflexivity]).
  assert (Ni : forall q x, nth_error (l_puts st) q = Some x -> (forall k, x <> LNew k) -> q <> i) by (intros q x Hq Hx ->; rewrite Hi in Hq; injection Hq as <-; now apply (Hx h)).
  pose proof I as I0. destruct I0. constructor; cbn [st' l_cur l_mem l_win l_trie l_file l_index l_puts l_gets l_sync]; auto.
  - intros q t k Hq. destruct (Nat.eq_dec q i) as [->|Hn].
    + rewrite Sm in Hq. destruct Hq as [Hq|Hq]; [|discriminate]. injection Hq as <- <-. split; [reflexivity|].
      rewrite Bo, Nat.eqb_refl. apply in_or_app. right. now left.
    + rewrite !Ot in Hq by exact Hn. destruct (i_now q t k Hq) as [A B]. split; [exact A|]. now apply Bi.
  - intros q x Hq. destruct (Nat.eq_dec q i) as [->|Hn].
    + rewrite Sm in Hq. injection Hq as <-. exact (i_topic i _ Hi).
    + rewrite Ot in Hq by exact Hn. eauto.
  - apply nset_keys. exact i_times.
  - intros t recs. rewrite nset_find. destruct (Nat.eqb_spec (l_cur st) t) as [<-|Hn].
    + intros [= <-]. split; [intros E; now apply app_eq_nil in E as [_ E]|]. split; [lia|].
      assert (Pr : forall q k, In (q, k) (block_of st (l_cur st)) -> q <> i).
      { intros q k Hin. destruct (block_on _ _ I _ _ _ Hin) as (x & Hx & _). unfold block_of in Hin. destruct (nfind (l_mem st) (l_cur st)) as [recs|] eqn:E; [|destruct Hin].
        destruct (i_mem _ _ E) as (_ & _ & _ & D). destruct (D q k Hin) as [F|[F|F]]; (eapply Ni; [exact F|discriminate]). }
      split.
      * rewrite map_app. apply nodup_snoc.
        -- unfold block_of. destruct (nfind (l_mem st) (l_cur st)) as [recs|] eqn:E; [|constructor]. exact (proj1 (proj2 (proj2 (i_mem _ _ E)))).
        -- cbn [fst map]. intros Hin. apply in_map_iff in Hin as ((q & k) & Eq & Hin). cbn in Eq. subst q. now apply (Pr i k Hin).
      * intros q k Hin. apply in_app_or in Hin as [Hin|[Hin|[]]].
        -- rewrite (Ot q (Pr q k Hin)). unfold block_of in Hin. destruct (nfind (l_mem st) (l_cur st)) as [recs|] eqn:E; [|destruct Hin].
           destruct (i_mem _ _ E) as (_ & _ & _ & D). exact (D q k Hin).
        -- injection Hin as <- <-. left. exact Sm.
    + intros Hr. destruct (i_mem _ _ Hr) as (A & B & C & D). split; [exact A|]. split; [exact B|]. split; [exact C|].
      intros q k Hin. assert (q <> i) by (destruct (D q k Hin) as [F|[F|F]]; (eapply Ni; [exact F|discriminate])). rewrite (Ot q H). auto.
  - intros t k q Hin. destruct (i_win t k q Hin) as (A & B & C). split; [now apply Bi|]. split; [exact B|].
    rewrite Ot; [exact C|]. destruct C as [C|C]; (eapply Ni; [exact C|discriminate]).
  - intros t k q Hin Hq. destruct (Nat.eq_dec q i) as [->|Hn].
    + rewrite Sm in Hq. destruct Hq; discriminate.
    + rewrite Ot in Hq by exact Hn. destruct (Be _ _ _ Hin) as [Hb|(? & _)]; [eauto|contradiction].
  - intros k off Hk. destruct (i_trie k off Hk) as (A & l & C & D & E). split; [exact A|]. exists l. split; [exact C|]. split; [exact D|].
    intros q. rewrite E. rewrite Oi. reflexivity.
  - intros q t k Hq. destruct (Nat.eq_dec q i) as [->|Hn]; [rewrite Sm in Hq; discriminate|]. rewrite Ot in Hq by exact Hn. eauto.
  - intros q Hq. destruct (i_index q Hq) as (t & k & A & B & C). assert (Hn : q <> i) by (eapply Ni; [exact A|discriminate]). exists t, k. rewrite Ot by exact Hn. split; [exact A|]. split; [exact B|].
    intros Hb. destruct (Be _ _ _ Hb) as [Hb'|(? & _)]; [auto|contradiction].
  - intros q t k Hq. destruct (Nat.eq_dec q i) as [->|Hn]; [rewrite Sm in Hq; discriminate|]. rewrite Ot in Hq by exact Hn.
    destruct (i_done q t k Hq); auto.
  - eapply sync_mono; [exact i_sync| | | | | | |]; try reflexivity; cbn [st' l_mem l_cur l_win]; auto.
    intros t Ht. rewrite nset_find. destruct (Nat.eqb_spec (l_cur st) t); [lia|reflexivity].
  - intros p b Hp Hpos q Hq. apply Oi. eauto.
  - apply (gets_on (l_puts st)); [|exact i_gets]. intros; now apply Oi.
Qed.

Lemma go_mem h0 st i t h : inv h0 st -> nth_error (l_puts st) i = Some (LMem t h) -> inv h0 (put_go st i).
Proof.
  intros I Hi. unfold put_go. rewrite Hi. unfold set_put.
  assert (Ot : forall q, q <> i -> nth_error (supd i (LWin t h) (l_puts st)) q = nth_error (l_puts st) q) by (intros q Hq; now apply supd_other).
  assert (Sm := supd_same _ _ (LWin t h) _ Hi).
  assert (Oi : forall k q, on (supd i (LWin t h) (l_puts st)) k q <-> on (l_puts st) k q) by (intros; eapply on_supd; [exact Hi|reflexivity]).
  destruct (i_now _ _ I i t h (or_introl Hi)) as [Hc Hb].
  pose proof I as I0. destruct I0. constructor; cbn [l_cur l_mem l_win l_trie l_file l_index l_puts l_gets l_sync]; auto.
  - intros q t' k Hq. destruct (Nat.eq_dec q i) as [->|Hn].
    + rewrite Sm in Hq. destruct Hq as [Hq|Hq]; [discriminate|]. injection Hq as <- <-. auto.
    + rewrite !Ot in Hq by exact Hn. eauto.
  - intros q x Hq. destruct (Nat.eq_dec q i) as [->|Hn].
    + rewrite Sm in Hq. injection Hq as <-. exact (i_topic i _ Hi).
    + rewrite Ot in Hq by exact Hn. eauto.
  - intros t' recs Hr. destruct (i_mem _ _ Hr) as (A & B & C & D). split; [exact A|]. split; [exact B|]. split; [exact C|].
    intros q k Hin. destruct (Nat.eq_dec q i) as [->|Hn]; [|rewrite Ot by exact Hn; auto].
    rewrite Sm. right. left. destruct (D i k Hin) as [F|[F|F]]; rewrite Hi in F; congruence.
  - apply nodup_snoc; [exact i_wnodup|]. intros Hin. destruct (i_win _ _ _ Hin) as (_ & _ & [A|A]); rewrite Hi in A; discriminate.
  - intros t' k q Hin. apply in_app_or in Hin as [Hin|[Hin|[]]].
    + destruct (i_win t' k q Hin) as (A & B & C). split; [exact A|]. split; [exact B|].
      destruct (Nat.eq_dec q i) as [->|Hn]; [rewrite Hi in C; destruct C; discriminate|]. rewrite Ot by exact Hn. exact C.
    + injection Hin as <- <- <-. split; [exact Hb|]. split; [|left; exact Sm].
      intros F. apply freeing_past in F; [lia|exact i_sync].
  - intros t' k q Hin Hq. destruct (Nat.eq_dec q i) as [->|Hn].
    + rewrite Sm in Hq. destruct Hq as [Hq|Hq]; [|discriminate]. injection Hq as <- <-. left. apply in_or_app. right. now left.
    + rewrite Ot in Hq by exact Hn. destruct (i_inwin _ _ _ Hin Hq); [left; apply in_or_app; now left|now right].
  - intros k off Hk. destruct (i_trie k off Hk) as (A & l & C & D & E). split; [exact A|]. exists l. split; [exact C|]. split; [exact D|].
    intros q. rewrite E. rewrite Oi. reflexivity.
  - intros q t' k Hq. destruct (Nat.eq_dec q i) as [->|Hn]; [rewrite Sm in Hq; discriminate|]. rewrite Ot in Hq by exact Hn. eauto.
  - intros q Hq. destruct (i_index q Hq) as (t' & k & A & B). assert (Hn : q <> i) by (intros ->; rewrite Hi in A; discriminate). exists t', k. rewrite Ot by exact Hn. auto.
  - intros q t' k Hq. destruct (Nat.eq_dec q i) as [->|Hn]; [rewrite Sm in Hq; discriminate|]. rewrite Ot in Hq by exact Hn. eauto.
  - eapply sync_mono; [exact i_sync| | | | | | |]; try reflexivity; cbn [l_mem l_cur l_win]; auto.
    intros t' k q Ht Hin. apply in_app_or in Hin as [Hin|[Hin|[]]]; [exact Hin|]. injection Hin as <- <- <-. lia.
  - intros p b Hp Hpos q Hq. apply Oi. eauto.
  - apply (gets_on (l_puts st)); [|exact i_gets]. intros; now apply Oi.
Qed.

Lemma go_win h0 st i t h : inv h0 st -> nth_error (l_puts st) i = Some (LWin t h) -> inv h0 (put_go st i).
Proof.
  intros I Hi. unfold put_go. rewrite Hi. unfold set_put.
  assert (Ot : forall q, q <> i -> nth_error (supd i (LDone t h) (l_puts st)) q = nth_error (l_puts st) q) by (intros q Hq; now apply supd_other).
  assert (Sm := supd_same _ _ (LDone t h) _ Hi).
  assert (Oi : forall k q, on (supd i (LDone t h) (l_puts st)) k q <-> on (l_puts st) k q) by (intros; eapply on_supd; [exact Hi|reflexivity]).
  destruct (i_now _ _ I i t h (or_intror Hi)) as [Hc Hb].
  assert (SP := stored_past _ _ I).
  set (tr := match nfind (l_trie st) h with Some _ => l_trie st | None => l_trie st ++ [(h, 0)] end).
  assert (Tr : forall k, nfind tr k = match nfind (l_trie st) k with Some o => Some o | None => if Nat.eqb h k then Some 0 else None end).
  { intros k. unfold tr. destruct (nfind (l_trie st) h) as [o|] eqn:E.
    - destruct (nfind (l_trie st) k) eqn:Ek; [reflexivity|]. destruct (Nat.eqb_spec h k); [congruence|reflexivity].
    - rewrite nfind_app. cbn [nfind]. reflexivity. }
  pose proof I as I0. destruct I0. constructor; cbn [l_cur l_mem l_win l_trie l_file l_index l_puts l_gets l_sync]; auto.
  - intros q t' k Hq. destruct (Nat.eq_dec q i) as [->|Hn].
    + rewrite Sm in Hq. destruct Hq as [Hq|Hq]; discriminate.
    + rewrite !Ot in Hq by exact Hn. eauto.
  - intros q x Hq. destruct (Nat.eq_dec q i) as [->|Hn].
    + rewrite Sm in Hq. injection Hq as <-. exact (i_topic i _ Hi).
    + rewrite Ot in Hq by exact Hn. eauto.
  - intros t' recs Hr. destruct (i_mem _ _ Hr) as (A & B & C & D). split; [exact A|]. split; [exact B|]. split; [exact C|].
    intros q k Hin. destruct (Nat.eq_dec q i) as [->|Hn]; [|rewrite Ot by exact Hn; auto].
    rewrite Sm. right. right. destruct (D i k Hin) as [F|[F|F]]; rewrite Hi in F; congruence.
  - intros t' k q Hin. destruct (i_win t' k q Hin) as (A & B & C). split; [exact A|]. split; [exact B|].
    destruct (Nat.eq_dec q i) as [->|Hn]; [rewrite Sm; right; rewrite Hi in C; destruct C; congruence|]. rewrite Ot by exact Hn. exact C.
  - intros t' k q Hin Hq. destruct (Nat.eq_dec q i) as [->|Hn].
    + rewrite Sm in Hq. destruct Hq as [Hq|Hq]; [discriminate|]. injection Hq as <- <-. apply i_inwin; auto.
    + rewrite Ot in Hq by exact Hn. eauto.
  - fold tr. unfold tr. destruct (nfind (l_trie st) h) eqn:E; [exact i_tnodup|]. rewrite map_app. apply nodup_snoc; [exact i_tnodup|].
    now apply nfind_none.
  - fold tr. intros k off. rewrite Tr. destruct (nfind (l_trie st) k) as [o|] eqn:Ek.
    + intros [= <-]. destruct (i_trie k o Ek) as (A & l & C & D & E). split; [exact A|]. exists l. split; [exact C|]. split; [exact D|].
      intros q. rewrite E. rewrite Oi. reflexivity.
    + destruct (Nat.eqb_spec h k) as [<-|]; [|discriminate]. intros [= <-]. split; [exact (i_topic i _ Hi)|]. exists []. split; [constructor|]. split; [constructor|].
      intros q. split; [intros []|]. intros [S1 O1]. destruct (SP q S1) as (t' & k' & Hq). apply Oi in O1 as (x & Hx & Ex). rewrite Hq in Hx. injection Hx as <-. cbn in Ex. subst k'.
      now apply (i_intrie _ _ _ Hq).
  - fold tr. intros q t' k Hq. rewrite Tr. destruct (nfind (l_trie st) k) as [o|] eqn:Ek; [discriminate|].
    destruct (Nat.eq_dec q i) as [->|Hn].
    + rewrite Sm in Hq. injection Hq as <- <-. now rewrite Nat.eqb_refl.
    + rewrite Ot in Hq by exact Hn. exfalso. now apply (i_intrie _ _ _ Hq).
  - intros q Hq. destruct (i_index q Hq) as (t' & k & A & B). assert (Hn : q <> i) by (intros ->; rewrite Hi in A; discriminate). exists t', k. rewrite Ot by exact Hn. auto.
  - intros q t' k Hq. destruct (Nat.eq_dec q i) as [->|Hn]; [rewrite Sm in Hq; injection Hq as <- <-; auto|]. rewrite Ot in Hq by exact Hn. eauto.
  - intros p b Hp Hpos q Hq. apply Oi. eauto.
  - apply (gets_on (l_puts st)); [|exact i_gets]. intros; now apply Oi.
Qed.

Lemma step_go W h0 st i : inv h0 st -> inv h0 (lstep W st (EGo i)).
Proof.
  intros I. cbn [lstep]. destruct (nth_error (l_puts st) i) as [[h|t h|t h|t h]|] eqn:E.
  - eapply go_new; eauto.
  - eapply go_mem; eauto.
  - eapply go_win; eauto.
  - unfold put_go. now rewrite E.
  - unfold put_go. now rewrite E.
Qed.
