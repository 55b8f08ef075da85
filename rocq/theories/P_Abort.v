(** Proofs for C74. *)
From Verif Require Import M_Bytes P_Bytes M_Hash M_Bloom M_File M_Wal P_Wal M_MemDB S_MemDB S_Size S_Abort P_MemBlock P_MemDB P_MemEx P_Size.
From Coq Require Import Lia ZifyBool ZifyNat ZifyN.
Open Scope Z_scope.

Lemma dget_write d log id n : dget d (FTmp id) = None -> dget (writeLog d (lw_append newWriter log) id) n = dget d n \/ n = FLog id.
Proof.
  intros Ht. destruct log as [|x r]; [now left|]. unfold writeLog, log_ops. destruct (lw_size _ =? 0)%N; [now left|].
  rewrite put_dir by (cbn [lw_append lw_buf newWriter app]; destruct (le 4 (u32 (N.of_nat (length (x :: r)) + 4))); discriminate).
  cbn [li_timeID]. destruct (fname_eqb_spec n (FLog id)) as [->|Hn]; [now right|]. left. rewrite dget_app.
  rewrite dget_ddel by congruence. destruct (fname_eqb_spec n (FTmp id)) as [->|Hm].
  - rewrite dget_ddel_same, Ht. cbn [dget]. destruct (fname_eqb_spec (FTmp id) (FLog id)); [discriminate|reflexivity].
  - rewrite dget_ddel by congruence. destruct (dget d n); [reflexivity|]. cbn [dget]. destruct (fname_eqb_spec n (FLog id)); [contradiction|reflexivity].
Qed.

(** The state during a batch: [s0], [A0] before it, [G] the blocks written,
    [t] the block of the batch. *)
Record binv (c : mcfg) (s0 : mdb) (A0 : contents) (G : list Z) (t : Z) (w : bool) (s : mdb) : Prop := {
  bi_inv : exists A, winv s A /\ frec c s A /\ (forall u k, ~ In u (t :: G) -> A u k = A0 u k) /\ (w = true -> forall k, A t k = None);
  bi_live : forall u, ~ In u (t :: G) -> live s u = live s0 u;
  bi_refs : forall u, In u (t :: G) -> exists p b, live s u = Some p /\ nth_error (m_blocks s) p = Some b /\ (forall x, In x (mb_refs b) -> x = u) /\ (u = t -> mb_refs b = []);
  bi_files : forall n, dget (m_wal s) n = dget (m_wal s0) n \/ exists u p b, In u G /\ n = FLog u /\ live s u = Some p /\ nth_error (m_blocks s) p = Some b /\ In u (mb_refs b)
}.
Lemma binv_start c s A t pick : winv s A -> frec c s A -> live s t = None -> binv c s A [] t true (batch_new s t pick).
Proof.
  intros W F Hl. unfold batch_new. destruct (addTimeBlock_inv s A t pick W) as (W1 & F1 & _).
  assert (K : forall u, u <> t -> live (addTimeBlock s t pick) u = live s u).
  { intros u Hu. unfold addTimeBlock. rewrite Hl. cbv zeta. match goal with |- context [let (_, _) := ?x in _] => destruct x as [[i pool] bufs] end.
    unfold live. cbn [set_live m_live]. now rewrite afind_aset_other by (first [exact Zeqb_iff|congruence]). }
  split.
  - exists A. split; [exact W1|]. split; [eapply frec_same; [exact F|exact F1|auto]|]. split; [auto|]. intros _ k. exact (wi_none _ _ W _ k Hl).
  - intros u Hu. apply K. intros ->. apply Hu. now left.
  - intros u [<-|[]]. unfold addTimeBlock. rewrite Hl. cbv zeta. match goal with |- context [let (_, _) := ?x in _] => destruct x as [[i pool] bufs] end.
    exists (length (m_blocks s)), (mkMB 0 i [] [] 0). split; [unfold live; cbn [set_live m_live]; apply afind_aset_same; exact Zeqb_iff|].
    split; [cbn [set_live set_heap m_blocks]; rewrite nth_error_app2, Nat.sub_diag by lia; reflexivity|]. split; [intros x []|reflexivity].
  - intros n. left. unfold addTimeBlock. rewrite Hl. cbv zeta. match goal with |- context [let (_, _) := ?x in _] => destruct x as [[i pool] bufs] end. reflexivity.
Qed.
Lemma put_blocks c s t key v p b : nth_error (m_blocks s) p = Some b -> exists b', nth_error (m_blocks (fst (put_in c s t key v))) p = Some b' /\ mb_refs b' = mb_refs b.
Proof.
  intros Hb. unfold put_in. destruct (m_closed s); [eauto|]. destruct (live s t) as [q|]; [|eauto]. unfold block_put.
  destruct (nth_error (m_blocks s) q) as [b0|] eqn:Hq; [|eauto]. destruct (nth_error (m_bufs s) (mb_buf b0)); [|eauto]. cbn [fst].
  match goal with |- context [addTimeFilter c ?x t key] => destruct (addTimeFilter_same c x t key) as (E & _) end. rewrite E.
  cbn [set_block set_buf m_blocks]. rewrite nth_error_update by (eapply nth_error_lt; exact Hq).
  destruct (Nat.eqb_spec p q) as [->|]; [|eauto]. eexists. split; [reflexivity|]. cbn [mb_refs]. congruence.
Qed.

Lemma binv_put c s0 A0 G t w s key v s' r : binv c s0 A0 G t w s -> item_ok key v -> batch_put c s t key v = (s', r) -> binv c s0 A0 G t false s'.
Proof.
  intros [(A & W & F & HA & _) H2 H3 H4] Hk E. unfold batch_put in E. pose proof (put_in_keeps c s t key v) as [K1 _ K3 _].
  pose proof (put_blocks c s t key v) as Kb. destruct (put_in_inv _ _ _ _ _ _ _ _ W F Hk E) as (_ & HH). rewrite E in *. cbn [fst] in *.
  assert (Kl : forall u, live s' u = live s u) by (intros u; unfold live; now rewrite K1).
  split.
  - destruct HH as [(-> & W' & F' & _)|(_ & -> & _)].
    + exists (upd A t key (Some v)). split; [exact W'|]. split; [exact F'|]. split; [|discriminate]. intros u k Hu. unfold upd. destruct (Z.eqb_spec u t) as [->|]; [exfalso; apply Hu; now left|].
      cbn [andb]. now apply HA.
    + exists A. split; [exact W|]. split; [exact F|]. split; [exact HA|discriminate].
  - intros u Hu. rewrite Kl. auto.
  - intros u Hu. destruct (H3 u Hu) as (p & b & Hl & Hb & Hr & Ht). destruct (Kb p b Hb) as (b' & Hb' & Er). exists p, b'. rewrite Kl, Er. auto.
  - intros n. rewrite K3. destruct (H4 n) as [H|(u & p & b & Hu & En & Hl & Hb & Hr)]; [now left|]. right. destruct (Kb p b Hb) as (b' & Hb' & Er). exists u, p, b'. rewrite Kl, Er. auto 7.
Qed.

Definition free_name (s0 : mdb) (t : Z) : Prop := live s0 t = None /\ dget (m_wal s0) (FLog t) = None /\ dget (m_wal s0) (FTmp t) = None.
Lemma binv_write c s0 A0 G t w s now pick : binv c s0 A0 G t w s -> free_name s0 t -> free_name s0 now -> ~ In t G -> ~ In now (t :: G) -> binv c s0 A0 (t :: G) now true (batch_write s t now pick).
Proof.
  intros [(A & W & F & HA & _) H2 H3 H4] Hf Hn HtG HnG.
  assert (Htmp : dget (m_wal s) (FTmp t) = None).
  { destruct (H4 (FTmp t)) as [H|(u & p & b & _ & H & _)]; [|discriminate]. rewrite H. apply Hf. }
  (* the write *)
  assert (T : binv c s0 A0 (t :: G) t false (tinyWrite s t t) \/ True) by (right; exact I). clear T.
  set (s1 := tinyWrite s t t). destruct (tinyWrite_inv s A t t W) as (W1 & F1 & _ & L1). fold s1 in W1, F1, L1.
  assert (Kl : forall u, live s1 u = live s u) by (intros u; unfold live; now rewrite L1).
  assert (R1 : forall u, In u (t :: G) -> exists p b, live s1 u = Some p /\ nth_error (m_blocks s1) p = Some b /\ (forall x, In x (mb_refs b) -> x = u)).
  { intros u Hu. destruct (H3 u Hu) as (p & b & Hl & Hb & Hr & Ht). rewrite Kl, Hl. exists p. unfold s1, tinyWrite.
    destruct (live s t) as [q|] eqn:El; [|eauto]. destruct (nth_error (m_blocks s) q) as [b0|] eqn:Eb; [|eauto]. destruct (nth_error (m_bufs s) (mb_buf b0)) as [d|]; [|eauto].
    destruct (skipn _ d); [eauto|]. cbn [set_block set_wal m_blocks]. rewrite nth_error_update by (eapply nth_error_lt; exact Eb). destruct (Nat.eqb_spec p q) as [->|]; [|eauto].
    eexists. split; [reflexivity|]. split; [reflexivity|]. cbn [mb_refs]. destruct (Z.eq_dec u t) as [->|Hne].
    - intros x Hx. apply in_app_iff in Hx as [Hx|[->|[]]]; [|reflexivity]. rewrite Eb in Hb. injection Hb as <-. auto.
    - exfalso. destruct (wi_sep _ _ W u t q q b b0 Hne Hl El Hb Eb) as [Hq _]. now apply Hq. }
  assert (D1 : forall n, dget (m_wal s1) n = dget (m_wal s0) n \/ exists u p b, In u (t :: G) /\ n = FLog u /\ live s1 u = Some p /\ nth_error (m_blocks s1) p = Some b /\ In u (mb_refs b)).
  { assert (Z0 : forall n, m_wal s1 = m_wal s -> m_blocks s1 = m_blocks s -> dget (m_wal s1) n = dget (m_wal s0) n \/ exists u p b, In u (t :: G) /\ n = FLog u /\ live s1 u = Some p /\ nth_error (m_blocks s1) p = Some b /\ In u (mb_refs b)).
    { intros n E1 E2. rewrite E1, E2. destruct (H4 n) as [H|(u & p & b & Hu & En & Hl & Hb & Hr)]; [now left|]. right. exists u, p, b. rewrite Kl. split; [now right|auto]. }
    intros n. pose proof (fun u => Kl u) as Kl'. unfold s1, tinyWrite in *. clear W1 F1 L1 R1 Kl.
    destruct (live s t) as [q|] eqn:El; [|now apply Z0]. destruct (nth_error (m_blocks s) q) as [b0|] eqn:Eb; [|now apply Z0]. destruct (nth_error (m_bufs s) (mb_buf b0)) as [d|]; [|now apply Z0].
    destruct (skipn _ d) as [|x l]; [now apply Z0|]. clear Z0. cbn [set_block set_wal m_blocks m_wal] in *. pose proof (nth_error_lt _ _ _ Eb) as Lq.
    destruct (dget_write (m_wal s) (x :: l) t n Htmp) as [Hd| ->].
    - rewrite Hd. destruct (H4 n) as [H|(u & p & b & Hu & En & Hl & Hb & Hr)]; [now left|]. right. exists u, p.
      destruct (Nat.eqb_spec p q) as [->|Hpq].
      + exfalso. destruct (wi_sep _ _ W u t q q b b0 ltac:(intros ->; contradiction) Hl El Hb Eb) as [Hq _]. now apply Hq.
      + exists b. rewrite nth_error_update by exact Lq. destruct (Nat.eqb_spec p q); [contradiction|]. rewrite Kl'. split; [now right|auto].
    - right. exists t, q. eexists. split; [now left|]. split; [reflexivity|]. rewrite Kl'. split; [exact El|]. rewrite nth_error_update, Nat.eqb_refl by exact Lq. split; [reflexivity|].
      cbn [mb_refs]. apply in_or_app. right. now left. }
  (* the new block *)
  assert (Ln : live s1 now = None) by (rewrite Kl, H2 by exact HnG; apply Hn).
  unfold batch_write. fold s1. pose proof (binv_start c s1 A now pick W1 ltac:(eapply frec_same; [exact F|exact F1|auto]) Ln) as [(A2 & W2 & F2 & HA2 & Hw2) B2 B3 B4]. unfold batch_new in *.
  assert (Kb : forall p b, nth_error (m_blocks s1) p = Some b -> nth_error (m_blocks (addTimeBlock s1 now pick)) p = Some b).
  { intros p b Hb. unfold addTimeBlock. rewrite Ln. cbv zeta. match goal with |- context [let (_, _) := ?x in _] => destruct x as [[i pool] bufs] end.
    cbn [set_live set_heap m_blocks]. rewrite nth_error_app1; [exact Hb|eapply nth_error_lt; exact Hb]. }
  split.
  - exists A2. split; [exact W2|]. split; [exact F2|]. split; [|exact Hw2]. intros u k Hu. rewrite HA2 by (intros [->|[]]; apply Hu; now left). apply HA. intros Hx. apply Hu. now right.
  - intros u Hu. rewrite B2 by (intros [->|[]]; apply Hu; now left). rewrite Kl. apply H2. intros Hx. apply Hu. now right.
  - intros u [<-|Hu]; [destruct (B3 now (or_introl eq_refl)) as (p & b & Hx); exists p, b; exact Hx|].
    assert (Hne : u <> now) by (intros ->; contradiction). destruct (R1 u Hu) as (p & b & Hl & Hb & Hr). exists p, b. rewrite B2 by (intros [->|[]]; now apply Hne).
    split; [exact Hl|]. split; [now apply Kb|]. split; [exact Hr|contradiction].
  - intros n. destruct (B4 n) as [H|(u & p & b & [] & _)]. rewrite H. destruct (D1 n) as [D|(u & p & b & Hu & En & Hl & Hb & Hr)]; [now left|]. right. exists u, p, b.
    split; [exact Hu|]. split; [exact En|]. rewrite B2 by (intros [->|[]]; contradiction). auto.
Qed.

Lemma binv_run c s0 A0 l : forall G t w s h s', binv c s0 A0 G t w s -> mrun c s h s' -> map fst h = batch_ops t l -> Forall (fun x => op_ok (fst x)) h ->
  NoDup (t :: bact_times l) -> (forall u, In u (t :: bact_times l) -> free_name s0 u /\ ~ In u G) -> ends_written w l ->
  exists t', binv c s0 A0 (rev (batch_times t l) ++ G) t' true s' /\ ~ In t' (rev (batch_times t l) ++ G) /\ free_name s0 t'.
Proof.
  induction l as [|a l IH]; intros G t w s h s' B Hr Eh Ho Hd Hf He.
  - destruct h; [|discriminate]. inversion Hr; subst. cbn [ends_written batch_times rev app] in *. subst w. exists t. split; [exact B|]. destruct (Hf t (or_introl eq_refl)). auto.
  - destruct a as [k v|now pick]; cbn [batch_ops batch_times bact_times flat_map app ends_written] in *; fold (bact_times l) in *; (destruct h as [|[o out] h]; [discriminate|]); cbn [map fst] in Eh; injection Eh as -> Eh;
      inversion Hr; subst; inversion Ho; subst; cbn [fst op_ok mstep] in *.
    + destruct (batch_put c s t k v) as [s1 r] eqn:Ep. match goal with H : (_, _) = (_, _) |- _ => injection H as <- <- end.
      eapply (IH G t false s1); try eassumption. eapply binv_put; eassumption.
    + match goal with H : (_, _) = (_, _) |- _ => injection H as <- <- end. inversion Hd as [|? ? Hd1 Hd2]; subst.
      destruct (Hf t (or_introl eq_refl)) as [Ft HtG]. destruct (Hf now (or_intror (or_introl eq_refl))) as [Fn HnG].
      assert (HnG' : ~ In now (t :: G)) by (intros [->|Hx]; [apply Hd1; now left|contradiction]).
      destruct (IH (t :: G) now true _ h s' (binv_write c s0 A0 G t w s now pick B Ft Fn HtG HnG')) as (t' & B' & Ht' & Ff); try eassumption.
      * intros u Hu. destruct (Hf u (or_intror Hu)) as [Fu HuG]. split; [exact Fu|]. intros [<-|Hx]; contradiction.
      * exists t'. cbn [rev]. rewrite <- !app_assoc. cbn [app]. auto.
Qed.

(** * Abort *)
Lemma del_logs_get l : forall d n, dget (fold_left del_log l d) n = dget d n \/ (exists id, In id l /\ n = FLog id) /\ dget (fold_left del_log l d) n = None.
Proof.
  induction l as [|x r IH]; intros d n; cbn [fold_left]; [now left|]. destruct (IH (del_log d x) n) as [H|[(id & Hi & En) H]].
  - rewrite H. unfold del_log. destruct (fname_eqb_spec n (FLog x)) as [->|Hn]; [right|left; now apply dget_ddel; congruence].
    split; [exists x; split; [now left|reflexivity]|apply dget_ddel_same].
  - right. split; [exists id; split; [now right|exact En]|exact H].
Qed.
Lemma del_logs_in l : forall d id, In id l -> dget (fold_left del_log l d) (FLog id) = None.
Proof.
  induction l as [|x r IH]; intros d id; [contradiction|]. cbn [fold_left]. intros [->|H]; [|now apply IH].
  destruct (del_logs_get r (del_log d id) (FLog id)) as [E|[_ E]]; [|exact E]. rewrite E. apply dget_ddel_same.
Qed.
Lemma binv_release c s0 A0 G1 u G2 t s : binv c s0 A0 (G1 ++ u :: G2) t true s -> NoDup (G1 ++ u :: G2) -> u <> t -> free_name s0 u ->
  exists s', releaseLog s u = Some s' /\ binv c s0 (clear A0 u) (G1 ++ G2) t true s'.
Proof.
  intros [(A & W & F & HA & Hw) H2 H3 H4] Nd Hut Hf. assert (Hin : In u (t :: G1 ++ u :: G2)) by (right; apply in_or_app; right; now left).
  destruct (H3 u Hin) as (p & b & Hl & Hb & Hr & _). unfold releaseLog. rewrite Hl, Hb. eexists. split; [reflexivity|].
  destruct (releaseLog_inv s A u _ W ltac:(unfold releaseLog; rewrite Hl, Hb; reflexivity)) as (W' & F' & _).
  match goal with |- binv _ _ _ _ _ _ ?x => set (s' := x) in * end.
  assert (HuG : ~ In u (G1 ++ G2)) by now apply NoDup_remove_2 in Nd.
  assert (Kl : forall v, v <> u -> live s' v = live s v).
  { intros v Hv. unfold s', live. cbn [set_live m_live]. now rewrite afind_adel_other by (first [exact Zeqb_iff|congruence]). }
  assert (Ku : live s' u = None) by (unfold s', live; cbn [set_live m_live]; apply afind_adel_same; exact Zeqb_iff).
  assert (Hnot : forall v, v <> u -> ~ In v (t :: G1 ++ G2) -> ~ In v (t :: G1 ++ u :: G2)).
  { intros v Hv Hn [<-|Hx]; [apply Hn; now left|]. apply in_app_iff in Hx as [Hx|[->|Hx]]; [|now apply Hv|]; apply Hn; right; apply in_app_iff; auto. }
  split.
  - exists (clear A u). split; [exact W'|]. split; [eapply frec_same; [exact F|exact F'|]|].
    { intros v k Hx. unfold clear in Hx. now destruct (v =? u). }
    split.
    + intros v k Hv. unfold clear. destruct (Z.eqb_spec v u) as [->|Hne]; [reflexivity|]. apply HA. now apply Hnot.
    + intros _ k. unfold clear. destruct (t =? u); [reflexivity|]. now apply Hw.
  - intros v Hv. destruct (Z.eq_dec v u) as [->|Hne]; [rewrite Ku; symmetry; apply Hf|]. rewrite Kl by exact Hne. apply H2. now apply Hnot.
  - intros v Hv. assert (Hne : v <> u) by (intros ->; destruct Hv as [->|Hv]; [now apply Hut|contradiction]).
    destruct (H3 v) as (q & b' & Hx). { destruct Hv as [Hv|Hv]; [now left|]. right. rewrite in_app_iff in *. cbn [In]. tauto. }
    exists q, b'. rewrite Kl by exact Hne. exact Hx.
  - intros n. assert (Ew : m_wal s' = fold_left del_log (mb_refs b) (m_wal s)) by reflexivity. rewrite Ew.
    destruct (del_logs_get (mb_refs b) (m_wal s) n) as [E|[(id & Hid & En) E]].
    + rewrite E. destruct (H4 n) as [H|(v & q & b' & Hv & En & Hlv & Hbv & Hrv)]; [now left|].
      destruct (Z.eq_dec v u) as [->|Hne].
      * left. rewrite Hl in Hlv. injection Hlv as <-. rewrite Hb in Hbv. injection Hbv as <-. rewrite <- E. subst n. rewrite (del_logs_in (mb_refs b) (m_wal s) u Hrv). symmetry. apply Hf.
      * right. exists v, q, b'. rewrite Kl by exact Hne. split; [|auto]. rewrite in_app_iff in *. cbn [In] in Hv. destruct Hv as [Hv|[Hv|Hv]]; [auto|congruence|auto].
    + left. rewrite E. subst n. rewrite (Hr id Hid). symmetry. apply Hf.
Qed.
Lemma binv_abort c s0 t : forall G1 A0 s, binv c s0 A0 (rev G1) t true s -> NoDup (rev G1) -> ~ In t (rev G1) -> (forall u, In u (rev G1) -> free_name s0 u /\ forall k, A0 u k = None) ->
  exists A1, binv c s0 A1 [] t true (batch_abort s G1) /\ forall u k, A1 u k = A0 u k.
Proof.
  induction G1 as [|u G1 IH]; intros A0 s B Nd Ht Hf; cbn [batch_abort]; [exists A0; auto|]. cbn [rev] in *.
  assert (Hu : In u (rev G1 ++ [u])) by (apply in_or_app; right; now left). destruct (Hf u Hu) as [Ff Fa].
  assert (Ec : forall v k, clear A0 u v k = A0 v k) by (intros v k; unfold clear; destruct (Z.eqb_spec v u) as [->|]; [now rewrite Fa|reflexivity]).
  destruct (binv_release c s0 A0 (rev G1) u [] t s B Nd) as (s' & Er & B'); [intros ->; contradiction|exact Ff|].
  rewrite Er. rewrite app_nil_r in B'. destruct (IH (clear A0 u) s' B') as (A1 & B1 & H1).
  - apply NoDup_remove_1 in Nd. now rewrite app_nil_r in Nd.
  - intros Hx. apply Ht. apply in_or_app. now left.
  - intros v Hv. destruct (Hf v) as [Fv Av]; [apply in_or_app; now left|]. split; [exact Fv|]. intros k. rewrite Ec. apply Av.
  - exists A1. split; [exact B1|]. intros v k. now rewrite H1, Ec.
Qed.
Lemma abort_run c gens now s h s1 t pick l h2 s2 : cfg_ok c gens -> mem_open c gens [] now = Some s -> mrun c s h s1 -> Forall (fun x => op_ok (fst x)) h ->
  fresh_times s1 (t :: bact_times l) -> mrun c (batch_new s1 t pick) h2 s2 -> map fst h2 = batch_ops t l -> Forall (fun x => op_ok (fst x)) h2 -> ends_written true l ->
  let s3 := batch_abort s2 (batch_times t l) in
  (forall u k, mem_lookup s3 u k = mem_lookup s1 u k) /\ (forall n, dget (m_wal s3) n = dget (m_wal s1) n).
Proof.
  intros Hc E Hr Ho [Nd Hf] Hr2 Eh Ho2 He. cbv zeta. destruct (empty_inv _ _ _ _ Hc E) as (W & F & _). destruct (run_inv _ _ _ _ Hr _ W F Ho) as (A & _ & W1 & F1).
  assert (Hf' : forall u, In u (t :: bact_times l) -> free_name s1 u).
  { intros u Hu. destruct (Hf u Hu) as (H1 & H2 & H3). split; [|auto]. unfold mem_free, releaseLog in H1. destruct (live s1 u) as [p|] eqn:El; [|reflexivity].
    destruct (wi_blk _ _ W1 _ _ El) as (b & d & rs & [G1 _] & _). rewrite G1 in H1. discriminate. }
  pose proof (binv_start c s1 A t pick W1 F1 (proj1 (Hf' t (or_introl eq_refl)))) as B0.
  destruct (binv_run c s1 A l [] t true _ h2 s2 B0 Hr2 Eh Ho2 Nd ltac:(intros u Hu; split; [now apply Hf'|tauto]) He) as (t' & B & Ht' & Ft').
  rewrite app_nil_r in *.
  assert (Hsub : incl (batch_times t l) (t :: bact_times l)).
  { clear. revert t. induction l as [|[k v|now pick] l IH]; intros t x; cbn [batch_times bact_times flat_map app In]; [tauto|apply IH|]. intros [->|Hx]; [now left|]. right. now apply IH. }
  assert (Nb : NoDup (batch_times t l)).
  { clear - Nd. revert t Nd. induction l as [|[k v|now pick] l IH]; intros t Nd; cbn [batch_times]; [constructor|now apply IH|].
    cbn [bact_times flat_map app] in Nd. fold (bact_times l) in Nd. inversion Nd as [|? ? H1 H2]; subst. constructor; [|now apply IH]. intros Hx. apply H1.
    revert Hx. generalize now. clear. intros now. revert now. induction l as [|[k v|n2 p2] l IH]; intros now; cbn [batch_times bact_times flat_map app In]; [tauto|apply IH|].
    intros [->|Hx]; [now left|]. right. now apply IH. }
  destruct (binv_abort c s1 t' (batch_times t l) A s2 B) as (A1 & [(A2 & W2 & _ & HA & Hw) B2 B3 B4] & EA).
  - now apply NoDup_rev.
  - exact Ht'.
  - intros u Hu. apply in_rev in Hu. split; [apply Hf'; now apply Hsub|]. intros k. apply (wi_none _ _ W1). apply Hf'. now apply Hsub.
  - split.
    + intros u k. rewrite (lookup_spec _ _ W2), (lookup_spec _ _ W1). destruct (Z.eq_dec u t') as [->|Hne].
      * rewrite (Hw eq_refl). now rewrite (wi_none _ _ W1 _ k (proj1 Ft')).
      * rewrite HA by (intros [->|[]]; now apply Hne). now rewrite EA.
    + intros n. destruct (B4 n) as [H|(u & p & b & [] & _)]. exact H.
Qed.

(** * Cases *)
(** Puts after the last Write stay. *)
Definition bl : list bact := [BPut 1 vA; BWrite 25 None; BPut 2 vB].
Lemma abort_leaves : exists c gens now s h s1 t pick l h2 s2, cfg_ok c gens /\ mem_open c gens [] now = Some s /\ mrun c s h s1 /\ Forall (fun x => op_ok (fst x)) h /\
  fresh_times s1 (t :: bact_times l) /\ mrun c (batch_new s1 t pick) h2 s2 /\ map fst h2 = batch_ops t l /\ Forall (fun x => op_ok (fst x)) h2 /\
  exists u k v, mem_lookup s1 u k = GNotExist /\ mem_lookup (batch_abort s2 (batch_times t l)) u k = GOk v.
Proof.
  exists ex_cfg, [ex_gen], 10, (ex_open [] 10), [], (ex_open [] 10), 15, None, bl.
  exists (fst (exec ex_cfg (batch_new (ex_open [] 10) 15 None) (batch_ops 15 bl))), (snd (exec ex_cfg (batch_new (ex_open [] 10) 15 None) (batch_ops 15 bl))).
  split; [exact ex_cfg_ok|]. split; [vm_compute; reflexivity|]. split; [constructor|]. split; [constructor|]. split.
  { split; [cbn; repeat constructor; cbn; lia|]. cbn [bl bact_times flat_map app]. intros u [<-|[<-|[]]]; (split; [vm_compute; reflexivity|split; vm_compute; reflexivity]). }
  split; [apply exec_run|]. split; [apply exec_ops|]. split; [apply op_ok_all; repeat constructor|].
  exists 25, 2%N, vB. split; vm_compute; reflexivity.
Qed.
(** Two blocks written, then aborted. *)
Definition bw : list bact := [BPut 1 vA; BWrite 25 None; BPut 2 vB; BWrite 35 None].
Example abort_case : let s1 := snd (ex_run [OPut 7 vB; OTick 20 None; OCommit]) in
  let s2 := snd (exec ex_cfg (batch_new s1 15 None) (batch_ops 15 bw)) in
  fresh_times s1 (15 :: bact_times bw) /\ ends_written true bw /\ batch_times 15 bw = [15; 25] /\
  map fst (m_wal s1) = [FLog 10] /\ map fst (m_wal s2) = [FLog 10; FLog 15; FLog 25] /\ mem_lookup s2 25 2 = GOk vB /\
  map fst (m_wal (batch_abort s2 [15; 25])) = [FLog 10] /\ mem_lookup (batch_abort s2 [15; 25]) 25 2 = GNotExist.
Proof.
  cbv zeta. split.
  { split; [cbn; repeat constructor; cbn; lia|]. cbn [bw bact_times flat_map app]. intros u [<-|[<-|[<-|[]]]]; (split; [vm_compute; reflexivity|split; vm_compute; reflexivity]). }
  split; [reflexivity|]. split; [reflexivity|]. split; [vm_compute; reflexivity|]. split; [vm_compute; reflexivity|]. split; [vm_compute; reflexivity|]. split; vm_compute; reflexivity.
Qed.
