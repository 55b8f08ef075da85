(** Proofs for C118. *)
From Verif Require Import M_Bytes P_Bytes M_Hash M_Bloom M_File M_Wal S_Wal P_Wal M_MemDB S_MemDB S_Size S_Abort S_Durable P_MemBlock P_MemDB P_MemGet P_MemLog P_MemWal P_MemEx P_Size P_Abort.
From Coq Require Import Lia ZifyBool ZifyNat ZifyN.
Open Scope Z_scope.

(** * The block of the batch *)
Lemma view_new s A t pick : winv s A -> live s t = None -> vw (addTimeBlock s t pick) t = Some ([], 0, []).
Proof.
  intros W Hl. pose proof (wi_pool _ _ W) as Hp. unfold addTimeBlock. rewrite Hl. cbv zeta.
  assert (N : vw (set_live (set_heap s (m_blocks s ++ [mkMB 0 (length (m_bufs s)) [] [] 0]) (m_bufs s ++ [[]])) (aset Z.eqb (m_live s) t (length (m_blocks s))) (m_pool s)) t = Some ([], 0, [])).
  { unfold vw, live. cbn [set_live set_heap m_live m_blocks m_bufs]. rewrite (afind_aset_same _ Zeqb_iff).
    rewrite nth_error_app2, Nat.sub_diag by lia. cbn [nth_error mb_buf mb_refs mb_last]. rewrite nth_error_app2, Nat.sub_diag by lia. reflexivity. }
  destruct pick as [i|]; [|exact N]. destruct (existsb (Nat.eqb i) (m_pool s)) eqn:Ei; [|exact N].
  apply existsb_exists in Ei as (j & Hj & Eij). apply Nat.eqb_eq in Eij. subst j. specialize (Hp i Hj).
  unfold vw, live. cbn [set_live set_heap m_live m_blocks m_bufs]. rewrite (afind_aset_same _ Zeqb_iff).
  rewrite nth_error_app2, Nat.sub_diag by lia. cbn [nth_error mb_buf mb_refs mb_last]. rewrite nth_error_update by exact Hp. now rewrite Nat.eqb_refl.
Qed.
Lemma wal_new s t pick : m_wal (addTimeBlock s t pick) = m_wal s.
Proof.
  unfold addTimeBlock. destruct (live s t); [reflexivity|]. cbv zeta. match goal with |- context [let (_, _) := ?x in _] => destruct x as [[i pool] bufs] end. reflexivity.
Qed.
Lemma live_new s t pick u : u <> t -> live (addTimeBlock s t pick) u = live s u.
Proof.
  intros Hu. unfold addTimeBlock. destruct (live s t); [reflexivity|]. cbv zeta. match goal with |- context [let (_, _) := ?x in _] => destruct x as [[i pool] bufs] end.
  unfold live. cbn [set_live m_live]. now rewrite afind_aset_other by (first [exact Zeqb_iff|congruence]).
Qed.
Lemma view_put c s t k v refs last d : m_closed s = false -> vw s t = Some (refs, last, d) ->
  vw (fst (put_in c s t k v)) t = Some (refs, last, d ++ mrecord (false, k) v) /\ m_wal (fst (put_in c s t k v)) = m_wal s /\
  forall u, live (fst (put_in c s t k v)) u = live s u.
Proof.
  intros Hc Ev. unfold vw in Ev. unfold put_in. rewrite Hc. destruct (live s t) as [p|] eqn:El; [|discriminate].
  unfold block_put. destruct (nth_error (m_blocks s) p) as [b|] eqn:Eb; [|discriminate]. destruct (nth_error (m_bufs s) (mb_buf b)) as [d0|] eqn:Ed; [|discriminate].
  injection Ev as <- <- <-. cbn [fst]. set (s1 := set_block _ _ _). destruct (addTimeFilter_same c s1 t k) as (E1 & E2 & _ & E4 & _).
  split; [|split].
  - unfold vw, live. rewrite E1, E2, E4. unfold s1. cbn [set_block set_buf m_live m_blocks m_bufs]. fold (live s t). rewrite El.
    rewrite nth_error_update by (eapply nth_error_lt; exact Eb). rewrite Nat.eqb_refl. cbn [mb_buf mb_refs mb_last].
    rewrite nth_error_update by (eapply nth_error_lt; exact Ed). now rewrite Nat.eqb_refl.
  - unfold addTimeFilter. destruct (nth_error (m_filters s1) (c_bkey c k)); reflexivity.
  - intros u. unfold live. now rewrite E4.
Qed.
Lemma view_write s id t refs d : vw s t = Some (refs, 0, d) ->
  m_wal (tinyWrite s id t) = match d with [] => m_wal s | _ => writeLog (m_wal s) (lw_append newWriter d) id end.
Proof.
  intros Ev. unfold vw in Ev. unfold tinyWrite. destruct (live s t) as [p|]; [|discriminate]. destruct (nth_error (m_blocks s) p) as [b|]; [|discriminate].
  destruct (nth_error (m_bufs s) (mb_buf b)) as [d0|]; [|discriminate]. injection Ev as _ E ->. rewrite E. cbn [Z.to_nat skipn]. destruct d; reflexivity.
Qed.

Lemma no_log d id : dget d (FLog id) = None -> ~ In id (all_ids d).
Proof.
  induction d as [|[m x] d IH]; cbn [dget all_ids flat_map fst]; [intros _ []|]. fold (all_ids d). destruct (fname_eqb_spec (FLog id) m) as [<-|Hn]; [discriminate|].
  intros H Hin. apply in_app_or in Hin as [Hin|Hin]; [|exact (IH H Hin)]. destruct m; cbn in Hin; try contradiction. destruct Hin as [->|[]]. congruence.
Qed.
Lemma replay_write d id r : log_ok id [r] -> dget d (FLog id) = None ->
  replay (writeLog d (lw_append newWriter r) id) = replay d ++ [(id, ([r], EndOk))] /\
  forall n, n <> FLog id -> n <> FTmp id -> dget (writeLog d (lw_append newWriter r) id) n = dget d n.
Proof.
  intros Hok Hd. change (writeLog d (lw_append newWriter r) id) with (write_records d id [r]). rewrite write_records_dir by exact Hok.
  assert (Hd' : dget (ddel d (FTmp id)) (FLog id) = None) by (now rewrite dget_ddel by discriminate).
  rewrite ddel_none by exact Hd'. split.
  - rewrite replay_app by (first [exact Hok|now apply no_log]). f_equal. rewrite <- (replay_filter (ddel d (FTmp id))), filter_ddel_tmp. apply replay_filter.
  - intros n H1 H2. rewrite dget_app, dget_ddel by congruence. destruct (dget d n); [reflexivity|]. cbn [dget]. destruct (fname_eqb_spec n (FLog id)); [contradiction|reflexivity].
Qed.

(** * The batch *)
Record dinv (c : mcfg) (R : list (Z * (list bytes * endstate))) (t : Z) (pend : list (ikey * bytes)) (left : list Z) (s : mdb) : Prop := {
  di_inv : exists A, winv s A /\ frec c s A;
  di_view : vw s t = Some ([], 0, encs pend);
  di_logs : replay (m_wal s) = R;
  di_free : forall u, In u left -> live s u = None;
  di_name : forall u, In u (t :: left) -> dget (m_wal s) (FLog u) = None
}.

Lemma durable_run c l : forall R t pend s h s', dinv c R t pend (bact_times l) s -> NoDup (t :: bact_times l) ->
  mrun c s h s' -> map fst h = batch_ops t l -> Forall (fun x => op_ok (fst x)) h ->
  Forall (fun x => log_ok (fst x) [log_bytes (snd x)]) (batch_logs t pend l) ->
  replay (m_wal s') = R ++ map whole (batch_logs t pend l).
Proof.
  induction l as [|[k v|now pick] l IH]; intros R t pend s h s' D Nd Hr Eh Ho Hl;
    cbn [batch_ops batch_logs bact_times flat_map app] in *; [|fold (bact_times l) in *..].
  - destruct h; [|discriminate]. inversion Hr; subst. cbn [map]. rewrite app_nil_r. apply D.
  - destruct h as [|[o out] h]; [discriminate|]. cbn [map fst] in Eh. injection Eh as -> Eh. inversion Hr as [|? ? s1 ? ? ? Es Hr1]; subst.
    inversion Ho as [|? ? Hk Ho1]; subst. cbn [fst op_ok mstep] in *. destruct (batch_put c s t k v) as [s2 r] eqn:Ep. injection Es as <- <-. unfold batch_put in Ep.
    apply (IH R t (pend ++ [((false, k), v)]) s2 h s'); try assumption. destruct D as [(A & W & F) V R1 L N].
    destruct (view_put c s t k v _ _ _ (wi_open _ _ W) V) as (V1 & W1 & L1). rewrite Ep in V1, W1, L1. cbn [fst] in V1, W1, L1. split.
    + destruct (put_in_inv _ _ _ _ _ _ _ _ W F Hk Ep) as (_ & [(_ & W' & F' & _)|(_ & -> & _)]); eauto.
    + rewrite V1, encs_app, encs_one. reflexivity.
    + now rewrite W1.
    + intros u Hu. rewrite L1. auto.
    + intros u Hu. rewrite W1. auto.
  - destruct h as [|[o out] h]; [discriminate|]. cbn [map fst] in Eh. injection Eh as -> Eh. inversion Hr as [|? ? s1 ? ? ? Es Hr1]; subst.
    inversion Ho as [|? ? Hk Ho1]; subst. cbn [fst op_ok mstep] in *. injection Es as <- <-. inversion Nd as [|? ? Nt Nd1]; subst.
    apply Forall_app in Hl as [Hl1 Hl2]. rewrite map_app, app_assoc. destruct D as [(A & W & F) V R1 L N].
    destruct (tinyWrite_inv s A t t W) as (W1 & F1 & _ & L1). pose proof (view_write s t t _ _ V) as E1.
    assert (E : replay (m_wal (tinyWrite s t t)) = R ++ map whole (match pend with [] => [] | _ => [(t, pend)] end) /\
      forall u, u <> t -> dget (m_wal (tinyWrite s t t)) (FLog u) = dget (m_wal s) (FLog u)).
    { destruct (encs pend) as [|x r] eqn:Ee.
      - rewrite (encs_nil pend Ee), E1. cbn [map]. rewrite app_nil_r. auto.
      - destruct pend as [|p0 pend0]; [discriminate|]. inversion Hl1 as [|? ? Hok _]; subst. cbn [fst snd] in Hok.
        change (log_bytes (p0 :: pend0)) with (encs (p0 :: pend0)) in Hok. rewrite Ee in Hok.
        destruct (replay_write (m_wal s) t (x :: r) Hok (N t (or_introl eq_refl))) as [G1 G2]. rewrite E1, G1. split.
        + cbn [map whole fst snd]. unfold whole. cbn [fst snd]. change (log_bytes (p0 :: pend0)) with (encs (p0 :: pend0)). now rewrite Ee.
        + intros u Hu. apply G2; congruence. }
    destruct E as [E2 E3]. apply (IH _ now [] (batch_write s t now pick) h s'); try assumption. unfold batch_write.
    assert (Ln : live (tinyWrite s t t) now = None) by (unfold live; rewrite L1; apply L; now left).
    inversion Nd1 as [|? ? Nn _]; subst. split.
    + destruct (addTimeBlock_inv (tinyWrite s t t) A now pick W1) as (W2 & F2 & _). exists A. split; [exact W2|]. eapply frec_same; [exact F|now rewrite F2, F1|auto].
    + apply (view_new _ A); assumption.
    + now rewrite wal_new.
    + intros u Hu. rewrite live_new by (intros ->; contradiction). unfold live. rewrite L1. apply L. now right.
    + intros u Hu. rewrite wal_new, E3 by (intros ->; apply Nt; exact Hu). apply N. now right.
Qed.

Lemma durable c gens now s h s1 t pick l h2 s2 : cfg_ok c gens -> mem_open c gens [] now = Some s -> mrun c s h s1 -> Forall (fun x => op_ok (fst x)) h ->
  fresh_times s1 (t :: bact_times l) -> mrun c (batch_new s1 t pick) h2 s2 -> map fst h2 = batch_ops t l -> Forall (fun x => op_ok (fst x)) h2 ->
  Forall (fun x => log_ok (fst x) [log_bytes (snd x)]) (batch_logs t [] l) ->
  replay (m_wal s2) = replay (m_wal s1) ++ map whole (batch_logs t [] l).
Proof.
  intros Hc E Hr Ho [Nd Hf] Hr2 Eh Ho2 Hl. destruct (empty_inv _ _ _ _ Hc E) as (W & F & _). destruct (run_inv _ _ _ _ Hr _ W F Ho) as (A & _ & W1 & F1).
  assert (Hf' : forall u, In u (t :: bact_times l) -> live s1 u = None).
  { intros u Hu. destruct (Hf u Hu) as (H1 & _). unfold mem_free, releaseLog in H1. destruct (live s1 u) as [p|] eqn:El; [|reflexivity].
    destruct (wi_blk _ _ W1 _ _ El) as (b & d & rs & [G1 _] & _). rewrite G1 in H1. discriminate. }
  eapply durable_run; [|exact Nd|exact Hr2|exact Eh|exact Ho2|exact Hl]. inversion Nd as [|? ? Nt _]; subst. unfold batch_new. split.
  - destruct (addTimeBlock_inv s1 A t pick W1) as (W2 & F2 & _). exists A. split; [exact W2|]. eapply frec_same; [exact F1|exact F2|auto].
  - apply (view_new _ A); [exact W1|]. apply Hf'. now left.
  - now rewrite wal_new.
  - intros u Hu. rewrite live_new by (intros ->; contradiction). apply Hf'. now right.
  - intros u Hu. rewrite wal_new. now apply Hf.
Qed.

(** Opened after a crash. *)
Lemma crash c gens now s h s1 t pick l h2 s2 gens2 now2 l0 : cfg_ok c gens -> mem_open c gens [] now = Some s -> mrun c s h s1 -> Forall (fun x => op_ok (fst x)) h ->
  fresh_times s1 (t :: bact_times l) -> mrun c (batch_new s1 t pick) h2 s2 -> map fst h2 = batch_ops t l -> Forall (fun x => op_ok (fst x)) h2 ->
  Forall (fun x => log_ok (fst x) [log_bytes (snd x)]) (batch_logs t [] l) ->
  cfg_ok c gens2 -> replay (m_wal s1) = map whole l0 -> logs_ok c (l0 ++ batch_logs t [] l) ->
  (forall a, In a (l0 ++ batch_logs t [] l) -> trunc (fst a) (c_logint c) <= trunc now2 (c_dur c)) ->
  exists s', mem_open c gens2 (m_wal s2) now2 = Some s' /\
    forall k, (k < 2 ^ 64)%N -> snd (mem_get c s' k) = match final k (flat (l0 ++ batch_logs t [] l)) None with Some (_, v) => GOk v | None => GNotExist end.
Proof.
  intros Hc E Hr Ho Hf Hr2 Eh Ho2 Hl Hc2 E0 Lo Ht. pose proof (durable _ _ _ _ _ _ _ _ _ _ _ Hc E Hr Ho Hf Hr2 Eh Ho2 Hl) as ER.
  rewrite E0, <- map_app in ER. destruct (recover_inv c gens2 (m_wal s2) _ now2 Hc2 Lo ER Ht) as (s' & Es & G). exists s'. split; [exact Es|].
  intros k Hk. destruct (mem_get c s' k) as [s'' g] eqn:Eg. cbn [snd].
  assert (Hrun : mrun c s' [(OGet k, OVal g)] s'') by (econstructor; [cbn [mstep]; now rewrite Eg|constructor]).
  destruct (grun c s' _ s'' Hrun _ G) as (g' & Ha & _).
  { intros h1 o out h3 g1 Eh1 _. destruct h1 as [|x h1]; [injection Eh1 as <- <- _; split; [exact I|exact Hk]|]. destruct h1; discriminate. }
  inversion Ha as [|? ? ? g1 ? ? H1 H2]; subst. inversion H1; subst; cbn [recovered g_slot] in *;
    destruct (final k (flat (l0 ++ batch_logs t [] l)) None) as [[id w]|]; try discriminate; congruence.
Qed.

(** * The blocks are handed to Sync *)
Lemma rel_add s t pick : m_released (addTimeBlock s t pick) = m_released s.
Proof.
  unfold addTimeBlock. destruct (live s t); [reflexivity|]. cbv zeta. match goal with |- context [let (_, _) := ?x in _] => destruct x as [[i pool] bufs] end. reflexivity.
Qed.
Lemma rel_tiny s id t : m_released (tinyWrite s id t) = m_released s.
Proof.
  unfold tinyWrite. destruct (live s t); [|reflexivity]. destruct (nth_error (m_blocks s) n); [|reflexivity]. destruct (nth_error (m_bufs s) (mb_buf m)); [|reflexivity].
  destruct (skipn _ b); reflexivity.
Qed.
Lemma rel_release s t u : In u (m_released s) -> In u (m_released (mark_release s t)).
Proof.
  intros H. unfold mark_release. destruct (afind Z.eqb (m_marks s) t); [|exact H]. destruct (0 <? z - 1); [exact H|]. cbn [set_marks m_released].
  destruct (Z.eq_dec t u) as [->|Hn]; [now left|]. right. apply filter_In. split; [exact H|]. lia.
Qed.
Lemma rel_put c s t k v : m_released (fst (put_in c s t k v)) = m_released s.
Proof.
  unfold put_in. destruct (m_closed s); [reflexivity|]. destruct (live s t) as [p|]; [|reflexivity]. unfold block_put.
  destruct (nth_error (m_blocks s) p) as [b|]; [|reflexivity]. destruct (nth_error (m_bufs s) (mb_buf b)); [|reflexivity]. cbn [fst].
  unfold addTimeFilter. match goal with |- context [nth_error ?a ?b] => destruct (nth_error a b) end; reflexivity.
Qed.
Lemma rel_get c k n : forall s, m_released (fst (mem_get_n n c s k)) = m_released s.
Proof.
  induction n as [|n IH]; intros s; cbn [mem_get_n]; [reflexivity|]. destruct (m_closed s); [reflexivity|].
  destruct (match qrecs c s k with [] => seek c s k | _ :: _ => Some s end) as [s1|] eqn:Ep; [|reflexivity].
  assert (E1 : m_released s1 = m_released s).
  { destruct (qrecs c s k); [|congruence]. unfold seek in Ep. destruct (newest c s k) as [[t p]|]; [|discriminate]. destruct (nth_error (m_filters s) (c_bkey c k)); [|discriminate]. now injection Ep as <-. }
  destruct (get_cached c s1 k) as [[s2 g]|] eqn:Eg.
  - cbn [fst]. rewrite <- E1. unfold get_cached in Eg.
    destruct (afind Z.eqb (m_qblocks s1) (m_qrec s1)) as [p|]; [destruct (rec_off s1 p (false, k)); [congruence|]|];
      destruct (query_scan s1 k _ _) as [[t q]|]; try discriminate; injection Eg as <- <-; reflexivity.
  - rewrite IH. cbn [set_query m_released]. exact E1.
Qed.
Lemma rel_step c u s o s' out : mstep c s o = (s', out) -> spares u o -> In u (m_released s) -> In u (m_released s').
Proof.
  intros E Hs H. destruct o; cbn [mstep spares] in *; try contradiction.
  - pose proof (rel_put c s (m_cur s) key data) as K. unfold mem_put in E. destruct (put_in c s (m_cur s) key data). injection E as <- _. cbn [fst] in K. now rewrite K.
  - pose proof (rel_get c key 2 s) as K. unfold mem_get in E. destruct (mem_get_n 2 c s key). injection E as <- _. cbn [fst] in K. now rewrite K.
  - unfold mem_free, releaseLog in E. destruct (live s t) as [p|]; [|now injection E as <- _]. destruct (nth_error (m_blocks s) p); [|now injection E as <- _].
    injection E as <- _. cbn [set_live set_buf mark_unref set_marks set_wal m_released]. apply filter_In. split; [exact H|]. lia.
  - injection E as <- _. unfold mem_tick, newTinyLog, mark_add. cbn [set_log set_marks m_released]. rewrite rel_add. exact H.
  - injection E as <- _. unfold mem_commit. destruct (m_queue s) as [|[id t] q]; [exact H|]. apply rel_release. now rewrite rel_tiny.
  - injection E as <- _. unfold mem_drop. destruct (m_queue s) as [|[id t] q]; exact H.
  - injection E as <- _. unfold batch_new. now rewrite rel_add.
  - unfold batch_put in E. pose proof (rel_put c s t key data) as K. destruct (put_in c s t key data). injection E as <- _. cbn [fst] in K. now rewrite K.
  - injection E as <- _. unfold batch_write. now rewrite rel_add, rel_tiny.
  - injection E as <- _. unfold batch_commit. revert s H. induction group as [|t g IH]; intros s H; cbn [fold_left]; [exact H|]. apply IH. now apply rel_release.
Qed.
Lemma rel_commit g u : forall s, In u g -> In u (m_released (batch_commit s g)).
Proof.
  unfold batch_commit.
  assert (K : forall g s, In u (m_released s) -> In u (m_released (fold_left (fun s t => mark_release (mark_add s t) t) g s))).
  { clear g. induction g as [|t g IH]; intros s H; cbn [fold_left]; [exact H|]. apply IH. now apply rel_release. }
  induction g as [|t g IH]; intros s Hu; [contradiction|]. cbn [fold_left]. destruct (Z.eq_dec t u) as [->|Hn].
  - apply K. unfold mark_release, mark_add. cbn [set_marks m_marks m_released]. rewrite (afind_aset_same _ Zeqb_iff). now left.
  - apply IH. destruct Hu as [->|Hu]; [contradiction|exact Hu].
Qed.
Lemma to_sync c s g h s' u : mrun c (batch_commit s g) h s' -> In u g -> Forall (fun x => spares u (fst x)) h -> 0 < u < m_cur s' -> In u (timeRefs s').
Proof.
  intros Hr Hu Ho Hc. unfold timeRefs. apply sort_asc_in. apply filter_In. split; [|lia]. clear Hc. pose proof (rel_commit g u s Hu) as H. clear Hu. revert H Ho.
  induction Hr as [s0|s0 o s1 out h s2 E Hr IH]; intros H Ho; [exact H|]. inversion Ho; subst. apply IH; [|assumption]. eapply rel_step; eassumption.
Qed.
