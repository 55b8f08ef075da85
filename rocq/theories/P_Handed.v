(** Proofs about what a committed batch hands to Sync. *)
From Verif Require Import M_Bytes P_Bytes M_Entry M_Bloom M_Trie M_MemDB M_Window M_DB P_MemBlock P_MemWal.
From Coq Require Import Lia ZifyBool ZifyNat ZifyN.
Open Scope Z_scope.

Lemma put_in_live c m t k v m' r : put_in c m t k v = (m', r) -> m_live m' = m_live m.
Proof.
  unfold put_in. destruct (m_closed m); [intros [= <- _]; auto|]. destruct (live m t) as [p|]; [|intros [= <- _]; auto].
  destruct (block_put m p (false, k) v) as [m2|] eqn:Ep; [|intros [= <- _]; auto]. intros [= <- _]. unfold block_put in Ep.
  destruct (nth_error (m_blocks m) p) as [b|]; [|discriminate]. destruct (nth_error (m_bufs m) (mb_buf b)); [|discriminate].
  injection Ep as <-. unfold addTimeFilter. cbn [m_filters set_block set_buf].
  destruct (nth_error (m_filters m) (c_bkey c k)); cbn; auto.
Qed.
Lemma write_live m id t : m_live (tinyWrite m id t) = m_live m.
Proof.
  unfold tinyWrite. destruct (live m t); [|auto]. destruct (nth_error (m_blocks m) n) as [b|]; [|auto].
  destruct (nth_error (m_bufs m) (mb_buf b)) as [d|]; [|auto]. destruct (skipn _ d); auto.
Qed.
Lemma add_live m t pick : (forall u, live (addTimeBlock m t pick) u <> None -> live m u <> None \/ u = t) /\
  (live m t = None -> block_keys (addTimeBlock m t pick) t = []).
Proof.
  unfold addTimeBlock. destruct (live m t) as [p|] eqn:E; [split; [auto|discriminate]|].
  destruct (match pick with Some _ => _ | None => _ end) as [[i pool] bufs]. split.
  - intros u. unfold live. cbn [set_live set_heap m_live]. destruct (Z.eq_dec t u) as [<-|Hn]; [now right|].
    rewrite (afind_aset_other _ Zeqb_iff) by exact Hn. auto.
  - intros _. unfold block_keys, live. cbn [set_live set_heap m_live m_blocks]. rewrite (afind_aset_same _ Zeqb_iff).
    rewrite nth_error_app2 by lia. now rewrite Nat.sub_diag.
Qed.

Lemma entries_live c t : forall l s s', Forall (fun x => fst x = false) l -> batch_entries c s t l = Some s' -> m_live (d_mem s') = m_live (d_mem s).
Proof.
  induction l as [|[del cache] r IH]; intros s s' Hl; cbn [batch_entries]; [congruence|]. inversion Hl as [|? ? Hd Hr]; subst. cbn [fst] in Hd. subst del. cbn [andb].
  destruct (entry_unmarshal cache) as [x|]; [|discriminate]. destruct (add_topic _ _ _ _) as [tr|]; [|discriminate]. cbv zeta.
  destruct (batch_put (c_mem c) (d_mem (set_trie s tr)) t (e_seq x) cache) as [m []] eqn:Ep; unfold batch_put in Ep; apply put_in_live in Ep; cbn [set_trie d_mem] in Ep;
    try discriminate; try (intros [= <-]; exact Ep).
  intros E. apply IH in E; [|exact Hr]. cbn [set_tw set_mem d_mem] in E. congruence.
Qed.

Lemma set_entry_mem c s now e s' e' x cache : set_entry c s now e = SOk s' e' x cache -> d_mem s' = d_mem s.
Proof.
  intros Es. unfold set_entry in Es. cbv zeta in Es.
  repeat (match type of Es with context [match ?x with _ => _ end] => destruct x eqn:? end; try discriminate); injection Es; clear Es; intros; subst;
    repeat match goal with
           | H : Some _ = Some _ |- _ => injection H; clear H; intros; subst
           | H : match ?x with _ => _ end = Some _ |- _ => destruct x; try discriminate
           end; reflexivity.
Qed.

Definition puts_only (o : bop) : Prop := match o with BDelete _ _ => False | _ => True end.
Record handing (s0 s : db) (b : batch) : Prop := {
  ha_puts : Forall (fun x => fst x = false) (b_index b);
  ha_live : forall t, live (d_mem s) t <> None -> live (d_mem s0) t <> None \/ In t (b_group b ++ [b_time b])
}.

Lemma write_handing c s0 s b now pick s' b' : handing s0 s b -> batch_write_db c s b now pick = Some (s', b') -> handing s0 s' b'.
Proof.
  intros [H1 H2]. unfold batch_write_db. destruct (b_index b) as [|e l] eqn:El; [intros [= <- <-]; split; [now rewrite El|exact H2]|].
  destruct (if d_closed s then Some s else batch_entries c s (b_time b) (e :: l)) as [s1|] eqn:Ee; [|discriminate]. intros [= <- <-].
  assert (E1 : m_live (d_mem s1) = m_live (d_mem s)).
  { destruct (d_closed s); [now injection Ee as <-|]. eapply entries_live; eassumption. }
  split; cbn [b_index b_group b_time set_mem d_mem]; [constructor|]. intros t Ht. unfold batch_write in Ht. apply add_live in Ht. rewrite in_app_iff. destruct Ht as [Ht| ->]; [|right; right; now left].
  unfold live in Ht. rewrite write_live, E1 in Ht. destruct (H2 t Ht); [now left|right; now left].
Qed.

Lemma steps_handing c s0 : forall ops s b s' b', handing s0 s b -> Forall puts_only ops -> batch_steps c s b ops = Some (s', b') -> handing s0 s' b'.
Proof.
  induction ops as [|o r IH]; intros s b s' b' Hh Ho; cbn [batch_steps]; [intros [= <- <-]; exact Hh|]. inversion Ho as [|? ? Ho1 Hr]; subst.
  destruct (batch_step c s b o) as [[s1 b1]|] eqn:Es; [|discriminate]. apply IH; [|exact Hr]. destruct o as [now e|now e|now pick]; cbn [batch_step puts_only] in *; [|contradiction|].
  - unfold batch_put_entry in Es. destruct (check_put e); [now injection Es as <- <-|]. cbv zeta in Es.
    destruct (set_entry c s now _) as [s2 e2 x cache|e2 r2|] eqn:E2; [|now injection Es as <- <-|discriminate]. injection Es as <- <-.
    apply set_entry_mem in E2. destruct Hh as [H1 H2]. split; unfold b_add; cbn [b_index b_group b_time]; [apply Forall_app; auto|]. rewrite E2. exact H2.
  - eapply write_handing; eassumption.
Qed.

Lemma release_in m t : In t (m_released (mark_release (mark_add m t) t)) /\ (forall u, In u (m_released m) -> In u (m_released (mark_release (mark_add m t) t))) /\
  m_live (mark_release (mark_add m t) t) = m_live m /\ m_blocks (mark_release (mark_add m t) t) = m_blocks m.
Proof.
  unfold mark_release. cbn [mark_add set_marks m_marks]. rewrite (afind_aset_same _ Zeqb_iff). change (0 <? 1 - 1) with false. cbv iota. cbn [set_marks mark_add m_released m_live m_blocks].
  split; [now left|]. split; [|auto]. intros u Hu. destruct (Z.eq_dec t u) as [<-|Hn]; [now left|]. right. apply filter_In. split; [exact Hu|]. lia.
Qed.
Lemma commit_in : forall ts m, m_live (batch_commit m ts) = m_live m /\ m_blocks (batch_commit m ts) = m_blocks m /\
  (forall u, In u (m_released m) \/ In u ts -> In u (m_released (batch_commit m ts))).
Proof.
  unfold batch_commit. induction ts as [|t r IH]; intros m; cbn [fold_left]; [split; [auto|]; split; [auto|]; now intros u [H|[]]|].
  destruct (release_in m t) as (R1 & R2 & R3 & R4). destruct (IH (mark_release (mark_add m t) t)) as (I1 & I2 & I3).
  split; [congruence|]. split; [congruence|]. intros u [H|[<-|H]]; apply I3; auto.
Qed.

Lemma batch_handed c s now pick ops now1 now2 p1 p2 s' : Forall puts_only ops -> db_batch_run c s now pick ops false now1 now2 p1 p2 = Some s' ->
  forall t, live (d_mem s') t <> None -> live (d_mem s) t <> None \/ In t (m_released (d_mem s')) \/ block_keys (d_mem s') t = [].
Proof.
  intros Ho. unfold db_batch_run, db_batch. cbv zeta.
  destruct (batch_steps c _ _ ops) as [[s1 b1]|] eqn:Es; [|discriminate]. apply (steps_handing c s) in Es; [|split; cbn [b_index b_group b_time app]|exact Ho].
  2:{ constructor. }
  2:{ intros t Ht. cbn [set_mem d_mem] in Ht. unfold batch_new in Ht. apply add_live in Ht. destruct Ht as [Ht| ->]; [now left|right; now left]. }
  unfold batch_commit_db. destruct (batch_write_db c s1 b1 now1 p1) as [[s2 b2]|] eqn:Ew; [|discriminate]. apply (write_handing c s) in Ew; [|exact Es]. intros [= <-].
  intros t Ht. cbn [set_mem d_mem] in *. destruct (commit_in (b_group b2 ++ [b_time b2]) (batch_write (d_mem s2) (b_time b2) now2 p2)) as (C1 & C2 & C3).
  unfold live in Ht. rewrite C1 in Ht. fold (live (batch_write (d_mem s2) (b_time b2) now2 p2) t) in Ht. unfold batch_write in Ht.
  destruct (live (tinyWrite (d_mem s2) (b_time b2) (b_time b2)) t) as [p|] eqn:El.
  - assert (Hl : live (d_mem s2) t <> None) by (unfold live in El; rewrite write_live in El; unfold live; congruence).
    destruct (ha_live _ _ _ Ew t Hl) as [H|H]; [now left|]. right. left. apply C3. now right.
  - apply add_live in Ht as [Ht| ->]; [congruence|]. right. right. unfold block_keys, live. rewrite C1, C2.
    exact (proj2 (add_live (tinyWrite (d_mem s2) (b_time b2) (b_time b2)) now2 p2) El).
Qed.
