(** The window file: blocks, chains, writing. *)
From Verif Require Import M_Bytes P_Bytes M_Hash P_Hash P_Bloom P_Mac M_File P_File P_Index M_BlockRange S_BlockRange P_BlockRange
  M_MemDB P_MemBlock M_Query M_BlockStore P_BlockStore M_WinBlock M_Window S_Window.
From Coq Require Import Lia ZifyBool ZifyNat ZifyN Permutation Sorted.
Open Scope Z_scope.

Lemma zeqb_ok : forall a b : Z, reflect (a = b) (a =? b).
Proof. intros; apply Z.eqb_spec. Qed.

Lemma winBlockOffset_small k : 0 <= k < 524288 -> winBlockOffset k = 4096 * k.
Proof. intros H. unfold winBlockOffset. apply i32_small. change (2 ^ 31) with 2147483648. lia. Qed.

Lemma wb_zero_bytes : wblock_marshal wb_zero = repeat 0%N blockBytes.
Proof. vm_compute. reflexivity. Qed.
Lemma wb_zero_ok : wblock_ok wb_zero.
Proof.
  repeat split; cbn [wb_zero wb_topicHash wb_entries wb_next wb_cutoffTime wb_entryIdx]; try lia.
  apply Forall_repeat. split; reflexivity.
Qed.

(** Files of whole blocks. *)
Definition fwf (f : bytes) (n : nat) : Prop :=
  length f = (blockBytes * n)%nat /\
  forall k, 0 <= k < Z.of_nat n -> exists b, wblock_ok b /\ bread f k = wblock_marshal b.

Lemma read_in f n k b : length f = (blockBytes * n)%nat -> 0 <= k < Z.of_nat n -> wblock_ok b ->
  bread f k = wblock_marshal b -> readWindowBlock f (4096 * k) = Some b.
Proof.
  intros Hl Hk Hb E. unfold readWindowBlock. rewrite read_at_zread; [|lia|].
  - fold (bread f k). rewrite E. pose proof (wblock_roundtrip b [] Hb) as R. now rewrite app_nil_r in R.
  - unfold blockBytes in *. lia.
Qed.
Lemma read_out f n k : length f = (blockBytes * n)%nat -> Z.of_nat n <= k -> readWindowBlock f (4096 * k) = None.
Proof.
  intros Hl Hk. unfold readWindowBlock. rewrite read_at_none; [reflexivity|lia|unfold blockBytes in *; lia].
Qed.

(** ** Writing blocks *)
Definition setb (w : winwriter) (f : bytes) (m : list (Z * wslot)) : winwriter :=
  mkWW f (ww_idx w) m (ww_leases w) (ww_offset w).
Definition clean (s : wslot) : wslot := mkWS (ws_blk s) false (ws_leased s).
Definition slots_ok (m : list (Z * wslot)) : Prop := forall k s, afind Z.eqb m k = Some s -> wblock_ok (ws_blk s).

Lemma afset (m : list (Z * wslot)) k s j : afind Z.eqb (aset Z.eqb m k s) j = if j =? k then Some s else afind Z.eqb m j.
Proof.
  destruct (Z.eqb_spec j k) as [->|H].
  - apply (afind_aset_same _ Zeqb_iff).
  - apply (afind_aset_other _ Zeqb_iff). congruence.
Qed.
Lemma slot_ok m w k : slots_ok m -> ww_blocks w = m -> wblock_ok (ws_blk (ww_block w k)).
Proof.
  intros H E. unfold ww_block. rewrite E. destruct (afind Z.eqb m k) eqn:F; [eapply H, F|exact wb_zero_ok].
Qed.
Lemma slots_ok_set m k s : slots_ok m -> wblock_ok (ws_blk s) -> slots_ok (aset Z.eqb m k s).
Proof.
  intros H Hs j t. rewrite afset. destruct (j =? k); [intros E; apply Some_inj in E; now subst|apply H].
Qed.
Lemma aset_nodup (m : list (Z * wslot)) k s : NoDup (map fst m) -> NoDup (map fst (aset Z.eqb m k s)).
Proof.
  intros H. unfold aset. cbn [map fst]. constructor.
  - intros Hin. apply (adel_keys _ Zeqb_iff) in Hin. now destruct Hin.
  - unfold adel. induction m as [|[a b] m IH]; [constructor|]. cbn [filter fst map] in *.
    inversion H as [|? ? Hni Hnd]; subst. destruct (negb (a =? k)); [|now apply IH].
    cbn [map fst]. constructor; [|now apply IH]. intros Hin. apply Hni.
    apply in_map_iff in Hin as ([x y] & Ex & Hx). apply filter_In in Hx as [Hx _]. cbn [fst] in Ex. subst x.
    apply in_map_iff. exists (a, y). auto.
Qed.
Lemma marshal_len b : wblock_ok b -> length (wblock_marshal b) = blockBytes.
Proof. intros (_ & _ & H & _). now apply wblock_marshal_length. Qed.

Lemma gather_seqw : forall n k w, 0 <= k -> k + Z.of_nat n <= 524288 -> slots_ok (ww_blocks w) ->
  forall d w', ww_gather n k w = (d, w') ->
  length d = (blockBytes * n)%nat /\ ww_file w' = ww_file w /\
  exists f, write_at (ww_file w) (4096 * k) d = Some f /\
    ww_fold ww_put1 (zseq k n) w = Some (mkWW f (ww_idx w') (ww_blocks w') (ww_leases w') (ww_offset w')).
Proof.
  induction n as [|n IH]; intros k w Hk Hn Hl d w'; cbn [ww_gather zseq ww_fold].
  - intros [= <- <-]. split; [reflexivity|]. split; [reflexivity|]. exists (ww_file w). unfold write_at.
    replace (4096 * k <? 0) with false by lia. split; [reflexivity|]. now destruct w.
  - unfold ww_put1 at 1. set (b := ww_block w k). rewrite winBlockOffset_small by lia.
    assert (Hb : wblock_ok (ws_blk b)) by (eapply slot_ok; [exact Hl|reflexivity]).
    pose proof (marshal_len _ Hb) as Lb.
    assert (Hne : wblock_marshal (ws_blk b) <> []) by (intros E; rewrite E in Lb; discriminate).
    destruct (write_at_spec (ww_file w) (4096 * k) (wblock_marshal (ws_blk b)) ltac:(lia) Hne) as (f1 & E1 & _ & _).
    rewrite E1.
    set (m1 := aset Z.eqb (ww_blocks w) k _).
    assert (Hl1 : slots_ok m1) by (apply slots_ok_set; [exact Hl|exact Hb]).
    destruct (ww_gather n (k + 1) (setb w (ww_file w) m1)) as [d0 w0] eqn:G0.
    unfold setb in G0. rewrite G0. intros [= <- <-].
    assert (G1 : ww_gather n (k + 1) (setb w f1 m1) =
                 (d0, mkWW f1 (ww_idx w0) (ww_blocks w0) (ww_leases w0) (ww_offset w0)) /\ ww_file w0 = ww_file w).
    { clear - G0. revert G0. generalize m1. clear m1. generalize (k + 1). revert d0. induction n as [|n IHn]; intros d0 z m; cbn [ww_gather].
      - intros [= <- <-]. split; reflexivity.
      - unfold setb. cbn [ww_file ww_idx ww_blocks ww_leases ww_offset].
        change (ww_block (mkWW (ww_file w) (ww_idx w) m (ww_leases w) (ww_offset w)) z)
          with (ww_block (mkWW f1 (ww_idx w) m (ww_leases w) (ww_offset w)) z).
        set (s := ww_block _ z).
        destruct (ww_gather n (z + 1) (mkWW (ww_file w) _ _ _ _)) as [d1 w1] eqn:Gx. intros [= <- <-].
        destruct (IHn _ _ _ Gx) as [E F]. unfold setb in E. rewrite E. split; [reflexivity|exact F]. }
    destruct G1 as [G1 F1]. 
    destruct (IH (k + 1) (setb w f1 m1) ltac:(lia) ltac:(lia) Hl1 _ _ G1) as (Ld & _ & f & E2 & F2).
    cbn [ww_idx ww_blocks ww_leases ww_offset setb ww_file] in E2, F2.
    split; [rewrite app_length, Lb; lia|]. split; [exact F1|].
    exists f. unfold setb in F2. rewrite F2. split; [|reflexivity].
    destruct n as [|n'].
    + assert (d0 = []) by (destruct d0; [reflexivity|cbn in Ld; lia]). subst d0.
      rewrite app_nil_r, E1. rewrite <- E2. unfold write_at.
      replace (4096 * (k + 1) <? 0) with false by lia. reflexivity.
    + assert (d0 <> []) by (intros E; subst d0; cbn [length] in Ld; unfold blockBytes in Ld; lia).
      rewrite (write_at_app _ _ _ _ f1); [|lia|exact Hne|assumption|exact E1].
      rewrite Lb. rewrite <- E2. f_equal. unfold blockBytes. lia.
Qed.

Lemma ww_put_seq part w : good_part part -> slots_ok (ww_blocks w) ->
  Forall (fun k => 0 <= k < 524288) (expand part) ->
  ww_put w part = ww_fold ww_put1 (expand part) w.
Proof.
  intros Hg Hl Hr. destruct part as [|a [|z [|? ?]]]; try contradiction.
  - cbn [ww_put expand ww_fold]. destruct (ww_put1 w a); reflexivity.
  - cbn [good_part] in Hg. cbn [ww_put expand] in *.
    assert (Ha : 0 <= a < 524288).
    { rewrite Forall_forall in Hr. apply Hr. destruct (Z.to_nat (z - a + 1)) eqn:E; [lia|]. now left. }
    assert (Hz : a + Z.of_nat (Z.to_nat (z - a + 1)) <= 524288).
    { rewrite Forall_forall in Hr.
      assert (In z (zseq a (Z.to_nat (z - a + 1)))) as Hin.
      { pose proof (nth_zseq a (Z.to_nat (z - a + 1)) (Z.to_nat (z - a)) 0 ltac:(lia)) as E.
        replace (a + Z.of_nat (Z.to_nat (z - a))) with z in E by lia. rewrite <- E at 1.
        apply nth_In. rewrite zseq_length. lia. }
      specialize (Hr z Hin). lia. }
    destruct (ww_gather _ a w) as [d w'] eqn:E.
    destruct (gather_seqw _ a w ltac:(lia) Hz Hl d w' E) as (_ & Hf & f & W & F).
    rewrite F, Hf, winBlockOffset_small, W by lia. reflexivity.
Qed.

Lemma ww_fold_app {A} (f : winwriter -> A -> option winwriter) l1 l2 w :
  ww_fold f (l1 ++ l2) w = match ww_fold f l1 w with None => None | Some w' => ww_fold f l2 w' end.
Proof.
  revert w; induction l1 as [|x l1 IH]; intros w; cbn [app ww_fold]; [reflexivity|].
  destruct (f w x); [apply IH|reflexivity].
Qed.
Lemma put1_slots w k w' : slots_ok (ww_blocks w) -> ww_put1 w k = Some w' -> slots_ok (ww_blocks w').
Proof.
  intros Hl. unfold ww_put1. destruct (write_at _ _ _); [|discriminate].
  intros E. apply Some_inj in E. rewrite <- E. cbn [ww_blocks].
  apply slots_ok_set; [exact Hl|]. eapply slot_ok; [exact Hl|reflexivity].
Qed.
Lemma fold_put_slots ks w w' : slots_ok (ww_blocks w) -> ww_fold ww_put1 ks w = Some w' -> slots_ok (ww_blocks w').
Proof.
  revert w; induction ks as [|k ks IH]; intros w Hl; cbn [ww_fold]; [intros E; apply Some_inj in E; now subst|].
  destruct (ww_put1 w k) eqn:E; [|discriminate]. apply IH. eapply put1_slots; eassumption.
Qed.
Lemma ww_parts_seq parts w : Forall good_part parts -> slots_ok (ww_blocks w) ->
  Forall (fun k => 0 <= k < 524288) (concat (map expand parts)) ->
  ww_fold ww_put parts w = ww_fold ww_put1 (concat (map expand parts)) w.
Proof.
  intros Hg. revert w; induction Hg as [|p parts Hp Hg IH]; intros w Hl Hr; cbn [map concat ww_fold]; [reflexivity|].
  cbn [map concat] in Hr. apply Forall_app in Hr as [H1 H2].
  rewrite ww_fold_app, ww_put_seq by assumption.
  destruct (ww_fold ww_put1 (expand p) w) as [w'|] eqn:E; [|reflexivity].
  apply IH; [eapply fold_put_slots; eassumption|exact H2].
Qed.

(** What one write does, seen through files of whole blocks. *)
Lemma fwf_write f n k b f' : fwf f n -> 0 <= k -> wblock_ok b ->
  write_at f (4096 * k) (wblock_marshal b) = Some f' ->
  fwf f' (Nat.max n (Z.to_nat k + 1)) /\
  forall j, 0 <= j -> bread f' j = if j =? k then wblock_marshal b else bread f j.
Proof.
  intros [Hl Hf] Hk Hb E. pose proof (marshal_len b Hb) as Lb. set (d := wblock_marshal b) in *.
  assert (Hne : d <> []) by (intros X; rewrite X in Lb; discriminate).
  destruct (write_at_spec f (4096 * k) d ltac:(lia) Hne) as (g & E' & L & N).
  rewrite E in E'. apply Some_inj in E'. subst g.
  assert (R : forall j, 0 <= j -> bread f' j = if j =? k then d else bread f j).
  { intros j Hj. unfold bread. unfold blockBytes in *. destruct (Z.eqb_spec j k) as [->|Hjk].
    - apply zread_data; [exact Lb|]. intros i Hi. rewrite N.
      destruct (Nat.leb_spec (Z.to_nat (4096 * k)) (Z.to_nat (4096 * k) + i)); [|lia].
      destruct (Nat.ltb_spec (Z.to_nat (4096 * k) + i) (Z.to_nat (4096 * k) + length d)); [|lia].
      cbn [andb]. f_equal. lia.
    - apply zread_ext. intros i Hi. rewrite N.
      destruct (Nat.leb_spec (Z.to_nat (4096 * k)) i), (Nat.ltb_spec i (Z.to_nat (4096 * k) + length d));
        cbn [andb]; try reflexivity. lia. }
  split; [|exact R]. split; [unfold blockBytes in *; lia|].
  intros j Hj. destruct (Z.eqb_spec j k) as [->|Hjk].
  - exists b. split; [exact Hb|]. rewrite R, Z.eqb_refl by lia. reflexivity.
  - rewrite R by lia. replace (j =? k) with false by lia.
    destruct (Z_lt_le_dec j (Z.of_nat n)) as [H|H]; [apply Hf; lia|].
    exists wb_zero. split; [exact wb_zero_ok|]. unfold bread. rewrite zread_beyond; [now rewrite wb_zero_bytes|].
    unfold blockBytes in *. lia.
Qed.

Lemma fold_put_effect : forall ks w n, NoDup ks -> Forall (fun k => 0 <= k < 524288) ks ->
  slots_ok (ww_blocks w) -> (forall k, In k ks -> exists s, afind Z.eqb (ww_blocks w) k = Some s) -> 
  NoDup (map fst (ww_blocks w)) -> fwf (ww_file w) n ->
  exists w' n', ww_fold ww_put1 ks w = Some w' /\
    ww_idx w' = ww_idx w /\ ww_leases w' = ww_leases w /\ ww_offset w' = ww_offset w /\
    slots_ok (ww_blocks w') /\ NoDup (map fst (ww_blocks w')) /\
    fwf (ww_file w') n' /\ (n <= n')%nat /\ Forall (fun k => (Z.to_nat k < n')%nat) ks /\
    (forall m, (n <= m)%nat -> Forall (fun k => (Z.to_nat k < m)%nat) ks -> (n' <= m)%nat) /\
    (forall j, afind Z.eqb (ww_blocks w') j =
       if in_dec Z.eq_dec j ks then option_map clean (afind Z.eqb (ww_blocks w) j) else afind Z.eqb (ww_blocks w) j) /\
    (forall j, 0 <= j -> bread (ww_file w') j =
       if in_dec Z.eq_dec j ks then wblock_marshal (ws_blk (ww_block w j)) else bread (ww_file w) j).
Proof.
  induction ks as [|k ks IH]; intros w n Hnd Hr Hl Hin Hk Hf.
  - exists w, n. cbn [ww_fold]. split; [reflexivity|]. do 3 (split; [reflexivity|]).
    split; [exact Hl|]. split; [exact Hk|]. split; [exact Hf|]. split; [lia|]. split; [constructor|].
    split; [auto|]. split; reflexivity.
  - inversion Hnd as [|? ? Hni Hnd']; subst. inversion Hr as [|? ? Hk0 Hr']; subst.
    cbn [ww_fold]. unfold ww_put1 at 1. set (b := ww_block w k). rewrite winBlockOffset_small by lia.
    assert (Hb : wblock_ok (ws_blk b)) by (eapply slot_ok; [exact Hl|reflexivity]).
    pose proof (marshal_len _ Hb) as Lb.
    assert (Hne : wblock_marshal (ws_blk b) <> []) by (intros E; rewrite E in Lb; discriminate).
    destruct (write_at_spec (ww_file w) (4096 * k) (wblock_marshal (ws_blk b)) ltac:(lia) Hne) as (f1 & E1 & _ & _).
    rewrite E1. destruct (fwf_write _ n k _ f1 Hf ltac:(lia) Hb E1) as [Hf1 R1].
    fold (clean b).
    set (w1 := mkWW f1 _ _ _ _).
    assert (Hl1 : slots_ok (ww_blocks w1)) by (apply slots_ok_set; [exact Hl|exact Hb]).
    assert (Hg1 : forall j, ws_blk (ww_block w1 j) = ws_blk (ww_block w j)).
    { intros j. unfold ww_block at 1. unfold w1; cbn [ww_blocks]. rewrite afset. destruct (Z.eqb_spec j k) as [->|]; [reflexivity|].
      unfold ww_block. destruct (afind Z.eqb (ww_blocks w) j); reflexivity. }
    destruct (IH w1 (Nat.max n (Z.to_nat k + 1)) Hnd' Hr' Hl1) as
      (w' & n' & F & I1 & I2 & I3 & Hs' & Hn' & Hf' & Hle & Hks & Hmin & Hfind & Hread).
    { intros j Hj. unfold w1; cbn [ww_blocks]. rewrite afset. destruct (j =? k); [eauto|]. apply Hin. now right. }
    { unfold w1; cbn [ww_blocks]. now apply aset_nodup. }
    { exact Hf1. }
    exists w', n'. split; [exact F|].
    split; [exact I1|]. split; [exact I2|]. split; [exact I3|]. split; [exact Hs'|]. split; [exact Hn'|].
    split; [exact Hf'|]. split; [lia|]. split; [constructor; [lia|exact Hks]|]. split; [|split].
    + intros m Hm Hfm. inversion Hfm; subst. apply Hmin; [lia|assumption].
    + intros j. rewrite Hfind. unfold w1; cbn [ww_blocks]. rewrite afset.
      destruct (in_dec Z.eq_dec j ks) as [Hj|Hj], (in_dec Z.eq_dec j (k :: ks)) as [Hj'|Hj'].
      * destruct (Z.eqb_spec j k) as [->|]; [contradiction|reflexivity].
      * exfalso. apply Hj'. now right.
      * destruct Hj' as [->|Hj']; [|contradiction]. rewrite Z.eqb_refl.
        destruct (Hin j) as [s Es]; [now left|]. unfold b, ww_block. rewrite Es. reflexivity.
      * destruct (Z.eqb_spec j k) as [->|]; [exfalso; apply Hj'; now left|reflexivity].
    + intros j Hj0. rewrite Hread, Hg1 by exact Hj0. unfold w1; cbn [ww_file]. rewrite R1 by exact Hj0.
      destruct (in_dec Z.eq_dec j ks) as [Hj|Hj], (in_dec Z.eq_dec j (k :: ks)) as [Hj'|Hj'].
      * reflexivity.
      * exfalso. apply Hj'. now right.
      * destruct Hj' as [->|Hj']; [|contradiction]. now rewrite Z.eqb_refl.
      * destruct (Z.eqb_spec j k) as [->|]; [exfalso; apply Hj'; now left|reflexivity].
Qed.

Definition dirtyw (w : winwriter) (k : Z) : Prop := exists s, afind Z.eqb (ww_blocks w) k = Some s /\ ws_dirty s = true.

Lemma in_afind (m : list (Z * wslot)) k s : NoDup (map fst m) -> In (k, s) m -> afind Z.eqb m k = Some s.
Proof.
  induction m as [|[a b] m IH]; cbn [map fst afind]; intros Hn Hi; [contradiction|].
  inversion Hn as [|? ? Hni Hnd]; subst. destruct Hi as [E|Hi].
  - injection E as -> ->. now rewrite Z.eqb_refl.
  - destruct (Z.eqb_spec a k) as [->|]; [|now apply IH]. exfalso. apply Hni. apply in_map_iff. exists (k, s). auto.
Qed.
Lemma in_sel (m : list (Z * wslot)) p k : NoDup (map fst m) ->
  In k (map fst (filter (fun kb => p (snd kb)) m)) <-> exists s, afind Z.eqb m k = Some s /\ p s = true.
Proof.
  intros Hn. rewrite in_map_iff. split.
  - intros ([x s] & E & H). cbn [fst] in E. subst x. apply filter_In in H as [H1 H2].
    exists s. split; [now apply in_afind|exact H2].
  - intros (s & E & H). exists (k, s). split; [reflexivity|]. apply filter_In. split; [|exact H].
    eapply afind_In; [|exact E]. apply Zeqb_iff.
Qed.
Lemma nodup_sel (m : list (Z * wslot)) p : NoDup (map fst m) -> NoDup (map fst (filter p m)).
Proof.
  induction m as [|[a b] m IH]; cbn [map fst filter]; intros Hn; [constructor|].
  inversion Hn as [|? ? Hni Hnd]; subst. destruct (p (a, b)); [|now apply IH].
  cbn [map fst]. constructor; [|now apply IH]. intros Hi. apply Hni.
  apply in_map_iff in Hi as ([x y] & E & H). apply filter_In in H as [H _]. cbn [fst] in E. subst x.
  apply in_map_iff. exists (a, y). auto.
Qed.

Lemma ww_write_effect w n : NoDup (map fst (ww_blocks w)) -> slots_ok (ww_blocks w) -> fwf (ww_file w) n ->
  (forall k s, afind Z.eqb (ww_blocks w) k = Some s -> 0 <= k < 524288) ->
  exists w' n', ww_write w = Some w' /\
    ww_idx w' = ww_idx w /\ ww_leases w' = ww_leases w /\ ww_offset w' = ww_offset w /\
    NoDup (map fst (ww_blocks w')) /\
    fwf (ww_file w') n' /\ (n <= n')%nat /\ (forall k, dirtyw w k -> (Z.to_nat k < n')%nat) /\
    (forall m, (n <= m)%nat -> (forall k, dirtyw w k -> (Z.to_nat k < m)%nat) -> (n' <= m)%nat) /\
    (forall j, afind Z.eqb (ww_blocks w') j = option_map clean (afind Z.eqb (ww_blocks w) j)) /\
    (forall j, 0 <= j -> (dirtyw w j -> bread (ww_file w') j = wblock_marshal (ws_blk (ww_block w j))) /\
                         (~ dirtyw w j -> bread (ww_file w') j = bread (ww_file w) j)).
Proof.
  intros Hnd Hl Hf Hrange. unfold ww_write.
  set (p := fun s : wslot => (ws_leased s && ws_dirty s)%bool).
  set (L := map fst (filter _ (ww_blocks w))).
  assert (HL : forall k, In k L <-> exists s, afind Z.eqb (ww_blocks w) k = Some s /\ p s = true)
    by (intros k; apply (in_sel _ p), Hnd).
  destruct (fold_put_effect L w n) as (w1 & n1 & E1 & I1 & I2 & I3 & S1 & D1 & F1 & N1 & K1 & M1 & B1 & R1); auto.
  { now apply nodup_sel. }
  { apply Forall_forall. intros k Hk. apply HL in Hk as (s & Es & _). eauto. }
  { intros k Hk. apply HL in Hk as (s & Es & _). eauto. }
  rewrite E1.
  set (q := fun s : wslot => (negb (ws_leased s) && ws_dirty s)%bool).
  set (R := map fst (filter _ (ww_blocks w1))).
  assert (HR : forall k, In k R <-> exists s, afind Z.eqb (ww_blocks w) k = Some s /\ q s = true).
  { intros k. unfold R. etransitivity; [apply (in_sel _ q k D1)|]. setoid_rewrite B1.
    destruct (in_dec Z.eq_dec k L) as [Hin|Hin]; [|reflexivity]. split.
    - intros (b & E & Hq). destruct (afind Z.eqb (ww_blocks w) k); cbn [option_map] in E; [|discriminate].
      apply Some_inj in E. subst b. unfold q, clean in Hq; cbn in Hq. now rewrite andb_false_r in Hq.
    - intros (b & E & Hq). apply HL in Hin as (b2 & E2 & H3). rewrite E in E2. apply Some_inj in E2. subst b2.
      unfold p, q in *. destruct (ws_leased b); discriminate. }
  assert (HRL : forall k, In k R -> ~ In k L).
  { intros k Hk Hin. apply HR in Hk as (b & Eb & Hq). apply HL in Hin as (b2 & E2 & Hp).
    rewrite Eb in E2. apply Some_inj in E2. subst b2. unfold p, q in *. destruct (ws_leased b); discriminate. }
  assert (Hdd : forall k, dirtyw w k <-> In k L \/ In k R).
  { intros k. rewrite HL, HR. unfold dirtyw, p, q. split.
    - intros (b & E & Hb). destruct (ws_leased b) eqn:El; [left|right]; exists b; rewrite El, Hb; auto.
    - intros [(b & E & Hb)|(b & E & Hb)]; exists b; split; auto; apply andb_true_iff in Hb; apply Hb. }
  assert (HndR : NoDup R) by (now apply nodup_sel).
  assert (Hin32 : Forall (fun k => 0 <= k < 524288) R).
  { apply Forall_forall. intros k Hk. apply HR in Hk as (s & Es & _). eauto. }
  pose proof (sort_Z_perm R) as PR.
  destruct (blockRange_ok (sort_Z R)) as (parts & EP & PP & GP).
  { eapply Permutation_Forall; [symmetry; exact PR|]. eapply Forall_impl; [|exact Hin32].
    intros a Ha. unfold int32_ok. cbv beta in Ha. change (- 2 ^ 31) with (-2147483648). change (2 ^ 31) with 2147483648. lia. }
  { apply sorted_strict; [apply sort_Z_sorted|]. eapply Permutation_NoDup; [symmetry; exact PR|exact HndR]. }
  rewrite EP. set (Q := concat (map expand parts)) in *.
  assert (PQ : Permutation Q R) by (etransitivity; eassumption).
  assert (HQ : forall k, In k Q <-> In k R).
  { intros k. split; intros Hk; [eapply Permutation_in; [exact PQ|exact Hk]|eapply Permutation_in; [symmetry; exact PQ|exact Hk]]. }
  assert (HQ32 : Forall (fun k => 0 <= k < 524288) Q) by (eapply Permutation_Forall; [symmetry; exact PQ|exact Hin32]).
  rewrite ww_parts_seq; [|exact GP|exact S1|exact HQ32]. fold Q.
  destruct (fold_put_effect Q w1 n1) as (w2 & n2 & E2 & J1 & J2 & J3 & S2 & D2 & F2 & N2 & K2 & M2 & B2 & R2); auto.
  { eapply Permutation_NoDup; [symmetry; exact PQ|exact HndR]. }
  { intros k Hk. apply HQ, HR in Hk as (s & Es & Hq). rewrite B1, Es.
    destruct (in_dec Z.eq_dec k L); cbn [option_map]; eauto. }
  exists w2, n2. rewrite Forall_forall in *.
  split; [exact E2|]. split; [congruence|]. split; [congruence|]. split; [congruence|]. split; [exact D2|].
  split; [exact F2|]. split; [lia|]. split; [|split; [|split]].
  - intros k Hk. apply Hdd in Hk as [Hk|Hk]; [specialize (K1 k Hk); lia|apply K2, HQ, Hk].
  - intros m Hm Hk. apply M2.
    + apply M1; [exact Hm|]. apply Forall_forall. intros k Hin. apply Hk, Hdd. now left.
    + apply Forall_forall. intros k Hin. apply Hk, Hdd. right. now apply HQ.
  - intros j. rewrite B2, B1. destruct (afind Z.eqb (ww_blocks w) j) as [s|] eqn:Es.
    2:{ destruct (in_dec Z.eq_dec j Q), (in_dec Z.eq_dec j L); reflexivity. }
    destruct (in_dec Z.eq_dec j Q) as [HjQ|HjQ], (in_dec Z.eq_dec j L) as [HjL|HjL]; cbn [option_map]; try reflexivity.
    f_equal. destruct (ws_dirty s) eqn:Ed; [|destruct s; cbn in *; subst; reflexivity].
    exfalso. assert (dirtyw w j) as Hd by (exists s; auto). apply Hdd in Hd as [Hd|Hd]; [contradiction|].
    apply HjQ, HQ, Hd.
  - assert (Hg : forall j, ws_blk (ww_block w1 j) = ws_blk (ww_block w j)).
    { intros j. unfold ww_block. rewrite B1. destruct (afind Z.eqb (ww_blocks w) j) as [s|];
        destruct (in_dec Z.eq_dec j L); reflexivity. }
    intros j Hj. rewrite R2, R1, Hg by exact Hj. split; intros Hd.
    + apply Hdd in Hd. destruct (in_dec Z.eq_dec j Q) as [HjQ|HjQ]; [reflexivity|].
      destruct (in_dec Z.eq_dec j L) as [HjL|HjL]; [reflexivity|]. exfalso. destruct Hd as [Hd|Hd]; [contradiction|].
      apply HjQ, HQ, Hd.
    + destruct (in_dec Z.eq_dec j Q) as [HjQ|HjQ]; [exfalso; apply Hd, Hdd; right; now apply HQ|].
      destruct (in_dec Z.eq_dec j L) as [HjL|HjL]; [exfalso; apply Hd, Hdd; now left|reflexivity].
Qed.
