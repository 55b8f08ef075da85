(** Proofs about the block writer and reader. *)
From Verif Require Import M_Bytes P_Bytes M_Hash P_Hash P_Bloom P_Mac M_File P_File M_IndexBlock S_Index P_Index
  M_Lease S_Lease P_Lease M_BlockRange S_BlockRange P_BlockRange M_BlockStore.
From Coq Require Import Lia ZifyBool ZifyNat ZifyN Permutation Sorted.
Open Scope Z_scope.

(** ** The block map *)
Definition keys (m : list (Z * wblock)) : list Z := map fst m.

Lemma blk_find_set m k b j : blk_find (blk_set m k b) j = if j =? k then Some b else blk_find m j.
Proof.
  induction m as [|[k' b'] m IH]; cbn [blk_set blk_find].
  - destruct (j =? k); reflexivity.
  - destruct (Z.eqb_spec k k') as [->|E]; cbn [blk_find].
    + destruct (Z.eqb_spec j k'); reflexivity.
    + destruct (Z.eqb_spec j k') as [->|E2]; [|exact IH].
      destruct (Z.eqb_spec k' k); [congruence|reflexivity].
Qed.

Lemma keys_find m k : In k (keys m) <-> exists b, blk_find m k = Some b.
Proof.
  induction m as [|[k' b'] m IH]; cbn [keys map blk_find In fst].
  - split; [intros []|intros [b H]; discriminate].
  - destruct (Z.eqb_spec k k') as [->|E].
    + split; [eauto|now left].
    + rewrite <- IH. split; [intros [H|H]; [congruence|exact H]|now right].
Qed.

Lemma find_in m k b : blk_find m k = Some b -> In (k, b) m.
Proof.
  induction m as [|[k' b'] m IH]; cbn [blk_find]; [discriminate|].
  destruct (Z.eqb_spec k k') as [->|E]; [intros H; left; congruence|right; auto].
Qed.

Lemma in_find m k b : NoDup (keys m) -> In (k, b) m -> blk_find m k = Some b.
Proof.
  induction m as [|[k' b'] m IH]; cbn [keys map blk_find fst]; intros Hn Hin; [contradiction|].
  inversion Hn as [|? ? Hni Hn']; subst. destruct Hin as [E|Hin].
  - assert (k' = k /\ b' = b) as [-> ->] by (split; congruence). now rewrite Z.eqb_refl.
  - destruct (Z.eqb_spec k k') as [->|E]; [|now apply IH].
    exfalso. apply Hni. change k' with (fst (k', b)). now apply in_map.
Qed.

Lemma keys_set m k b : keys (blk_set m k b) = keys m \/ keys (blk_set m k b) = keys m ++ [k].
Proof.
  induction m as [|[k' b'] m IH]; cbn [blk_set keys map fst].
  - now right.
  - destruct (Z.eqb_spec k k') as [->|E]; [now left|].
    cbn [keys map fst]. fold (keys m) (keys (blk_set m k b)). destruct IH as [->| ->]; auto.
Qed.

Lemma keys_set_in m k b : In k (keys m) -> keys (blk_set m k b) = keys m.
Proof.
  induction m as [|[k' b'] m IH]; cbn [blk_set keys map fst]; [intros []|].
  destruct (Z.eqb_spec k k') as [->|E]; [reflexivity|]. cbn [keys map fst].
  intros [H|H]; [congruence|]. f_equal. now apply IH.
Qed.

Lemma nodup_set m k b : NoDup (keys m) -> NoDup (keys (blk_set m k b)).
Proof.
  intros H. destruct (in_dec Z.eq_dec k (keys m)) as [Hi|Hi].
  - now rewrite keys_set_in.
  - destruct (keys_set m k b) as [->| ->]; [exact H|].
    rewrite <- (rev_involutive (keys m ++ [k])). apply NoDup_rev. rewrite rev_app_distr. cbn [rev app].
    constructor; [rewrite <- in_rev; exact Hi|now apply NoDup_rev].
Qed.

(** ** Range writes are sequences of block writes *)
Definition lens_ok (m : list (Z * wblock)) : Prop :=
  forall k b, blk_find m k = Some b -> length (b_entries (w_blk b)) = entriesPerIndexBlock.

Definition blk_get (m : list (Z * wblock)) (k : Z) : wblock :=
  match blk_find m k with Some b => b | None => wblock_zero end.

Lemma blk_get_len m k : lens_ok m -> length (iblock_marshal (w_blk (blk_get m k))) = blockBytes.
Proof.
  intros H. apply iblock_marshal_length. unfold blk_get. destruct (blk_find m k) as [b|] eqn:E.
  - eapply H, E.
  - reflexivity.
Qed.

Lemma lens_ok_set m k d : lens_ok m -> lens_ok (blk_set m k (mkWB (w_blk (blk_get m k)) d (w_leased (blk_get m k)))).
Proof.
  intros H j b. rewrite blk_find_set. destruct (j =? k); [|apply H].
  intros E. apply Some_inj in E. rewrite <- E. cbn [w_blk]. unfold blk_get.
  destruct (blk_find m k) eqn:F; [eapply H, F|reflexivity].
Qed.

Lemma set_index_same w : set_index w (w_index w) = w.
Proof. destruct w; reflexivity. Qed.
Lemma set_index_twice w a b : set_index (set_index w a) b = set_index w b.
Proof. destruct w; reflexivity. Qed.
Lemma set_index_blocks w a m : set_blocks (set_index w a) m = set_index (set_blocks w m) a.
Proof. destruct w; reflexivity. Qed.
Lemma w_index_set w a : w_index (set_index w a) = a.
Proof. reflexivity. Qed.

Lemma gather_index n k w i : gather n k (set_index w i) =
  match gather n k w with None => None | Some (d, w') => Some (d, set_index w' i) end.
Proof.
  revert k w; induction n as [|n IH]; intros k w; cbn [gather]; [reflexivity|].
  change (w_blocks (set_index w i)) with (w_blocks w).
  destruct (block_valid _ k); [|reflexivity].
  rewrite set_index_blocks, IH. destruct (gather n (k + 1) _) as [[d w']|]; reflexivity.
Qed.

Lemma gather_same_index n k w d w' : gather n k w = Some (d, w') -> w_index w' = w_index w.
Proof.
  revert k w d; induction n as [|n IH]; intros k w d; cbn [gather].
  - intros [= <- <-]. reflexivity.
  - destruct (block_valid _ k); [|discriminate].
    destruct (gather n (k + 1) _) as [[d' w1]|] eqn:E; [|discriminate].
    intros [= _ <-]. apply IH in E. exact E.
Qed.

Lemma gather_seq : forall n k w, 0 <= k -> k + Z.of_nat n <= 2 ^ 19 -> lens_ok (w_blocks w) ->
  match gather n k w with
  | None => fold_opt write_block (zseq k n) w = None
  | Some (d, w') => length d = (blockBytes * n)%nat /\
      exists idx, write_at (w_index w) (4096 * k) d = Some idx /\
        fold_opt write_block (zseq k n) w = Some (set_index w' idx)
  end.
Proof.
  induction n as [|n IH]; intros k w Hk Hn Hl; cbn [gather zseq fold_opt].
  - split; [reflexivity|]. exists (w_index w). unfold write_at.
    replace (4096 * k <? 0) with false by lia. split; [reflexivity|]. now rewrite set_index_same.
  - unfold write_block at 1. fold (blk_get (w_blocks w) k).
    unfold write_block at 2. fold (blk_get (w_blocks w) k).
    set (b := blk_get (w_blocks w) k).
    destruct (block_valid (w_blk b) k).
    2:{ reflexivity. }
    rewrite blockOffset_small by lia.
    pose proof (blk_get_len _ k Hl) as Lb. fold b in Lb.
    assert (Hne : iblock_marshal (w_blk b) <> []) by (intros E; rewrite E in Lb; discriminate).
    destruct (write_at_spec (w_index w) (4096 * k) (iblock_marshal (w_blk b)) ltac:(lia) Hne)
      as (idx1 & E1 & _ & _).
    rewrite E1. rewrite set_index_blocks.
    set (w1 := set_blocks w _).
    assert (Hl1 : lens_ok (w_blocks (set_index w1 idx1))).
    { unfold w1; cbn [set_blocks set_index w_blocks]. unfold b. now apply lens_ok_set. }
    specialize (IH (k + 1) (set_index w1 idx1) ltac:(lia) ltac:(lia) Hl1).
    rewrite gather_index in IH.
    destruct (gather n (k + 1) w1) as [[d w']|] eqn:G; [|exact IH].
    destruct IH as (Ld & idx & E2 & F). split; [rewrite app_length, Lb; lia|].
    exists idx. split; [|rewrite F, set_index_twice; reflexivity].
    rewrite w_index_set in E2.
    destruct n as [|n'].
    + assert (d = []) by (destruct d; [reflexivity|cbn in Ld; lia]). subst d.
      rewrite app_nil_r, E1. rewrite <- E2. unfold write_at.
      replace (4096 * (k + 1) <? 0) with false by lia. reflexivity.
    + assert (d <> []) by (intros E; subst d; cbn [length] in Ld; lia).
      rewrite (write_at_app _ _ _ _ idx1); [|lia|exact Hne|assumption|exact E1].
      rewrite Lb. rewrite <- E2. f_equal. lia.
Qed.

Lemma write_part_seq part w : good_part part -> lens_ok (w_blocks w) ->
  Forall (fun k => 0 <= k < 2 ^ 19) (expand part) ->
  write_part w part = fold_opt write_block (expand part) w.
Proof.
  intros Hg Hl Hr. destruct part as [|a [|z [|? ?]]]; try contradiction.
  - cbn [write_part expand fold_opt]. destruct (write_block w a); reflexivity.
  - cbn [good_part] in Hg. cbn [write_part expand] in *.
    assert (Ha : 0 <= a < 2 ^ 19).
    { rewrite Forall_forall in Hr. apply Hr. destruct (Z.to_nat (z - a + 1)) eqn:E; [lia|]. now left. }
    assert (Hz : a + Z.of_nat (Z.to_nat (z - a + 1)) <= 2 ^ 19).
    { rewrite Forall_forall in Hr.
      assert (In z (zseq a (Z.to_nat (z - a + 1)))) as Hin.
      { pose proof (nth_zseq a (Z.to_nat (z - a + 1)) (Z.to_nat (z - a)) 0 ltac:(lia)) as E.
        replace (a + Z.of_nat (Z.to_nat (z - a))) with z in E by lia. rewrite <- E at 1.
        apply nth_In. rewrite zseq_length. lia. }
      specialize (Hr z Hin). lia. }
    pose proof (gather_seq (Z.to_nat (z - a + 1)) a w ltac:(lia) Hz Hl) as G.
    destruct (gather _ a w) as [[d w']|] eqn:E; [|now symmetry].
    destruct G as (_ & idx & W & F). rewrite F.
    rewrite (gather_same_index _ _ _ _ _ E), blockOffset_small, W by lia. reflexivity.
Qed.

Lemma fold_opt_app {A} (f : bwriter -> A -> option bwriter) l1 l2 w :
  fold_opt f (l1 ++ l2) w = match fold_opt f l1 w with None => None | Some w' => fold_opt f l2 w' end.
Proof.
  revert w; induction l1 as [|x l1 IH]; intros w; cbn [app fold_opt]; [reflexivity|].
  destruct (f w x); [apply IH|reflexivity].
Qed.

Lemma write_block_lens w k w' : lens_ok (w_blocks w) -> write_block w k = Some w' -> lens_ok (w_blocks w').
Proof.
  intros Hl. unfold write_block. fold (blk_get (w_blocks w) k).
  destruct (block_valid _ k); [|discriminate]. destruct (write_at _ _ _); [|discriminate].
  intros E. apply Some_inj in E. rewrite <- E. cbn [set_blocks set_index w_blocks].
  now apply lens_ok_set.
Qed.

Lemma fold_write_lens ks w w' : lens_ok (w_blocks w) -> fold_opt write_block ks w = Some w' -> lens_ok (w_blocks w').
Proof.
  revert w; induction ks as [|k ks IH]; intros w Hl; cbn [fold_opt]; [intros E; apply Some_inj in E; now subst|].
  destruct (write_block w k) eqn:E; [|discriminate]. apply IH. eapply write_block_lens; eassumption.
Qed.

Lemma write_parts_seq parts w : Forall good_part parts -> lens_ok (w_blocks w) ->
  Forall (fun k => 0 <= k < 2 ^ 19) (concat (map expand parts)) ->
  fold_opt write_part parts w = fold_opt write_block (concat (map expand parts)) w.
Proof.
  intros Hg. revert w; induction Hg as [|p parts Hp Hg IH]; intros w Hl Hr; cbn [map concat fold_opt]; [reflexivity|].
  cbn [map concat] in Hr. apply Forall_app in Hr as [H1 H2].
  rewrite fold_opt_app, write_part_seq by assumption.
  destruct (fold_opt write_block (expand p) w) as [w'|] eqn:E; [|reflexivity].
  apply IH; [eapply fold_write_lens; eassumption|exact H2].
Qed.

(** ** Reading with zero extension *)
Definition zread (f : bytes) (off n : nat) : bytes := map (fun i => nth (off + i) f 0%N) (seq 0 n).

Lemma zread_length f off n : length (zread f off n) = n.
Proof. unfold zread. now rewrite map_length, seq_length. Qed.
Lemma nth_zread f off n i : (i < n)%nat -> nth i (zread f off n) 0%N = nth (off + i) f 0%N.
Proof.
  intros H. unfold zread. rewrite (nth_indep _ 0%N (nth (off + 0) f 0%N)) by (rewrite map_length, seq_length; lia).
  rewrite (map_nth (fun i => nth (off + i) f 0%N)). rewrite seq_nth by lia. reflexivity.
Qed.
Lemma zread_ext f g off n : (forall i, (off <= i < off + n)%nat -> nth i f 0%N = nth i g 0%N) ->
  zread f off n = zread g off n.
Proof.
  intros H. apply bytes_ext; [now rewrite !zread_length|].
  intros i Hi. rewrite zread_length in Hi. rewrite !nth_zread by lia. apply H. lia.
Qed.
Lemma zread_data f off n d : length d = n -> (forall i, (i < n)%nat -> nth (off + i) f 0%N = nth i d 0%N) ->
  zread f off n = d.
Proof.
  intros Hl H. apply bytes_ext; [now rewrite zread_length|].
  intros i Hi. rewrite zread_length in Hi. rewrite nth_zread by lia. now apply H.
Qed.
Lemma read_at_zread f off n : 0 <= off -> (Z.to_nat off + n <= length f)%nat ->
  read_at f off n = Some (zread f (Z.to_nat off) n).
Proof.
  intros Ho Hl. apply read_at_data; [exact Ho|exact Hl|apply zread_length|].
  intros i Hi. now rewrite nth_zread.
Qed.
Lemma zread_beyond f off n : (length f <= off)%nat -> zread f off n = repeat 0%N n.
Proof.
  intros H. apply zread_data; [apply repeat_length|]. intros i Hi. rewrite nth_repeat0. apply nth_beyond. lia.
Qed.

(** Block [j] of an index file. *)
Definition bread (f : bytes) (j : Z) : bytes := zread f (Z.to_nat (4096 * j)) blockBytes.

Definition set_clean (w : bwriter) (k : Z) : list (Z * wblock) :=
  let b := blk_get (w_blocks w) k in blk_set (w_blocks w) k (mkWB (w_blk b) false (w_leased b)).

Lemma write_block_effect w k n : 0 <= k < 2 ^ 19 -> lens_ok (w_blocks w) ->
  block_valid (w_blk (blk_get (w_blocks w) k)) k = true ->
  length (w_index w) = (blockBytes * n)%nat ->
  exists idx, write_block w k = Some (set_blocks (set_index w idx) (set_clean w k)) /\
    length idx = (blockBytes * Nat.max n (Z.to_nat k + 1))%nat /\
    forall j, 0 <= j -> bread idx j = if j =? k then iblock_marshal (w_blk (blk_get (w_blocks w) k))
                                     else bread (w_index w) j.
Proof.
  intros Hk Hl Hv Hn. unfold write_block. fold (blk_get (w_blocks w) k). rewrite Hv.
  rewrite blockOffset_small by lia.
  pose proof (blk_get_len _ k Hl) as Lb. set (d := iblock_marshal _) in *.
  assert (Hne : d <> []) by (intros E; rewrite E in Lb; discriminate).
  destruct (write_at_spec (w_index w) (4096 * k) d ltac:(lia) Hne) as (idx & E & L & N).
  rewrite E. exists idx. split; [reflexivity|]. split; [lia|].
  intros j Hj. unfold bread. destruct (Z.eqb_spec j k) as [->|Hjk].
  - apply zread_data; [exact Lb|]. intros i Hi. rewrite N.
    destruct (Nat.leb_spec (Z.to_nat (4096 * k)) (Z.to_nat (4096 * k) + i)); [|lia].
    destruct (Nat.ltb_spec (Z.to_nat (4096 * k) + i) (Z.to_nat (4096 * k) + length d)); [|lia].
    cbn [andb]. f_equal. lia.
  - apply zread_ext. intros i Hi. rewrite N.
    destruct (Nat.leb_spec (Z.to_nat (4096 * k)) i), (Nat.ltb_spec i (Z.to_nat (4096 * k) + length d));
      cbn [andb]; try reflexivity. lia.
Qed.

(** Writing several different blocks. *)
Lemma fold_write_effect : forall ks w n, NoDup ks -> Forall (fun k => 0 <= k < 2 ^ 19) ks ->
  lens_ok (w_blocks w) ->
  Forall (fun k => In k (keys (w_blocks w)) /\ block_valid (w_blk (blk_get (w_blocks w) k)) k = true) ks ->
  length (w_index w) = (blockBytes * n)%nat ->
  exists w' n', fold_opt write_block ks w = Some w' /\
    w' = set_blocks (set_index w (w_index w')) (w_blocks w') /\
    length (w_index w') = (blockBytes * n')%nat /\
    (n <= n')%nat /\ (Forall (fun k => (Z.to_nat k < n')%nat) ks) /\
    (forall m, (n <= m)%nat -> Forall (fun k => (Z.to_nat k < m)%nat) ks -> (n' <= m)%nat) /\
    keys (w_blocks w') = keys (w_blocks w) /\
    (forall j, blk_find (w_blocks w') j =
       if in_dec Z.eq_dec j ks
       then option_map (fun b => mkWB (w_blk b) false (w_leased b)) (blk_find (w_blocks w) j)
       else blk_find (w_blocks w) j) /\
    (forall j, 0 <= j -> bread (w_index w') j =
       if in_dec Z.eq_dec j ks then iblock_marshal (w_blk (blk_get (w_blocks w) j)) else bread (w_index w) j).
Proof.
  induction ks as [|k ks IH]; intros w n Hnd Hr Hl Hv Hn.
  - exists w, n. cbn [fold_opt]. repeat split; auto; try constructor; try lia.
    + destruct w; reflexivity.
  - inversion Hnd as [|? ? Hni Hnd']; subst. inversion Hr as [|? ? Hk Hr']; subst.
    inversion Hv as [|? ? [Hin Hbv] Hv']; subst.
    destruct (write_block_effect w k n Hk Hl Hbv Hn) as (idx & E & L & B).
    set (w1 := set_blocks (set_index w idx) (set_clean w k)) in *.
    assert (Hl1 : lens_ok (w_blocks w1)) by (unfold w1, set_clean; cbn; now apply lens_ok_set).
    assert (Hk1 : keys (w_blocks w1) = keys (w_blocks w)) by (unfold w1, set_clean; cbn; now apply keys_set_in).
    assert (Hf1 : forall j, blk_find (w_blocks w1) j =
              if j =? k then Some (mkWB (w_blk (blk_get (w_blocks w) k)) false (w_leased (blk_get (w_blocks w) k)))
              else blk_find (w_blocks w) j).
    { intros j. unfold w1, set_clean; cbn [set_blocks w_blocks]. apply blk_find_set. }
    assert (Hg1 : forall j, w_blk (blk_get (w_blocks w1) j) = w_blk (blk_get (w_blocks w) j)).
    { intros j. unfold blk_get at 1. rewrite Hf1. destruct (Z.eqb_spec j k) as [->|]; [reflexivity|].
      unfold blk_get. destruct (blk_find (w_blocks w) j); reflexivity. }
    destruct (IH w1 (Nat.max n (Z.to_nat k + 1)) Hnd' Hr' Hl1) as
      (w' & n' & F & Heq & L' & Hle & Hks & Hmin & Hkeys & Hfind & Hread).
    { rewrite Forall_forall in *. intros j Hj. destruct (Hv' j Hj) as [H1 H2]. rewrite Hk1, Hg1. auto. }
    { exact L. }
    exists w', n'. cbn [fold_opt]. rewrite E. fold w1. split; [exact F|].
    split; [|split; [exact L'|split; [lia|split; [|split; [|split; [congruence|split]]]]]].
    + rewrite Heq at 1. unfold w1. destruct w; reflexivity.
    + constructor; [lia|exact Hks].
    + intros m Hm Hfm. inversion Hfm; subst. apply Hmin; [lia|assumption].
    + intros j. rewrite Hfind, Hf1. cbn [in_dec]. 
      destruct (in_dec Z.eq_dec j ks) as [Hj|Hj], (in_dec Z.eq_dec j (k :: ks)) as [Hj'|Hj'].
      * destruct (Z.eqb_spec j k) as [->|]; [contradiction|reflexivity].
      * exfalso. apply Hj'. now right.
      * destruct Hj' as [->|Hj']; [|contradiction]. rewrite Z.eqb_refl.
        apply keys_find in Hin as [b Hb]. unfold blk_get. rewrite Hb. reflexivity.
      * destruct (Z.eqb_spec j k) as [->|]; [exfalso; apply Hj'; now left|reflexivity].
    + intros j Hj0. rewrite Hread by exact Hj0. rewrite Hg1.
      change (w_index w1) with idx. rewrite B by exact Hj0.
      destruct (in_dec Z.eq_dec j ks) as [Hj|Hj], (in_dec Z.eq_dec j (k :: ks)) as [Hj'|Hj'].
      * reflexivity.
      * exfalso. apply Hj'. now right.
      * destruct Hj' as [->|Hj']; [|contradiction]. now rewrite Z.eqb_refl.
      * destruct (Z.eqb_spec j k) as [->|]; [exfalso; apply Hj'; now left|reflexivity].
Qed.

(** Sorting. *)
Lemma insert_Z_perm x l : Permutation (insert_Z x l) (x :: l).
Proof.
  induction l as [|y l IH]; cbn [insert_Z]; [reflexivity|].
  destruct (x <=? y); [reflexivity|]. rewrite IH. apply perm_swap.
Qed.
Lemma sort_Z_perm l : Permutation (sort_Z l) l.
Proof.
  induction l as [|x l IH]; cbn [sort_Z fold_right]; [reflexivity|].
  fold (sort_Z l). rewrite insert_Z_perm. now constructor.
Qed.
Lemma insert_Z_sorted x l : StronglySorted Z.le l -> StronglySorted Z.le (insert_Z x l).
Proof.
  induction 1 as [|y l Hs IH Hf]; cbn [insert_Z]; [repeat constructor|].
  destruct (Z.leb_spec x y).
  - constructor; [now constructor|]. constructor; [exact H|].
    eapply Forall_impl; [|exact Hf]. intros; lia.
  - constructor; [exact IH|]. eapply Permutation_Forall; [symmetry; apply insert_Z_perm|].
    constructor; [lia|exact Hf].
Qed.
Lemma sort_Z_sorted l : StronglySorted Z.le (sort_Z l).
Proof. induction l; cbn [sort_Z fold_right]; [constructor|now apply insert_Z_sorted]. Qed.
Lemma sorted_strict l : StronglySorted Z.le l -> NoDup l -> StronglySorted Z.lt l.
Proof.
  induction 1 as [|y l Hs IH Hf]; intros Hn; [constructor|].
  inversion Hn as [|? ? Hni Hn']; subst. constructor; [auto|].
  rewrite Forall_forall in *. intros z Hz. specialize (Hf z Hz).
  assert (y <> z) by (intros ->; contradiction). lia.
Qed.
