(** The window file: what the chain of a topic holds. *)
From Verif Require Import M_Bytes P_Bytes M_Hash P_Hash P_Bloom P_Mac M_File P_File P_Index M_BlockRange P_BlockRange
  M_MemDB P_MemBlock M_Query M_BlockStore P_BlockStore M_WinBlock M_Window S_Window P_Window.
From Coq Require Import Lia ZifyBool ZifyNat ZifyN.
Open Scope Z_scope.

Notation tent := (wentry * Z)%type.

(** Equal but for a cutoff time that one of them lacks. *)
Definition same (b b' : wblock) : Prop :=
  wb_topicHash b = wb_topicHash b' /\ wb_entries b = wb_entries b' /\ wb_next b = wb_next b' /\
  wb_entryIdx b = wb_entryIdx b' /\ (wb_cutoffTime b = wb_cutoffTime b' \/ wb_cutoffTime b = 0).
Lemma same_refl b : same b b.
Proof. repeat split; auto. Qed.

Definition blk_has (b : wblock) (l : list tent) : Prop :=
  wb_entryIdx b = N.of_nat (length l) /\ (length l <= entriesPerWindowBlock)%nat /\
  firstn (length l) (wb_entries b) = map fst l.
Definition blk_cut (b : wblock) (l : list tent) : Prop :=
  wb_cutoffTime b <> 0 -> Forall (fun x : tent => snd x <= wb_cutoffTime b) l.

Inductive chain (V : Z -> option wblock) (h : N) : Z -> list tent -> Prop :=
| ch_base k b l : 0 <= k -> V k = Some b -> wb_topicHash b = h -> wb_next b = 0 -> blk_has b l -> blk_cut b l ->
    chain V h k l
| ch_step k k' b l C : 0 < k' < k -> V k = Some b -> wb_topicHash b = h -> wb_next b = 4096 * k' ->
    blk_has b l -> blk_cut b (C ++ l) -> chain V h k' C -> chain V h k (C ++ l).

Lemma same_has b b' l : same b b' -> blk_has b' l -> blk_has b l.
Proof. intros (_ & E2 & _ & E4 & _) (H1 & H2 & H3). unfold blk_has. rewrite E2, E4. auto. Qed.
Lemma same_cut b b' l : same b b' -> blk_cut b' l -> blk_cut b l.
Proof. intros (_ & _ & _ & _ & [E|E]) H Hn; [rewrite E in *; auto|congruence]. Qed.

Lemma chain_ext V V' h k C : chain V h k C ->
  (forall j b, 0 <= j <= k -> V j = Some b -> exists b', V' j = Some b' /\ same b' b) -> chain V' h k C.
Proof.
  induction 1 as [k b l Hk E Hh Hn Hb Hc|k k' b l C Hk E Hh Hn Hb Hc Hch IH]; intros X.
  - destruct (X k b ltac:(lia) E) as (b' & E' & S). pose proof S as (S1 & S2 & S3 & S4 & S5).
    apply (ch_base _ _ k b'); auto; try congruence; [eapply same_has|eapply same_cut]; eauto.
  - destruct (X k b ltac:(lia) E) as (b' & E' & S). pose proof S as (S1 & S2 & S3 & S4 & S5).
    apply (ch_step _ _ k k' b'); auto; try congruence; [eapply same_has|eapply same_cut|]; eauto.
    apply IH. intros j bj Hj. apply X. lia.
Qed.

Lemma chain_head V h k C : chain V h k C -> 0 <= k /\ exists b, V k = Some b /\ wb_topicHash b = h.
Proof. intros H; inversion H; subst; split; eauto; lia. Qed.

(** ** The writer *)
Definition wview (w : winwriter) (k : Z) : option wblock :=
  match afind Z.eqb (ww_blocks w) k with Some s => Some (ws_blk s) | None => readWindowBlock (ww_file w) (4096 * k) end.
Definition fview (f : bytes) (k : Z) : option wblock := readWindowBlock f (4096 * k).

Record xinv (w : winwriter) (n : nat) : Prop := mkX {
  x_nodup : NoDup (map fst (ww_blocks w));
  x_file : fwf (ww_file w) n;
  x_n : Z.of_nat n <= ww_idx w + 1;
  x_idx : -1 <= ww_idx w < 524287;
  x_ok : slots_ok (ww_blocks w);
  x_keys : forall k s, afind Z.eqb (ww_blocks w) k = Some s -> 0 <= k <= ww_idx w;
  x_clean : forall k s, afind Z.eqb (ww_blocks w) k = Some s -> ws_dirty s = false ->
              exists b, fview (ww_file w) k = Some b /\ same b (ws_blk s)
}.

Lemma fview_in f n k : fwf f n -> 0 <= k < Z.of_nat n -> exists b, fview f k = Some b /\ wblock_ok b /\ bread f k = wblock_marshal b.
Proof.
  intros [Hl Hf] Hk. destruct (Hf k Hk) as (b & Hb & E). exists b. split; [|auto].
  eapply read_in; eassumption.
Qed.
Lemma fview_out f n k : fwf f n -> Z.of_nat n <= k -> fview f k = None.
Proof. intros [Hl _] Hk. eapply read_out; eassumption. Qed.

(** The view with block [k] replaced. *)
Definition vo (w : winwriter) (k : Z) (b : wslot) (j : Z) : option wblock := if j =? k then Some (ws_blk b) else wview w j.

Lemma update_take (l : list wentry) i e : (i < length l)%nat -> firstn (S i) (M_Hash.update l i e) = firstn i l ++ [e].
Proof.
  intros H. unfold M_Hash.update. destruct (skipn i l) as [|y r] eqn:E.
  - apply (f_equal (@length _)) in E. rewrite skipn_length in E. cbn [length] in E. lia.
  - rewrite firstn_app, firstn_firstn, firstn_length. replace (Nat.min (S i) i) with i by lia.
    replace (S i - Nat.min i (length l))%nat with 1%nat by lia. reflexivity.
Qed.
Lemma update_forall (P : wentry -> Prop) l i e : Forall P l -> P e -> Forall P (M_Hash.update l i e).
Proof.
  intros H He. unfold M_Hash.update. rewrite <- (firstn_skipn i l) in H. apply Forall_app in H as [H1 H2].
  apply Forall_app. split; [exact H1|]. destruct (skipn i l); [constructor|]. inversion H2; constructor; auto.
Qed.

Lemma went_wentry e : went_ok e -> wentry_ok e.
Proof. intros [H1 H2]. split; [lia|exact H2]. Qed.

(** One entry more in the newest block. *)
Definition put_entry (b : wblock) (e : wentry) : wblock :=
  mkWB (wb_topicHash b) (M_Hash.update (wb_entries b) (N.to_nat (wb_entryIdx b)) e) (wb_next b) (wb_cutoffTime b)
       (u16 (wb_entryIdx b + 1)).

Lemma put_entry_ok b e : wblock_ok b -> went_ok e -> (N.to_nat (wb_entryIdx b) < entriesPerWindowBlock)%nat -> wblock_ok (put_entry b e).
Proof.
  intros (H1 & H2 & H3 & H4 & H5 & H6) He Hi. unfold put_entry.
  split; [exact H1|]. split; [apply update_forall; [exact H2|now apply went_wentry]|].
  split; [cbn [wb_entries]; now rewrite update_length|]. split; [exact H4|]. split; [exact H5|].
  cbn [wb_entryIdx]. unfold u16. apply N.mod_lt. discriminate.
Qed.

Lemma put_entry_has b e t l : wblock_ok b -> blk_has b l -> (length l < entriesPerWindowBlock)%nat ->
  blk_has (put_entry b e) (l ++ [(e, t)]).
Proof.
  intros (_ & _ & H3 & _) (B1 & B2 & B3) Hl. unfold blk_has, put_entry. cbn [wb_entryIdx wb_entries].
  rewrite app_length, B1, Nat2N.id. cbn [length]. split; [|split].
  - unfold u16. rewrite N.mod_small; [lia|]. unfold entriesPerWindowBlock in Hl. change (2 ^ 16)%N with 65536%N. lia.
  - lia.
  - rewrite Nat.add_1_r, update_take by lia. rewrite map_app, B3. reflexivity.
Qed.

Lemma chain_put w k b e t h C : wblock_ok (ws_blk b) -> wb_cutoffTime (ws_blk b) = 0 ->
  chain (vo w k b) h k C -> (wb_entryIdx (ws_blk b) <> N.of_nat entriesPerWindowBlock) ->
  forall b', ws_blk b' = put_entry (ws_blk b) e ->
  (N.to_nat (wb_entryIdx (ws_blk b)) < entriesPerWindowBlock)%nat /\ chain (vo w k b') h k (C ++ [(e, t)]).
Proof.
  intros Hb Hc H Hi b' Eb.
  assert (Hv : forall x, vo w k x k = Some (ws_blk x)) by (intros x; unfold vo; now rewrite Z.eqb_refl).
  inversion H as [k0 b0 l Hk E Hh Hn Hb0 Hc0|k0 k' b0 l C0 Hk E Hh Hn Hb0 Hc0 Hch]; subst.
  - rewrite Hv in E. apply Some_inj in E. subst b0. pose proof Hb0 as (L1 & L2 & _).
    split; [lia|]. apply (ch_base _ _ k (put_entry (ws_blk b) e)); auto.
    + rewrite Hv. now rewrite Eb.
    + apply put_entry_has; auto; lia.
    + intros Hx. exfalso. apply Hx. exact Hc.
  - rewrite Hv in E. apply Some_inj in E. subst b0. pose proof Hb0 as (L1 & L2 & _).
    split; [lia|]. rewrite <- app_assoc. apply (ch_step _ _ k k' (put_entry (ws_blk b) e)); auto.
    + rewrite Hv. now rewrite Eb.
    + apply put_entry_has; auto; lia.
    + intros Hx. exfalso. apply Hx. exact Hc.
    + eapply chain_ext; [exact Hch|]. intros j bj Hj Ej. exists bj. split; [|apply same_refl].
      unfold vo in *. destruct (j =? k) eqn:X; [lia|exact Ej].
Qed.

Definition full_of (b : wblock) (t : Z) : wblock := mkWB (wb_topicHash b) (wb_entries b) (wb_next b) t (wb_entryIdx b).
Definition fresh_of (b : wblock) (k : Z) : wblock :=
  mkWB (wb_topicHash b) (repeat we_zero entriesPerWindowBlock) (winBlockOffset k) 0 0.

Lemma fresh_ok b k : wblock_ok b -> 0 <= k < 524288 -> wblock_ok (fresh_of b k).
Proof.
  intros (H1 & _) Hk. unfold fresh_of. rewrite winBlockOffset_small by lia.
  split; [exact H1|]. cbn [wb_entries wb_next wb_cutoffTime wb_entryIdx]. split; [apply Forall_repeat; split; reflexivity|].
  split; [apply repeat_length|]. change (2 ^ 63) with 9223372036854775808. repeat split; lia.
Qed.

(** A new block behind a full one.  From block 0 nothing is left. *)
Lemma chain_roll w k b h C t k1 w1 b1 : wblock_ok (ws_blk b) -> wb_cutoffTime (ws_blk b) = 0 ->
  chain (vo w k b) h k C -> Forall (fun x : tent => snd x <= t) C -> 0 <= k < k1 -> k < 524288 ->
  (forall j, j <> k -> j <> k1 -> wview w1 j = wview w j) -> wview w1 k = Some (full_of (ws_blk b) t) ->
  ws_blk b1 = fresh_of (ws_blk b) k ->
  chain (vo w1 k1 b1) h k1 (if k =? 0 then [] else C).
Proof.
  intros Hb Hc H Ht Hk Hkk Hv1 Hv2 E1.
  assert (Hv : forall w x k, vo w k x k = Some (ws_blk x)) by (intros w0 x k0; unfold vo; now rewrite Z.eqb_refl).
  assert (Hhead : wb_topicHash (ws_blk b) = h).
  { apply chain_head in H as (_ & bb & E & Hh). rewrite Hv in E. apply Some_inj in E. congruence. }
  assert (Hnx : wb_next (fresh_of (ws_blk b) k) = 4096 * k) by (unfold fresh_of; cbn; apply winBlockOffset_small; lia).
  assert (Hhas : blk_has (fresh_of (ws_blk b) k) []) by (repeat split; cbn; lia).
  destruct (Z.eqb_spec k 0) as [->|Hk0].
  - apply (ch_base _ _ k1 (fresh_of (ws_blk b) 0)); auto; try lia; [rewrite Hv; congruence|].
    intros X. exfalso. now apply X.
  - rewrite <- (app_nil_r C). apply (ch_step _ _ k1 k (fresh_of (ws_blk b) k)); auto; try lia.
    + rewrite Hv. congruence.
    + intros X. exfalso. now apply X.
    + assert (X : forall j, 0 <= j <= k -> vo w1 k1 b1 j = if j =? k then Some (full_of (ws_blk b) t) else vo w k b j).
      { intros j Hj. unfold vo. replace (j =? k1) with false by lia.
        destruct (Z.eqb_spec j k) as [->|]; [exact Hv2|]. apply Hv1; lia. }
      inversion H as [k0 b0 l Hk1 E Hh Hn Hb0 Hc0|k0 k' b0 l C0 Hk1 E Hh Hn Hb0 Hc0 Hch]; subst.
      * rewrite Hv in E. apply Some_inj in E. subst b0.
        apply (ch_base _ _ k (full_of (ws_blk b) t)); auto; try lia.
        { rewrite X, Z.eqb_refl by lia. reflexivity. }
        { intros _. exact Ht. }
      * rewrite Hv in E. apply Some_inj in E. subst b0.
        apply (ch_step _ _ k k' (full_of (ws_blk b) t)); auto; try lia.
        { rewrite X, Z.eqb_refl by lia. reflexivity. }
        { intros _. exact Ht. }
        { eapply chain_ext; [exact Hch|]. intros j bj Hj Ej. exists bj. split; [|apply same_refl].
          rewrite X by lia. replace (j =? k) with false by lia. exact Ej. }
Qed.

Lemma xinv_leases w n l : xinv w n -> xinv (mkWW (ww_file w) (ww_idx w) (ww_blocks w) l (ww_offset w)) n.
Proof. intros [H1 H2 H3 H4 H5 H6 H7]. constructor; assumption. Qed.

Lemma append_loop_ok now h : forall es w k b C n,
  xinv w n -> 0 <= k <= ww_idx w -> ww_idx w + Z.of_nat (length es) < 524287 ->
  wblock_ok (ws_blk b) -> wb_cutoffTime (ws_blk b) = 0 ->
  (ws_dirty b = false -> wb_entryIdx (ws_blk b) = 0%N \/ exists fb, fview (ww_file w) k = Some fb /\ same fb (ws_blk b)) ->
  chain (vo w k b) h k C -> Forall (fun x : tent => snd x <= unix now) C -> Forall went_ok es ->
  - 2 ^ 63 <= unix now < 2 ^ 63 ->
  exists w' k' b', append_loop now w k b es = Some (w', k', b') /\ xinv w' n /\
    ww_file w' = ww_file w /\ ww_offset w' = ww_offset w /\
    ww_idx w <= ww_idx w' <= ww_idx w + Z.of_nat (length es) /\ k <= k' <= ww_idx w' /\ (k' = k \/ ww_idx w < k') /\
    wblock_ok (ws_blk b') /\ wb_cutoffTime (ws_blk b') = 0 /\ (es <> [] -> ws_dirty b' = true) /\
    (exists lost kept, C ++ map (fun e => (e, unix now)) es = lost ++ kept /\
       chain (vo w' k' b') h k' kept /\ (lost = [] \/ k = 0)) /\
    (forall j, j <= ww_idx w -> j <> k -> wview w' j = wview w j) /\
    (exists bb, vo w' k' b' k = Some bb /\ wb_topicHash bb = h).
Proof.
  induction es as [|e es IH]; intros w k b C n X Hk Hsz Hb Hc Hd Hch Ht Hes Hnow; cbn [append_loop].
  - exists w, k, b. split; [reflexivity|]. cbn [length]. split; [exact X|]. do 2 (split; [reflexivity|]). do 2 (split; [lia|]).
    split; [now left|]. split; [exact Hb|]. split; [exact Hc|]. split; [congruence|]. split; [|split; [auto|]].
    + exists [], C. rewrite app_nil_r. auto.
    + now apply chain_head in Hch as (_ & Hch).
  - inversion Hes as [|? ? He Hes']; subst. cbn [length] in Hsz.
    replace (w_seq e =? 0)%N with false by (destruct He; lia).
    (* the writer, the block number and the block the entry goes to *)
    assert (Hst : exists w1 k1 b1,
      (if (wb_entryIdx (ws_blk b) =? N.of_nat entriesPerWindowBlock)%N
       then (mkWW (ww_file w) (i32 (ww_idx w + 1))
               (aset Z.eqb (ww_blocks w) k (mkWS (full_of (ws_blk b) (unix now)) (ws_dirty b) (ws_leased b)))
               (ww_leases w) (ww_offset w), i32 (ww_idx w + 1), mkWS (fresh_of (ws_blk b) k) false false)
       else (w, k, b)) = (w1, k1, b1) /\
      xinv w1 n /\ ww_file w1 = ww_file w /\ ww_offset w1 = ww_offset w /\
      ww_idx w <= ww_idx w1 <= ww_idx w + 1 /\ k <= k1 <= ww_idx w1 /\ (k1 = k \/ ww_idx w < k1) /\
      wblock_ok (ws_blk b1) /\ wb_cutoffTime (ws_blk b1) = 0 /\
      (exists lost kept, C = lost ++ kept /\ chain (vo w1 k1 b1) h k1 kept /\ (lost = [] \/ k = 0 /\ k < k1)) /\
      (forall j, j <= ww_idx w -> j <> k -> wview w1 j = wview w j) /\
      (k1 <> k -> exists bb, wview w1 k = Some bb /\ wb_topicHash bb = h) /\
      wb_entryIdx (ws_blk b1) <> N.of_nat entriesPerWindowBlock).
    { destruct (N.eqb_spec (wb_entryIdx (ws_blk b)) (N.of_nat entriesPerWindowBlock)) as [Ei|Ei].
      2:{ exists w, k, b. split; [reflexivity|]. split; [exact X|]. do 2 (split; [reflexivity|]). do 2 (split; [lia|]). split; [now left|].
          split; [exact Hb|]. split; [exact Hc|]. split; [exists [], C; auto|]. split; [auto|]. split; [congruence|exact Ei]. }
      pose proof X as [X1 X2 X3 X4 X5 X6 X7].
      assert (Ei1 : i32 (ww_idx w + 1) = ww_idx w + 1) by (apply i32_small; change (- 2 ^ 31) with (-2147483648); change (2 ^ 31) with 2147483648; lia).
      rewrite Ei1.
      eexists _, _, _. split; [reflexivity|]. cbn [ww_file ww_offset ww_idx].
      set (w1 := mkWW _ _ _ _ _).
      assert (V1 : forall j, wview w1 j = if j =? k then Some (full_of (ws_blk b) (unix now)) else wview w j).
      { intros j. unfold wview, w1. cbn [ww_blocks ww_file]. rewrite afset. destruct (j =? k); reflexivity. }
      assert (Hfull : wblock_ok (full_of (ws_blk b) (unix now))).
      { destruct Hb as (H1 & H2 & H3 & H4 & H5 & H6). repeat split; auto; cbn; lia. }
      split.
      { constructor; unfold w1; cbn [ww_blocks ww_file ww_idx].
        - now apply aset_nodup.
        - exact X2.
        - lia.
        - lia.
        - now apply slots_ok_set.
        - intros j s. rewrite afset. destruct (Z.eqb_spec j k); [lia|]. intros E. apply X6 in E. lia.
        - intros j s. rewrite afset. destruct (Z.eqb_spec j k) as [->|]; [|apply X7].
          intros E. apply Some_inj in E. subst s. cbn [ws_dirty ws_blk]. intros Hdf.
          destruct (Hd Hdf) as [Hz|(fb & Ef & S)]; [rewrite Hz in Ei; discriminate|].
          exists fb. split; [exact Ef|]. destruct S as (S1 & S2 & S3 & S4 & S5).
          repeat split; auto. right. destruct S5 as [S5|S5]; congruence. }
      split; [reflexivity|]. split; [reflexivity|]. split; [lia|]. split; [lia|]. split; [right; lia|].
      split; [apply fresh_ok; [exact Hb|lia]|]. split; [reflexivity|]. split; [|split; [|split]].
      - exists (if k =? 0 then C else []), (if k =? 0 then [] else C). split; [|split].
        + destruct (k =? 0); [now rewrite app_nil_r|reflexivity].
        + eapply chain_roll; eauto; try lia.
          * intros j Hj _. rewrite V1. now replace (j =? k) with false by lia.
          * rewrite V1, Z.eqb_refl. reflexivity.
        + destruct (Z.eqb_spec k 0); [right; lia|now left].
      - intros j Hj Hjk. rewrite V1. now replace (j =? k) with false by lia.
      - intros _. exists (full_of (ws_blk b) (unix now)). rewrite V1, Z.eqb_refl. split; [reflexivity|].
        apply chain_head in Hch as (_ & bb & E & Hh). unfold vo in E. rewrite Z.eqb_refl in E.
        apply Some_inj in E. cbn. congruence.
      - cbn. unfold entriesPerWindowBlock. lia. }
    destruct Hst as (w1 & k1 & b1 & E & X1 & F1 & O1 & I1 & K1 & KK & Hb1 & Hc1 & (lost & kept & EC & Hch1 & Hl) & Fr & Hh1 & Hne).
    unfold full_of, fresh_of in E. rewrite E. clear E.
    set (w2 := if ws_leased b1 then _ else w1).
    assert (X2 : xinv w2 n) by (unfold w2; destruct (ws_leased b1); [now apply xinv_leases|exact X1]).
    assert (V2 : forall j, wview w2 j = wview w1 j) by (intros j; unfold w2; destruct (ws_leased b1); reflexivity).
    assert (F2 : ww_file w2 = ww_file w1 /\ ww_idx w2 = ww_idx w1 /\ ww_offset w2 = ww_offset w1)
      by (unfold w2; destruct (ws_leased b1); auto).
    destruct F2 as (F2 & I2 & O2).
    set (b2 := mkWS (mkWB _ _ _ _ _) true _).
    assert (Hch2 : chain (vo w2 k1 b1) h k1 kept).
    { eapply chain_ext; [exact Hch1|]. intros j bj _ Ej. exists bj. split; [|apply same_refl].
      unfold vo in *. rewrite V2. exact Ej. }
    destruct (chain_put w2 k1 b1 e (unix now) h kept Hb1 Hc1 Hch2 Hne b2 eq_refl) as [Hlt Hch3].
    replace (Nat.leb entriesPerWindowBlock (N.to_nat (wb_entryIdx (ws_blk b1)))) with false by lia.
    destruct (IH w2 k1 b2 (kept ++ [(e, unix now)]) n) as
      (w' & k' & b' & EL & X' & F' & O' & I' & K' & KK' & Hb' & Hc' & Hd' & (lost' & kept' & EC' & Hch' & Hl') & Fr' & (bb & Hbb & Hhb)).
    { exact X2. } { lia. } { lia. } { now apply put_entry_ok. } { exact Hc1. } { discriminate. } { exact Hch3. }
    { rewrite EC in Ht. apply Forall_app in Ht as [_ Ht]. apply Forall_app. split; [exact Ht|]. constructor; [cbn; lia|constructor]. }
    { exact Hes'. } { exact Hnow. }
    exists w', k', b'. split; [exact EL|]. split; [exact X'|]. split; [congruence|]. split; [congruence|].
    cbn [length]. split; [lia|]. split; [lia|]. split; [lia|]. split; [exact Hb'|]. split; [exact Hc'|].
    split; [|split; [|split]].
    + intros _. destruct es as [|e2 es2]; [|apply Hd'; discriminate].
      cbn [append_loop] in EL. apply Some_inj in EL. injection EL as _ _ <-. reflexivity.
    + exists (lost ++ lost'), kept'. split; [|split; [exact Hch'|]].
      * cbn [map]. rewrite EC, <- !app_assoc. rewrite <- EC', <- app_assoc. reflexivity.
      * destruct Hl as [->|Hl]; [|right; lia]. destruct Hl' as [->|Hl']; [now left|right; lia].
    + intros j Hj Hjk. rewrite Fr' by lia. rewrite V2. now apply Fr.
    + destruct (Z.eq_dec k1 k) as [->|Hkk]; [eauto|].
      destruct (Hh1 Hkk) as (b3 & Eb3 & Hb3). exists b3. split; [|exact Hb3].
      unfold vo. replace (k =? k') with false by lia. rewrite Fr' by lia. now rewrite V2.
Qed.
