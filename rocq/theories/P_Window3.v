(** The window file: histories and lookups. *)
From Verif Require Import M_Bytes P_Bytes M_Hash P_Hash P_Bloom P_Mac M_File P_File P_Index M_BlockRange P_BlockRange
  M_MemDB P_MemBlock M_Query M_BlockStore P_BlockStore M_WinBlock M_Window S_Window P_Window P_Window2.
From Coq Require Import Lia ZifyBool ZifyNat ZifyN.
Open Scope Z_scope.

Definition topic_in (V : Z -> option wblock) (idx : Z) (h : N) (o : Z) (l : list tent) (first : option N) : Prop :=
  exists k lost kept, 0 <= k <= idx /\ o = 4096 * k /\ l = lost ++ kept /\ chain V h k kept /\
    (exists b, V k = Some b /\ wb_cutoffTime b = 0) /\ (lost = [] \/ first = Some h).

Record rinv (w : winwriter) (off : offsets) (H : hist) (first : option N) (T : Z) (n : nat) : Prop := mkR {
  r_x : xinv w n;
  r_T : 0 <= T;
  r_times : forall h, Forall (fun x : tent => 0 <= snd x <= T) (H h);
  r_first0 : first = None -> ww_idx w = -1;
  r_zero : 0 <= ww_idx w -> exists b, wview w 0 = Some b /\ first = Some (wb_topicHash b);
  r_firstH : forall h, first = Some h -> H h <> [];
  r_top : forall h, (H h = [] /\ off h = 0) \/ topic_in (wview w) (ww_idx w) h (off h) (H h) first
}.

Lemma i32_id z : -2147483648 <= z < 2147483648 -> i32 z = z.
Proof. intros Hz. apply i32_small. change (- 2 ^ 31) with (-2147483648). change (2 ^ 31) with 2147483648. exact Hz. Qed.

Lemma rinv_new : rinv (newWindowWriter []) (fun _ => 0) (fun _ => []) None 0 0.
Proof.
  constructor; cbn; try lia; try discriminate; auto.
  constructor; cbn.
  - constructor.
  - split; [reflexivity|]. intros k Hk. lia.
  - lia.
  - lia.
  - intros k s E. discriminate.
  - intros k s E. discriminate.
  - intros k s E. discriminate.
Qed.

Lemma same_sym_head b b' : same b b' -> wb_cutoffTime b' = 0 -> wb_cutoffTime b = 0.
Proof. intros (_ & _ & _ & _ & [E|E]) H; congruence. Qed.

Lemma topic_ext V V' idx idx' h o l first first' : topic_in V idx h o l first -> idx <= idx' ->
  (forall k b, 0 <= k <= idx -> V k = Some b -> exists b', V' k = Some b' /\ same b' b) ->
  (first = Some h -> first' = Some h) -> topic_in V' idx' h o l first'.
Proof.
  intros (k & lost & kept & Hk & Ho & El & Hc & (b & Eb & Hb) & Hl) Hi HV Hf.
  exists k, lost, kept. split; [lia|]. split; [exact Ho|]. split; [exact El|]. split; [|split].
  - eapply chain_ext; [exact Hc|]. intros j bj Hj. apply HV. lia.
  - destruct (HV k b Hk Eb) as (b' & E' & S). exists b'. split; [exact E'|]. eapply same_sym_head; eauto.
  - destruct Hl as [Hl|Hl]; auto.
Qed.

Lemma append_rinv now h w off H first T n es :
  rinv w off H first T n -> (h < 2 ^ 64)%N -> es <> [] -> Forall went_ok es -> T <= unix now < 2 ^ 63 ->
  ww_idx w + Z.of_nat (length es) < 524286 ->
  exists w' o, ww_append now w h (off h) es = AppOk w' o /\
    rinv w' (fset off h o) (fset H h (H h ++ map (fun e => (e, unix now)) es))
         (match first with None => Some h | _ => first end) (unix now) n.
Proof.
  intros R Hh Hne Hes HT Hsz. pose proof R as [X RT RH R0 RZ RF Rt]. pose proof X as [X1 X2 X3 X4 X5 X6 X7].
  assert (Hfl : length es <> 0%nat) by (destruct es; [congruence|cbn; lia]).
  (* the block the loop begins with *)
  assert (Hst : exists idx k b C lost,
    idx = (if off h =? 0 then ww_idx w + 1 else ww_idx w) /\
    (if off h =? 0 then i32 (ww_idx w + 1) else ww_idx w) = idx /\
    (if off h =? 0 then idx else i32 (Z.quot (off h) 4096)) = k /\
    (match afind Z.eqb (ww_blocks w) k with
     | Some b => Some b
     | None => if ((0 <? off h) && (k <=? idx))%bool
               then match readWindowBlock (ww_file w) (off h) with None => None | Some b => Some (mkWS b false true) end
               else Some ws_zero
     end) = Some b /\
    0 <= k <= idx /\ (off h = 0 -> k = ww_idx w + 1 /\ b = ws_zero) /\ (off h <> 0 -> 0 < k /\ wview w k = Some (ws_blk b)) /\
    wblock_ok (ws_blk b) /\ wb_cutoffTime (ws_blk b) = 0 /\
    (ws_dirty b = false -> wb_entryIdx (ws_blk b) = 0%N \/ exists fb, fview (ww_file w) k = Some fb /\ same fb (ws_blk b)) /\
    H h = lost ++ C /\ (lost = [] \/ first = Some h) /\
    (off h <> 0 -> chain (wview w) h k C) /\ (off h = 0 -> C = [])).
  { destruct (Z.eqb_spec (off h) 0) as [Eo|Eo].
    - exists (ww_idx w + 1), (ww_idx w + 1), ws_zero, [], (H h).
      split; [reflexivity|]. split; [apply i32_id; lia|]. split; [reflexivity|]. split.
      { destruct (afind Z.eqb (ww_blocks w) (ww_idx w + 1)) as [s|] eqn:E; [apply X6 in E; lia|].
        rewrite Eo. reflexivity. }
      split; [lia|]. split; [auto|]. split; [lia|]. split; [exact wb_zero_ok|]. split; [reflexivity|].
      split; [intros _; left; reflexivity|]. split; [now rewrite app_nil_r|]. split; [|split; [lia|auto]].
      destruct (Rt h) as [[Hn _]|(k & lost & kept & Hk & Ho & El & Hc & _ & Hl)]; [now left|].
      right. assert (k = 0) by lia. subst k. destruct (RZ ltac:(lia)) as (b & Eb & Ef).
      apply chain_head in Hc as (_ & b' & Eb' & Hb'). congruence.
    - destruct (Rt h) as [[_ Ho]|(k & lost & kept & Hk & Ho & El & Hc & (b0 & Eb0 & Hb0) & Hl)]; [congruence|].
      assert (Ek : i32 (Z.quot (off h) 4096) = k).
      { rewrite Ho, Z.quot_div_nonneg by lia. replace (4096 * k / 4096) with k by lia. apply i32_id; lia. }
      assert (E : exists b, (match afind Z.eqb (ww_blocks w) k with
                 | Some b => Some b
                 | None => if ((0 <? off h) && (k <=? ww_idx w))%bool
                   then match readWindowBlock (ww_file w) (off h) with None => None | Some b => Some (mkWS b false true) end
                   else Some ws_zero end) = Some b /\ ws_blk b = b0 /\ wblock_ok b0 /\
                 (ws_dirty b = false -> exists fb, fview (ww_file w) k = Some fb /\ same fb (ws_blk b))).
      { unfold wview in Eb0. destruct (afind Z.eqb (ww_blocks w) k) as [s|] eqn:Es.
        - apply Some_inj in Eb0. exists s. split; [reflexivity|]. split; [exact Eb0|].
          split; [rewrite <- Eb0; eapply X5, Es|]. intros Hd. eapply X7; eauto.
        - replace ((0 <? off h) && (k <=? ww_idx w))%bool with true by lia.
          rewrite Ho, Eb0. eexists. split; [reflexivity|]. split; [reflexivity|]. split.
          + destruct (Z_lt_le_dec k (Z.of_nat n)) as [Hkn|Hkn].
            * destruct (fview_in _ n k X2 ltac:(lia)) as (b & Eb & Hb & _). unfold fview in Eb. congruence.
            * pose proof (fview_out _ n k X2 ltac:(lia)) as Eb. unfold fview in Eb. congruence.
          + intros _. exists b0. split; [exact Eb0|apply same_refl]. }
      destruct E as (b & Eb & Hbb & Hok & Hd).
      exists (ww_idx w), k, b, kept, lost. rewrite Hbb in *.
      split; [reflexivity|]. split; [reflexivity|]. split; [exact Ek|]. split; [exact Eb|]. split; [lia|]. split; [congruence|].
      split; [intros _; split; [lia|congruence]|]. split; [exact Hok|]. split; [exact Hb0|]. split; [auto|].
      split; [exact El|]. split; [exact Hl|]. split; [auto|congruence]. }
  destruct Hst as (idx & k & b & C & lost & Eidx & E1 & E2 & E3 & Hk & Hz & Hnz & Hb & Hc & Hd & EH & Hlost & Hch & HC0).
  unfold ww_append. rewrite E1, E2. cbn [ww_file ww_idx ww_blocks ww_leases ww_offset]. rewrite E3.
  set (w1 := mkWW _ idx _ _ _). set (b1 := mkWS (mkWB h _ _ _ _) _ _).
  assert (V1 : forall j, wview w1 j = wview w j) by reflexivity.
  assert (X1' : xinv w1 n).
  { constructor; unfold w1; cbn [ww_blocks ww_file ww_idx]; auto.
    - destruct (off h =? 0); lia.
    - destruct (off h =? 0); lia.
    - intros j s Es. apply X6 in Es. destruct (off h =? 0); lia. }
  assert (Hbh : off h <> 0 -> wb_topicHash (ws_blk b) = h).
  { intros Ho. apply chain_head in Hch as (_ & bb & Eb & Hbb); [|exact Ho]. destruct (Hnz Ho) as [_ Ev]. congruence. }
  assert (Hb1 : wblock_ok (ws_blk b1)).
  { destruct Hb as (A1 & A2 & A3 & A4 & A5 & A6). repeat split; auto; cbn [b1 ws_blk wb_entries wb_next wb_cutoffTime wb_entryIdx]; lia. }
  assert (Hch1 : chain (vo w1 k b1) h k C).
  { destruct (Z.eq_dec (off h) 0) as [Ho|Ho].
    - rewrite (HC0 Ho). destruct (Hz Ho) as [Ek ->]. apply (ch_base _ _ k (ws_blk b1)); try reflexivity; try lia.
      + unfold vo. now rewrite Z.eqb_refl.
      + repeat split; cbn; lia.
      + intros X0. exfalso. now apply X0.
    - eapply chain_ext; [exact (Hch Ho)|]. intros j bj Hj Ej. exists bj. split; [|apply same_refl].
      unfold vo. destruct (Z.eqb_spec j k) as [->|]; [|exact Ej]. destruct (Hnz Ho) as [_ Ev].
      rewrite Ev in Ej. apply Some_inj in Ej. rewrite <- Ej. f_equal. unfold b1. cbn [ws_blk].
      rewrite <- (Hbh Ho). now destruct (ws_blk b). }
  assert (HCT : Forall (fun x : tent => snd x <= unix now) C).
  { specialize (RH h). rewrite EH in RH. apply Forall_app in RH as [_ RH].
    eapply Forall_impl; [|exact RH]. intros x Hx. cbv beta in Hx. lia. }
  destruct (append_loop_ok now h es w1 k b1 C n) as
    (w' & k' & b' & EL & X' & F' & O' & I' & K' & KK' & Hb' & Hc' & Hd' & (lost' & kept' & EC' & Hch' & Hl') & Fr' & (bb & Hbb & Hhb)); auto.
  { unfold w1; cbn [ww_idx]. destruct (off h =? 0); lia. }
  { unfold b1. cbn [ws_blk ws_dirty wb_entryIdx]. intros Hdf. destruct (Hd Hdf) as [Hd0|(fb & Ef & S)]; [now left|].
    right. exists fb. split; [exact Ef|]. destruct (Z.eq_dec (off h) 0) as [Ho|Ho].
    - destruct (Hz Ho) as [Ek _]. pose proof (fview_out _ n k X2 ltac:(lia)). congruence.
    - destruct S as (S1 & S2 & S3 & S4 & S5). repeat split; auto. cbn. rewrite S1. now apply Hbh. }
  { change (2 ^ 63) with 9223372036854775808 in *. lia. }
  rewrite EL.
  set (w2 := mkWW _ _ _ _ _). eexists w2, _. split; [reflexivity|].
  assert (V2 : forall j, wview w2 j = vo w' k' b' j).
  { intros j. unfold wview, vo, w2. cbn [ww_blocks ww_file]. rewrite afset. destruct (j =? k'); reflexivity. }
  assert (Ik : ww_idx w1 = idx) by reflexivity.
  assert (Hge : ww_idx w <= idx) by (destruct (off h =? 0); lia).
  assert (X2' : xinv w2 n).
  { pose proof X' as [Y1 Y2 Y3 Y4 Y5 Y6 Y7]. constructor; unfold w2; cbn [ww_blocks ww_file ww_idx]; auto.
    - now apply aset_nodup.
    - now apply slots_ok_set.
    - intros j s. rewrite afset. destruct (Z.eqb_spec j k'); [lia|apply Y6].
    - intros j s. rewrite afset. destruct (Z.eqb_spec j k') as [->|]; [|apply Y7].
      intros E Hf. apply Some_inj in E. subst s. rewrite Hd' in Hf by exact Hne. discriminate. }
  assert (Hidx2 : ww_idx w2 = ww_idx w') by reflexivity.
  assert (Hframe : forall j, j <= ww_idx w -> (off h <> 0 -> j <> k) -> wview w2 j = wview w j).
  { intros j Hj Hjk. rewrite V2. unfold vo.
    assert (j <> k).
    { destruct (Z.eq_dec (off h) 0) as [Ho|Ho]; [|auto]. destruct (Hz Ho); lia. }
    assert (idx >= ww_idx w) by (destruct (off h =? 0); lia).
    replace (j =? k') with false by lia. rewrite Fr' by lia. apply V1. }
  constructor; rewrite ?Hidx2.
  - exact X2'.
  - lia.
  - intros h2. unfold fset. destruct (N.eqb_spec h2 h) as [->|].
    + apply Forall_app. split; [eapply Forall_impl; [|apply RH]; intros x Hx; cbv beta in *; lia|].
      apply Forall_forall. intros x Hx. apply in_map_iff in Hx as (e & <- & _). cbn. lia.
    + eapply Forall_impl; [|apply RH]. intros x Hx; cbv beta in *; lia.
  - destruct first; discriminate.
  - intros _. destruct first as [h0|].
    + assert (0 <= ww_idx w).
      { destruct (Z_lt_le_dec (ww_idx w) 0) as [Hneg|]; [|assumption]. exfalso.
        pose proof (RF h0 eq_refl) as Hn0. destruct (Rt h0) as [[A _]|(k0 & ? & ? & Hk0 & _)]; [congruence|lia]. }
      destruct (RZ ltac:(lia)) as (b0 & Eb0 & Ef). exists b0. split; [|exact Ef].
      rewrite Hframe; [exact Eb0|lia|]. intros Ho. destruct (Hnz Ho). lia.
    + assert (Hi : ww_idx w = -1) by auto. destruct (Z.eq_dec (off h) 0) as [Ho|Ho].
      * destruct (Hz Ho) as [Ek _]. replace k with 0 in * by lia. exists bb. rewrite V2. split; [exact Hbb|congruence].
      * destruct (Hnz Ho). rewrite <- Z.eqb_neq in Ho. rewrite Ho in Eidx. lia.
  - intros h0 Ef. unfold fset. destruct (N.eqb_spec h0 h) as [->|Hn0].
    + intros E. apply app_eq_nil in E as [_ E]. apply map_eq_nil in E. contradiction.
    + apply RF. destruct first; congruence.
  - intros h0. unfold fset. destruct (N.eqb_spec h0 h) as [->|Hn0].
    + right. exists k', (lost ++ lost'), kept'. assert (Hk'b : 0 <= k' < 524288) by (pose proof (x_idx _ _ X'); lia).
      split; [lia|]. split; [apply winBlockOffset_small; lia|]. split.
      { rewrite EH, <- !app_assoc. f_equal. exact EC'. }
      split; [|split].
      * eapply chain_ext; [exact Hch'|]. intros j bj _ Ej. exists bj. split; [|apply same_refl]. now rewrite V2.
      * exists (ws_blk b'). rewrite V2. split; [|exact Hc']. unfold vo. now rewrite Z.eqb_refl.
      * destruct (Z.eq_dec k 0) as [->|Hk0].
        -- right. destruct (Z.eq_dec (off h) 0) as [Ho|Ho]; [|destruct (Hnz Ho); lia].
           destruct (Hz Ho) as [Ek _]. assert (ww_idx w = -1) by lia.
           destruct first as [hf|]; [|reflexivity]. exfalso.
           pose proof (RF hf eq_refl) as Hn0. destruct (Rt hf) as [[A _]|(k0 & ? & ? & Hk0 & _)]; [congruence|lia].
        -- destruct Hl' as [->|Hl']; [|lia]. rewrite app_nil_r.
           destruct Hlost as [->|Hf]; [now left|]. right. now rewrite Hf.
    + destruct (Rt h0) as [A|A]; [now left|]. right.
      destruct A as (k0 & l0 & kp0 & Hk0 & Ho0 & El0 & Hch0 & (b0 & Eb0 & Hb0) & Hl0).
      assert (Hdis : forall j bj C0, chain (wview w) h0 j C0 -> wview w j = Some bj -> off h <> 0 -> j <> k).
      { intros j bj C0 Hj Ej Ho ->. apply chain_head in Hj as (_ & b2 & E2' & H2').
        specialize (Hch Ho). apply chain_head in Hch as (_ & b3 & E3' & H3'). congruence. }
      assert (Hview : forall j C0, chain (wview w) h0 j C0 -> j <= ww_idx w -> chain (wview w2) h0 j C0).
      { intros j C0 Hj. induction Hj as [j bj l Hj0 Ej Hhj Hnj Hbj Hcj|j j' bj l C0 Hj0 Ej Hhj Hnj Hbj Hcj Hcc IH]; intros Hle.
        - apply (ch_base _ _ j bj); auto. rewrite Hframe; [exact Ej|exact Hle|].
          intros Ho. apply (Hdis j bj l); auto. apply (ch_base _ _ j bj); auto.
        - apply (ch_step _ _ j j' bj); auto; [|apply IH; lia]. rewrite Hframe; [exact Ej|exact Hle|].
          intros Ho. apply (Hdis j bj (C0 ++ l)); auto. apply (ch_step _ _ j j' bj); auto. }
      exists k0, l0, kp0. split; [lia|]. split; [exact Ho0|]. split; [exact El0|]. split; [apply Hview; [exact Hch0|lia]|].
      split.
      * exists b0. split; [|exact Hb0]. rewrite Hframe; [exact Eb0|lia|]. intros Ho. eapply Hdis; eauto.
      * destruct Hl0 as [Hl0|Hl0]; [now left|]. right. now rewrite Hl0.
Qed.

(** Writing. *)
Lemma write_rinv w off H first T n : rinv w off H first T n ->
  exists w' n', ww_write w = Some w' /\ rinv (ww_reset w') off H first T n' /\
    (ww_idx w < 524286 -> rinv (newWindowWriter (ww_file w')) off H first T n') /\
    fwf (ww_file w') n' /\
    (forall k b, 0 <= k -> wview w k = Some b -> exists b', fview (ww_file w') k = Some b' /\ same b' b).
Proof.
  intros R. pose proof R as [X RT RH R0 RZ RF Rt]. pose proof X as [X1 X2 X3 X4 X5 X6 X7].
  destruct (ww_write_effect w n X1 X5 X2) as (w' & n' & E & I1 & I2 & I3 & D' & F' & N' & K' & M' & B' & R').
  { intros k s Es. apply X6 in Es. lia. }
  exists w', n'. split; [exact E|].
  assert (Hn' : Z.of_nat n' <= ww_idx w + 1).
  { assert (n' <= Z.to_nat (ww_idx w + 1))%nat; [|lia]. apply M'; [lia|].
    intros k (s & Es & _). apply X6 in Es. lia. }
  assert (Hsl : slots_ok (ww_blocks w')).
  { intros k s Es. rewrite B' in Es. destruct (afind Z.eqb (ww_blocks w) k) as [s0|] eqn:E0; [|discriminate].
    cbn in Es. apply Some_inj in Es. subst s. apply (X5 k s0 E0). }
  assert (Hmap : forall k s, afind Z.eqb (ww_blocks w) k = Some s ->
            exists b, fview (ww_file w') k = Some b /\ same b (ws_blk s)).
  { intros k s Es. pose proof (X6 k s Es) as Hk. destruct (ws_dirty s) eqn:Ed.
    - assert (Hd : dirtyw w k) by (exists s; auto). exists (ws_blk s). split; [|apply same_refl].
      apply (read_in _ n'); [apply F'|specialize (K' k Hd); lia|eapply X5, Es|].
      destruct (R' k ltac:(lia)) as [Rd _]. rewrite (Rd Hd). unfold ww_block. now rewrite Es.
    - destruct (X7 k s Es Ed) as (b & Eb & S). exists b. split; [|exact S].
      destruct (Z_lt_le_dec k (Z.of_nat n)) as [Hkn|Hkn]; [|rewrite (fview_out _ n k X2 Hkn) in Eb; discriminate].
      destruct (fview_in _ n k X2 ltac:(lia)) as (b2 & Eb2 & Hb2 & Hrd). rewrite Eb in Eb2. apply Some_inj in Eb2. subst b2.
      apply (read_in _ n'); [apply F'|lia|exact Hb2|].
      destruct (R' k ltac:(lia)) as [_ Rd]. rewrite Rd; [exact Hrd|]. intros (s2 & Es2 & Hd2). congruence. }
  assert (Hfile : forall k b, 0 <= k -> wview w k = Some b -> exists b', fview (ww_file w') k = Some b' /\ same b' b).
  { intros k b Hk. unfold wview. destruct (afind Z.eqb (ww_blocks w) k) as [s|] eqn:Es.
    - intros Eb. apply Some_inj in Eb. subst b. now apply Hmap.
    - intros Eb. fold (fview (ww_file w) k) in Eb. exists b. split; [|apply same_refl].
      destruct (Z_lt_le_dec k (Z.of_nat n)) as [Hkn|Hkn]; [|rewrite (fview_out _ n k X2 Hkn) in Eb; discriminate].
      destruct (fview_in _ n k X2 ltac:(lia)) as (b2 & Eb2 & Hb2 & Hrd). rewrite Eb in Eb2. apply Some_inj in Eb2. subst b2.
      apply (read_in _ n'); [apply F'|lia|exact Hb2|].
      destruct (R' k ltac:(lia)) as [_ Rd]. rewrite Rd; [exact Hrd|]. intros (s2 & Es2 & Hd2). congruence. }
  assert (Hview : forall k b, 0 <= k -> wview w k = Some b -> exists b', wview w' k = Some b' /\ same b' b).
  { intros k b Hk Eb. unfold wview. rewrite B'. unfold wview in Eb. destruct (afind Z.eqb (ww_blocks w) k) as [s|] eqn:Es.
    - cbn [option_map]. exists b. split; [exact Eb|apply same_refl].
    - apply Hfile; [exact Hk|]. unfold wview. now rewrite Es. }
  split; [|split; [|split; [exact F'|exact Hfile]]].
  - constructor; auto.
    + unfold ww_reset. constructor; cbn [ww_blocks ww_file ww_idx]; rewrite ?I1; auto.
      * intros k s. rewrite B'. destruct (afind Z.eqb (ww_blocks w) k) as [s0|] eqn:E0; [|discriminate].
        intros _. eapply X6, E0.
      * intros k s. rewrite B'. destruct (afind Z.eqb (ww_blocks w) k) as [s0|] eqn:E0; [|discriminate].
        intros Es _. cbn in Es. apply Some_inj in Es. subst s. unfold clean; cbn [ws_blk]. now apply Hmap.
    + intros Ef. cbn. rewrite I1. auto.
    + cbn [ww_reset ww_idx]. rewrite I1. intros Hi. destruct (RZ Hi) as (b & Eb & Ef).
      destruct (Hview 0 b ltac:(lia) Eb) as (b' & Eb' & S). exists b'. split; [exact Eb'|]. destruct S as [S _]. congruence.
    + intros h. destruct (Rt h) as [A|A]; [now left|right].
      eapply topic_ext; [exact A| | |auto]; [cbn; lia|]. intros k b Hk. apply Hview. lia.
  - intros Hsz. 
    assert (Hlen : fsize (ww_file w') = 4096 * Z.of_nat n') by (unfold fsize; destruct F' as [F' _]; unfold blockBytes in F'; lia).
    assert (Hi : ww_idx (newWindowWriter (ww_file w')) = if (0 <? Z.of_nat n') then Z.of_nat n' else -1).
    { unfold newWindowWriter. cbn [ww_idx]. rewrite Hlen. replace (0 <? 4096 * Z.of_nat n') with (0 <? Z.of_nat n') by lia.
      destruct (0 <? Z.of_nat n'); [|reflexivity]. replace (4096 * Z.of_nat n' / 4096) with (Z.of_nat n') by lia.
      apply i32_id. lia. }
    assert (Hpos : forall k b, 0 <= k -> wview w k = Some b -> k < Z.of_nat n').
    { intros k b Hk Eb. destruct (Hfile k b Hk Eb) as (b' & Eb' & _).
      destruct (Z_lt_le_dec k (Z.of_nat n')) as [|Hkn]; [assumption|]. rewrite (fview_out _ n' k F' Hkn) in Eb'. discriminate. }
    constructor; auto.
    + constructor; rewrite ?Hi; cbn [newWindowWriter ww_blocks ww_file]; auto.
      * constructor.
      * destruct (Z.ltb_spec 0 (Z.of_nat n')); lia.
      * destruct (Z.ltb_spec 0 (Z.of_nat n')); lia.
      * intros k s Es. discriminate.
      * intros k s Es. discriminate.
      * intros k s Es. discriminate.
    + intros Ef. rewrite Hi. specialize (R0 Ef). replace n' with 0%nat by lia. reflexivity.
    + rewrite Hi. destruct (Z.ltb_spec 0 (Z.of_nat n')); [|lia]. intros _.
      destruct (RZ ltac:(lia)) as (b & Eb & Ef).
      destruct (Hfile 0 b ltac:(lia) Eb) as (b' & Eb' & S). exists b'. split; [exact Eb'|]. destruct S as [S _]. congruence.
    + intros h. destruct (Rt h) as [A|A]; [now left|right].
      destruct A as (k & lost & kept & Hk & Ho & El & Hc & (b & Eb & Hb) & Hl).
      pose proof (Hpos k b ltac:(lia) Eb) as Hkn.
      exists k, lost, kept. rewrite Hi. destruct (Z.ltb_spec 0 (Z.of_nat n')); [|lia].
      split; [lia|]. split; [exact Ho|]. split; [exact El|]. split; [|split; [|exact Hl]].
      * eapply chain_ext; [exact Hc|]. intros j bj Hj Ej. apply (Hfile j bj); [lia|exact Ej].
      * destruct (Hfile k b ltac:(lia) Eb) as (b' & E' & S). exists b'. split; [exact E'|]. eapply same_sym_head; eauto.
Qed.

Lemma run_rinv w off H first T : win_run w off H first T -> exists n, rinv w off H first T n.
Proof.
  induction 1 as [|w off H first T now h es w' o _ [n R] Hh Hne Hes HT Hsz E|w off H first T w' _ [n R] E|w off H first T w' _ [n R] E Hsz].
  - exists 0%nat. exact rinv_new.
  - destruct (append_rinv now h w off H first T n es R Hh Hne Hes HT Hsz) as (w2 & o2 & E2 & R2).
    rewrite E in E2. injection E2 as -> ->. eauto.
  - destruct (write_rinv _ _ _ _ _ _ R) as (w2 & n2 & E2 & R2 & _). assert (w2 = w') by congruence. subst. eauto.
  - destruct (write_rinv _ _ _ _ _ _ R) as (w2 & n2 & E2 & _ & R2 & _). assert (w2 = w') by congruence. subst. eauto.
Qed.
