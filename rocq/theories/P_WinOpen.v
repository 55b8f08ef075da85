(** The window file: what an Open finds in it. *)
From Verif Require Import M_Bytes P_Bytes M_Hash P_Hash P_Bloom P_Mac M_File P_File P_Index M_BlockRange P_BlockRange
  M_MemDB P_MemBlock M_Query M_BlockStore P_BlockStore M_WinBlock M_Window S_Window P_Window P_Window2 P_Window3 P_Window4.
From Coq Require Import Lia ZifyBool ZifyNat ZifyN Permutation.
Open Scope Z_scope.

Definition seq0 (b : wblock) : N := w_seq (nth 0 (wb_entries b) we_zero).
Definition lowest (l : list tent) (q : N) : Prop := forall x, In x l -> (q <= w_seq (fst x))%N.
Definition short (l : list tent) : Prop := (length l <= entriesPerWindowBlock)%nat.

(** Topics of no more than one block: the first topic of all is found at the
    block 0, which holds its oldest message, the others at their only block. *)
Record owin (V : Z -> option wblock) (off : offsets) (H : hist) (first : option N) : Prop := {
  ow_blk : forall j b, 0 <= j -> V j = Some b -> wb_entryIdx b <> 0%N -> short (H (wb_topicHash b)) ->
    wb_next b = 0 /\ (exists x, In x (H (wb_topicHash b)) /\ w_seq (fst x) = seq0 b) /\
    (first <> Some (wb_topicHash b) -> off (wb_topicHash b) = 4096 * j /\ lowest (H (wb_topicHash b)) (seq0 b)) /\
    (first = Some (wb_topicHash b) -> if j =? 0 then lowest (H (wb_topicHash b)) (seq0 b)
       else exists x, In x (H (wb_topicHash b)) /\ (w_seq (fst x) < seq0 b)%N);
  ow_some : forall h, H h <> [] -> short (H h) -> exists j b, 0 <= j /\ V j = Some b /\ wb_topicHash b = h /\ wb_entryIdx b <> 0%N /\
    (first = Some h -> j = 0 /\ exists lost kept, Permutation (H h) (lost ++ kept) /\ blk_has b kept /\ wb_cutoffTime b = 0);
  ow_cur : forall h k, off h = 4096 * k -> 0 < k -> short (H h) ->
    exists b, V k = Some b /\ wb_topicHash b = h /\ wb_entryIdx b <> 0%N
}.

Lemma same_seq0 b b' : same b b' -> seq0 b = seq0 b'.
Proof. intros (_ & E & _). unfold seq0. now rewrite E. Qed.

Lemma owin_ext V V' off H first : owin V off H first ->
  (forall j b, 0 <= j -> V j = Some b -> exists b', V' j = Some b' /\ same b' b) ->
  (forall j b', 0 <= j -> V' j = Some b' -> wb_entryIdx b' <> 0%N -> exists b, V j = Some b /\ same b' b) ->
  owin V' off H first.
Proof.
  intros [O1 O2 O3] Hf Hb. constructor.
  - intros j b' Hj Ej Hi Hs. destruct (Hb j b' Hj Ej Hi) as (b & Eb & S). pose proof S as (S1 & S2 & S3 & S4 & S5).
    rewrite S1 in *. rewrite S4 in Hi. rewrite S3, (same_seq0 _ _ S). now apply O1.
  - intros h Hh Hs. destruct (O2 h Hh Hs) as (j & b & Hj & Ej & Eh & Hi & Hx). destruct (Hf j b Hj Ej) as (b' & Eb' & S). pose proof S as (S1 & S2 & S3 & S4 & S5).
    exists j, b'. split; [exact Hj|]. split; [exact Eb'|]. split; [congruence|]. split; [congruence|]. intros Ef.
    destruct (Hx Ef) as (Ej0 & lost & kept & Hp & Hb0 & Hc). split; [exact Ej0|]. exists lost, kept. split; [exact Hp|]. split; [eapply same_has; eassumption|].
    eapply same_sym_head; eassumption.
  - intros h k Eo Hn Hs. destruct (O3 h k Eo Hn Hs) as (b & Eb & Eh & Hi).
    destruct (Hf k b ltac:(lia) Eb) as (b' & Eb' & S). pose proof S as (S1 & S2 & S3 & S4 & S5). exists b'. split; [exact Eb'|]. split; congruence.
Qed.

Lemma owin_new V : (forall j, 0 <= j -> V j = None) -> owin V (fun _ => 0) (fun _ => []) None.
Proof.
  intros HV. constructor.
  - intros j b Hj E. rewrite HV in E by exact Hj. discriminate.
  - intros h Hh. contradiction.
  - intros h k E Hk. lia.
Qed.

(** ** The loop *)
Lemma has_seq0 b l e t r : blk_has b l -> l = (e, t) :: r -> seq0 b = w_seq e.
Proof.
  intros (_ & _ & E) ->. cbn [length map fst firstn] in E. unfold seq0. destruct (wb_entries b); [discriminate|]. cbn [nth]. congruence.
Qed.
Lemma has_idx b l : blk_has b l -> (wb_entryIdx b <> 0%N <-> l <> []).
Proof. intros (E & _). destruct l; cbn [length] in E; split; try congruence; intros; lia. Qed.

Lemma loop_short now : forall es w k b l, wblock_ok (ws_blk b) -> blk_has (ws_blk b) l ->
  (length l + length es <= entriesPerWindowBlock)%nat -> Forall went_ok es ->
  exists w' b', append_loop now w k b es = Some (w', k, b') /\ ww_file w' = ww_file w /\ ww_idx w' = ww_idx w /\ ww_blocks w' = ww_blocks w /\
    blk_has (ws_blk b') (l ++ map (fun e => (e, unix now)) es) /\ wb_topicHash (ws_blk b') = wb_topicHash (ws_blk b) /\
    wb_next (ws_blk b') = wb_next (ws_blk b) /\ wb_cutoffTime (ws_blk b') = wb_cutoffTime (ws_blk b).
Proof.
  induction es as [|e es IH]; intros w k b l Hok Hb Hl Hes; cbn [append_loop].
  - exists w, b. cbn [map]. rewrite app_nil_r. repeat (split; [reflexivity|]). split; [exact Hb|]. auto.
  - inversion Hes as [|? ? He Hes']; subst. replace (w_seq e =? 0)%N with false by (destruct He; lia).
    pose proof Hb as (Hb1 & Hb2 & Hb3). cbn [length] in Hl.
    replace (wb_entryIdx (ws_blk b) =? N.of_nat entriesPerWindowBlock)%N with false by (symmetry; apply N.eqb_neq; lia).
    set (w1 := if ws_leased b then _ else w).
    replace (Nat.leb entriesPerWindowBlock (N.to_nat (wb_entryIdx (ws_blk b)))) with false by (symmetry; apply Nat.leb_gt; lia).
    set (b1 := mkWS _ true _).
    destruct (IH w1 k b1 (l ++ [(e, unix now)])) as (w' & b' & E & F1 & F2 & F3 & F4 & F5 & F6 & F7).
    + apply put_entry_ok; auto; lia.
    + apply (put_entry_has (ws_blk b) e (unix now) l); auto; lia.
    + rewrite app_length. cbn [length]. lia.
    + exact Hes'.
    + exists w', b'. split; [exact E|]. assert (G : ww_file w1 = ww_file w /\ ww_idx w1 = ww_idx w /\ ww_blocks w1 = ww_blocks w) by (unfold w1; destruct (ws_leased b); auto).
      destruct G as (G1 & G2 & G3). split; [congruence|]. split; [congruence|]. split; [congruence|]. split; [|auto].
      cbn [map]. rewrite <- app_assoc in F4. exact F4.
Qed.

Lemma loop_view now : forall es w k b w' k' b', append_loop now w k b es = Some (w', k', b') ->
  -1 <= ww_idx w -> ww_idx w + Z.of_nat (length es) < 524287 -> k <= ww_idx w ->
  ww_file w' = ww_file w /\ wb_topicHash (ws_blk b') = wb_topicHash (ws_blk b) /\ (k' = k \/ ww_idx w < k') /\ ww_idx w <= ww_idx w' /\
  (forall j, j <> k -> j <= ww_idx w -> afind Z.eqb (ww_blocks w') j = afind Z.eqb (ww_blocks w) j) /\
  (forall j s, afind Z.eqb (ww_blocks w') j = Some s -> afind Z.eqb (ww_blocks w) j = Some s \/ wb_topicHash (ws_blk s) = wb_topicHash (ws_blk b)) /\
  (forall j, afind Z.eqb (ww_blocks w') j = None -> afind Z.eqb (ww_blocks w) j = None).
Proof.
  induction es as [|e es IH]; intros w k b w' k' b' E Hi Hl Hk; cbn [append_loop] in E.
  - apply Some_inj in E. injection E as <- <- <-. split; [reflexivity|]. split; [reflexivity|]. split; [now left|]. split; [lia|]. split; [auto|]. split; auto.
  - cbn [length] in Hl. destruct (w_seq e =? 0)%N.
    { apply IH in E; [exact E|exact Hi|lia|exact Hk]. }
    destruct (wb_entryIdx (ws_blk b) =? N.of_nat entriesPerWindowBlock)%N.
    + rewrite (i32_id (ww_idx w + 1)) in E by lia. cbn [ws_leased ws_blk wb_entryIdx wb_topicHash wb_entries wb_next wb_cutoffTime] in E.
      change (Nat.leb entriesPerWindowBlock (N.to_nat 0)) with false in E. cbv iota in E.
      apply IH in E; cbn [ww_idx ww_file ww_blocks ws_blk wb_topicHash] in *; try lia.
      destruct E as (E1 & E2 & E3 & E4 & E5 & E6 & E7). split; [exact E1|]. split; [exact E2|]. split; [lia|]. split; [lia|]. split; [|split].
      * intros j Hj Hj2. rewrite E5 by lia. rewrite afset. now replace (j =? k) with false by lia.
      * intros j s Es. destruct (E6 j s Es) as [Es'|Es']; [|now right]. rewrite afset in Es'. destruct (j =? k); [|now left].
        apply Some_inj in Es'. subst s. now right.
      * intros j Ej. apply E7 in Ej. rewrite afset in Ej. destruct (j =? k); [discriminate|exact Ej].
    + destruct (Nat.leb _ _); [discriminate|]. destruct (ws_leased b);
        apply IH in E; cbn [ww_idx ww_file ww_blocks ws_blk wb_topicHash] in *; try lia; exact E.
Qed.

(** ** Appending *)
Lemma view_none w n j : xinv w n -> ww_idx w < j -> wview w j = None.
Proof.
  intros [X1 X2 X3 X4 X5 X6 X7] Hj. unfold wview. destruct (afind Z.eqb (ww_blocks w) j) as [s|] eqn:E; [apply X6 in E; lia|].
  apply (fview_out _ n j X2). lia.
Qed.

Lemma chain_last V h k C : chain V h k C -> exists b l, V k = Some b /\ wb_topicHash b = h /\ blk_has b l /\ incl l C /\ (length l <= length C)%nat.
Proof.
  intros Hc. inversion Hc; subst; eexists _, _; (split; [eassumption|]); (split; [reflexivity|]); (split; [eassumption|]).
  - split; [intros x Hx; exact Hx|lia].
  - split; [intros x Hx; apply in_app_iff; now right|rewrite app_length; lia].
Qed.

Definition at_idx (w : winwriter) (idx : Z) : winwriter := mkWW (ww_file w) idx (ww_blocks w) (ww_leases w) (ww_offset w).
Lemma append_start now w off H first T n h es w' o : rinv w off H first T n -> (h < 2 ^ 64)%N -> ww_idx w + Z.of_nat (length es) < 524286 ->
  ww_append now w h (off h) es = AppOk w' o ->
  exists idx k b w1 k1 b1, append_loop now (at_idx w idx) k b es = Some (w1, k1, b1) /\
    w' = mkWW (ww_file w1) (ww_idx w1) (aset Z.eqb (ww_blocks w1) k1 b1) (ww_leases w1) (ww_offset w1) /\
    o = winBlockOffset k1 /\ wblock_ok (ws_blk b) /\ wb_topicHash (ws_blk b) = h /\ ww_idx w <= idx <= ww_idx w + 1 /\ 0 <= k <= idx /\ k < 524288 /\
    ((off h = 0 /\ k = ww_idx w + 1 /\ blk_has (ws_blk b) [] /\ wb_next (ws_blk b) = 0 /\ wb_cutoffTime (ws_blk b) = 0) \/
     (off h = 4096 * k /\ 0 < k <= ww_idx w /\ wview w k = Some (ws_blk b) /\ exists l, blk_has (ws_blk b) l /\ incl l (H h) /\ (length l <= length (H h))%nat)).
Proof.
  intros R Hh Hsz E. pose proof R as [X RT RH R0 RZ RF Rt]. pose proof X as [X1 X2 X3 X4 X5 X6 X7].
  unfold ww_append in E. destruct (Z.eqb_spec (off h) 0) as [Eo|Eo].
  - rewrite (i32_id (ww_idx w + 1)) in E by lia. cbn [ww_blocks ww_file ww_idx] in E.
    destruct (afind Z.eqb (ww_blocks w) (ww_idx w + 1)) as [s|] eqn:Ea; [apply X6 in Ea; lia|].
    rewrite Eo in E. change (0 <? 0) with false in E. cbn [andb] in E. cbv iota zeta in E.
    cbn [ws_zero ws_blk ws_dirty ws_leased wb_zero wb_entries wb_next wb_cutoffTime wb_entryIdx] in E.
    set (b := mkWS (mkWB h (repeat we_zero entriesPerWindowBlock) 0 0 0) false false) in E.
    destruct (append_loop _ _ _ _ _) as [[[w1 k1] b1]|] eqn:El; [|discriminate]. injection E as <- <-.
    exists (ww_idx w + 1), (ww_idx w + 1), b, w1, k1, b1. split; [exact El|]. split; [reflexivity|]. split; [reflexivity|]. split; [|split; [reflexivity|split; [lia|split; [lia|split; [lia|]]]]].
    + destruct wb_zero_ok as (A1 & A2 & A3 & A4 & A5 & A6). repeat split; auto; cbn [b ws_blk wb_entries wb_next wb_cutoffTime wb_entryIdx wb_topicHash]; lia.
    + left. split; [exact Eo|]. split; [reflexivity|]. split; [repeat split; cbn; lia|]. split; reflexivity.
  - destruct (Rt h) as [[_ Ho]|(k & lost & kept & Hk & Ho & EH & Hc & (b0 & Eb0 & Hb0) & Hl)]; [congruence|].
    assert (Ek : i32 (Z.quot (off h) 4096) = k).
    { rewrite Ho, Z.quot_div_nonneg by lia. replace (4096 * k / 4096) with k by lia. apply i32_id; lia. }
    rewrite Ek in E. cbn [ww_blocks ww_file ww_idx] in E.
    destruct (chain_last _ _ _ _ Hc) as (b2 & l & Eb2 & Hh2 & Hl2 & Hin & Hlen). assert (b2 = b0) as -> by congruence.
    assert (Hok : wblock_ok b0).
    { unfold wview in Eb0. destruct (afind Z.eqb (ww_blocks w) k) as [s|] eqn:Es; [apply Some_inj in Eb0; subst b0; eapply X5, Es|].
      destruct (Z_lt_le_dec k (Z.of_nat n)) as [Hkn|Hkn].
      - destruct (fview_in _ n k X2 ltac:(lia)) as (b & Eb & Hb & _). unfold fview in Eb. congruence.
      - pose proof (fview_out _ n k X2 ltac:(lia)) as Eb. unfold fview in Eb. congruence. }
    assert (Eld : exists s, match afind Z.eqb (ww_blocks w) k with
                | Some b => Some b
                | None => if ((0 <? off h) && (k <=? ww_idx w))%bool
                          then match readWindowBlock (ww_file w) (off h) with None => None | Some b => Some (mkWS b false true) end
                          else Some ws_zero end = Some s /\ ws_blk s = b0).
    { unfold wview in Eb0. destruct (afind Z.eqb (ww_blocks w) k) as [s|] eqn:Es; [apply Some_inj in Eb0; eauto|].
      replace ((0 <? off h) && (k <=? ww_idx w))%bool with true by lia. rewrite Ho, Eb0. eauto. }
    destruct Eld as (s & Es & Ebs). rewrite Es in E. cbv zeta in E.
    set (b := mkWS _ (ws_dirty s) (ws_leased s)) in E.
    assert (Eb : ws_blk b = b0) by (unfold b; cbn [ws_blk]; rewrite Ebs, <- Hh2; now destruct b0).
    destruct (append_loop _ _ _ _ _) as [[[w1 k1] b1]|] eqn:El; [|discriminate]. injection E as <- <-.
    exists (ww_idx w), k, b, w1, k1, b1. split; [exact El|]. split; [reflexivity|]. split; [reflexivity|]. rewrite Eb. split; [exact Hok|]. split; [exact Hh2|].
    split; [lia|]. split; [lia|]. split; [lia|]. right. split; [exact Ho|]. split; [lia|]. split; [exact Eb0|].
    exists l. split; [exact Hl2|]. rewrite EH. split; [intros x Hx; apply in_app_iff; right; now apply Hin|rewrite app_length; lia].
Qed.

Lemma append_owin now w off H first T n h es w' o : rinv w off H first T n -> (h < 2 ^ 64)%N -> es <> [] -> Forall went_ok es ->
  ww_idx w + Z.of_nat (length es) < 524286 -> ww_append now w h (off h) es = AppOk w' o ->
  (forall x e, In x (H h) -> In e es -> (w_seq (fst x) < w_seq e)%N) -> (forall e0 e r, es = e0 :: r -> In e es -> (w_seq e0 <= w_seq e)%N) ->
  owin (wview w) off H first ->
  owin (wview w') (fset off h o) (fset H h (H h ++ map (fun e => (e, unix now)) es)) (match first with None => Some h | _ => first end).
Proof.
  intros R Hh Hne Hes Hsz E Hord Hfst [O1 O2 O3]. pose proof R as [X RT RH R0 RZ RF Rt]. pose proof X as [X1 X2 X3 X4 X5 X6 X7].
  destruct (append_start now w off H first T n h es w' o R Hh Hsz E) as (idx & k & b & w1 & k1 & b1 & El & -> & -> & Hok & Hbh & Hidx & Hk & Hk2 & Hcase).
  set (es' := map (fun e => (e, unix now)) es) in *.
  assert (Hes'in : forall x, In x es' <-> In (fst x) es /\ snd x = unix now).
  { intros [e u]. unfold es'. rewrite in_map_iff. cbn [fst snd]. split; [intros (e2 & [= <- <-] & Hi); auto|intros [Hi ->]; eauto]. }
  assert (Ees : exists e0 rs, es = e0 :: rs) by (destruct es; [congruence|eauto]). destruct Ees as (e0 & rs & Ees). clear Hne.
  set (H' := fset H h (H h ++ es')). set (first' := match first with None => Some h | _ => first end).
  assert (HH' : H' h = H h ++ es') by (unfold H', fset; now rewrite N.eqb_refl).
  assert (HHo : forall x, x <> h -> H' x = H x) by (intros x Hx; unfold H', fset; destruct (N.eqb_spec x h); [contradiction|reflexivity]).
  assert (Hnone : forall j, 0 <= j -> first = None -> wview w j = None).
  { intros j Hj Hf. eapply view_none; [exact X|]. rewrite (R0 Hf). lia. }
  assert (Hzero : forall bj, wview w 0 = Some bj -> first = Some (wb_topicHash bj)).
  { intros bj Ej. destruct (RZ) as (b2 & E2 & Ef); [|congruence]. destruct (Z_lt_le_dec (ww_idx w) 0); [|assumption].
    rewrite (view_none w n 0 X) in Ej by lia. discriminate. }
  assert (Hfidx : first <> None -> 0 <= ww_idx w).
  { intros Hf. destruct first as [f|]; [|congruence]. pose proof (RF f eq_refl) as Hn. destruct (Rt f) as [[A _]|(k0 & ? & ? & Hk0 & _)]; [contradiction|lia]. }
  assert (Hold : forall j bj, wview w j = Some bj -> wb_topicHash bj <> h -> j <> k /\ j <= ww_idx w).
  { intros j bj Ej Hhj. split.
    - intros ->. destruct Hcase as [(_ & Ek & _)|(_ & _ & Ev & _)]; [rewrite (view_none w n k X) in Ej by lia; discriminate|congruence].
    - destruct (Z_lt_le_dec (ww_idx w) j) as [Hlt|]; [|assumption]. rewrite (view_none w n j X Hlt) in Ej. discriminate. }
  set (w2 := mkWW _ _ _ _ _).
  assert (Hv : ww_file w1 = ww_file w /\ wb_topicHash (ws_blk b1) = h /\ (k1 = k \/ idx < k1) /\
    (forall j, j <> k -> j <= idx -> afind Z.eqb (ww_blocks w1) j = afind Z.eqb (ww_blocks w) j) /\
    (forall j s, afind Z.eqb (ww_blocks w1) j = Some s -> afind Z.eqb (ww_blocks w) j = Some s \/ wb_topicHash (ws_blk s) = h) /\
    (forall j, afind Z.eqb (ww_blocks w1) j = None -> afind Z.eqb (ww_blocks w) j = None)).
  { destruct (loop_view now _ _ _ _ _ _ _ El) as (V1 & V2 & V3 & _ & V5 & V6 & V7); cbn [at_idx ww_idx ww_file ww_blocks] in *; try lia.
    split; [exact V1|]. split; [congruence|]. split; [exact V3|]. split; [exact V5|]. split; [intros j s Es; rewrite <- Hbh; auto|exact V7]. }
  destruct Hv as (V1 & V2 & V3 & V4 & V5 & V6).
  assert (Vsame : forall j bj, wb_topicHash bj <> h -> (wview w2 j = Some bj <-> wview w j = Some bj)).
  { intros j bj Hj. split; intros Ej.
    - unfold wview, w2 in Ej. cbn [ww_blocks ww_file] in Ej. rewrite afset in Ej. destruct (Z.eqb_spec j k1) as [->|Hjk].
      + apply Some_inj in Ej. congruence.
      + unfold wview. destruct (afind Z.eqb (ww_blocks w1) j) as [s|] eqn:Es.
        * apply Some_inj in Ej. destruct (V5 j s Es) as [Es'|]; [|congruence]. rewrite Es'. congruence.
        * rewrite V1 in Ej. now rewrite (V6 j Es).
    - destruct (Hold j bj Ej Hj) as [Hjk Hji]. unfold wview, w2. cbn [ww_blocks ww_file]. rewrite afset.
      replace (j =? k1) with false by (symmetry; apply Z.eqb_neq; lia). rewrite V4, V1 by lia. exact Ej. }
  assert (Hf' : forall x, x <> h -> first' = Some x -> first = Some x) by (intros x Hx; unfold first'; destruct first; congruence).
  assert (Hf2 : forall x, first = Some x -> first' = Some x) by (intros x Hx; unfold first'; now rewrite Hx).
  assert (Hoff : forall x, x <> h -> fset off h (winBlockOffset k1) x = off x) by (intros x Hx; unfold fset; destruct (N.eqb_spec x h); [contradiction|reflexivity]).
  destruct (le_lt_dec (length (H h ++ es')) entriesPerWindowBlock) as [Hshort|Hlong].
  2:{ (* nothing is said about the topic *)
    assert (Hns : forall x, short (H' x) -> x <> h) by (intros x Hx ->; unfold short in Hx; rewrite HH' in Hx; lia).
    constructor.
    - intros j bj Hj Ej Hi Hs. pose proof (Hns _ Hs) as Hhj. apply Vsame in Ej; [|exact Hhj]. rewrite (HHo _ Hhj), (Hoff _ Hhj) in *.
      destruct (O1 j bj Hj Ej Hi Hs) as (B1 & B2 & B3 & B4). split; [exact B1|]. split; [exact B2|]. split.
      + intros Hnf. apply B3. intros Hfx. apply Hnf. now apply Hf2.
      + intros Hfx. apply B4. now apply Hf'.
    - intros x Hx Hs. pose proof (Hns _ Hs) as Hxh. rewrite (HHo _ Hxh) in *. destruct (O2 x Hx Hs) as (j & bj & Hj & Ej & Eh & Hi & Hr).
      exists j, bj. split; [exact Hj|]. split; [apply Vsame; congruence|]. split; [exact Eh|]. split; [exact Hi|]. intros Hfx. apply Hr. now apply Hf'.
    - intros x q Eo Hq Hs. pose proof (Hns _ Hs) as Hxh. rewrite (HHo _ Hxh), (Hoff _ Hxh) in *. destruct (O3 x q Eo Hq Hs) as (bj & Ej & Eh & Hi).
      exists bj. split; [apply Vsame; congruence|]. auto. }
  (* no new block *)
  assert (Hl : exists l, blk_has (ws_blk b) l /\ incl l (H h) /\ (length l <= length (H h))%nat /\
     (off h = 0 -> l = [] /\ k = ww_idx w + 1 /\ wb_next (ws_blk b) = 0 /\ wb_cutoffTime (ws_blk b) = 0) /\
     (off h <> 0 -> l <> [] /\ wview w k = Some (ws_blk b) /\ off h = 4096 * k /\ 0 < k)).
  { destruct Hcase as [(Eo & Ek & Hb0 & Hn & Hc)|(Eo & Hkp & Ev & l & Hb & Hin & Hlen)].
    - exists []. split; [exact Hb0|]. split; [intros x []|]. split; [cbn; lia|]. split; [auto|congruence].
    - exists l. split; [exact Hb|]. split; [exact Hin|]. split; [exact Hlen|]. split; [lia|]. intros _. split; [|split; [exact Ev|lia]].
      apply (has_idx _ _ Hb). destruct (O3 h k Eo ltac:(lia)) as (b2 & Eb2 & _ & Hi); [unfold short; rewrite app_length in Hshort; lia|]. congruence. }
  destruct Hl as (l & Hbl & Hlin & Hlen & Hl0 & Hl1).
  assert (Hles : length es' = length es) by (unfold es'; apply map_length).
  rewrite app_length in Hshort.
  destruct (loop_short now es (at_idx w idx) k b l Hok Hbl ltac:(lia) Hes) as (w3 & b3 & El3 & G1 & G2 & G3 & G4 & G5 & G6 & G7).
  fold es' in G4. rewrite El in El3. apply Some_inj in El3. injection El3 as <- -> <-. cbn [at_idx ww_blocks ww_file ww_idx] in G1, G2, G3.
  clear V3 V4 V5 V6.
  assert (W2 : forall j, wview w2 j = if j =? k then Some (ws_blk b1) else wview w j).
  { intros j. unfold wview, w2. cbn [ww_blocks ww_file]. rewrite afset, G3, G1. destruct (j =? k); reflexivity. }
  assert (Hoffh : fset off h (winBlockOffset k) h = 4096 * k) by (unfold fset; rewrite N.eqb_refl; now apply winBlockOffset_small).
  assert (Hi1 : wb_entryIdx (ws_blk b1) <> 0%N).
  { apply (has_idx _ _ G4). unfold es'. rewrite Ees. destruct l; discriminate. }
  assert (HsH : short (H h)) by (unfold short; lia).
  (* the first entry of the block *)
  assert (Hq : (l = [] /\ seq0 (ws_blk b1) = w_seq e0) \/ (l <> [] /\ seq0 (ws_blk b1) = seq0 (ws_blk b))).
  { destruct l as [|[e u] l'].
    - left. split; [reflexivity|]. eapply has_seq0; [exact G4|]. unfold es'. rewrite Ees. reflexivity.
    - right. split; [discriminate|]. rewrite (has_seq0 _ _ e u (l' ++ es') G4 eq_refl). symmetry. eapply has_seq0; [exact Hbl|reflexivity]. }
  assert (Hin0 : In (e0, unix now) es') by (apply Hes'in; cbn [fst snd]; rewrite Ees; split; [now left|reflexivity]).
  assert (Hlow : forall q x, In x (H h) -> w_seq (fst x) = q -> lowest (H h) q -> lowest (H h ++ es') q).
  { intros q x Hx Eq Hlo y Hy. apply in_app_iff in Hy as [Hy|Hy]; [now apply Hlo|]. apply Hes'in in Hy as [Hy _]. specialize (Hord x (fst y) Hx Hy). lia. }
  assert (Hlow0 : H h = [] -> lowest (H h ++ es') (w_seq e0)).
  { intros -> y Hy. cbn [app] in Hy. apply Hes'in in Hy as [Hy _]. exact (Hfst e0 (fst y) rs Ees Hy). }
  assert (Hempty : first <> Some h -> off h = 0 -> H h = []).
  { intros Hf Eo. destruct (H h) as [|x r] eqn:EHh; [reflexivity|]. exfalso.
    destruct (O2 h) as (j & bj & Hj & Ej & Eh & Hi & _); [rewrite EHh; discriminate|rewrite EHh; exact HsH|].
    destruct (O1 j bj Hj Ej Hi) as (_ & _ & B3 & _); [rewrite Eh, EHh; exact HsH|]. destruct (B3 ltac:(congruence)) as [B3' _]. rewrite Eh in B3'.
    assert (j = 0) as -> by lia. apply Hzero in Ej. congruence. }
  assert (Hkf : first <> None -> 0 < k).
  { intros Hf. specialize (Hfidx Hf). destruct (Z.eq_dec (off h) 0) as [Eo|Eo]; [destruct (Hl0 Eo); lia|destruct (Hl1 Eo) as (_ & _ & _ & ?); lia]. }
  assert (Hk0 : first = None -> k = 0 /\ off h = 0 /\ H h = []).
  { intros Hf. pose proof (R0 Hf) as Hi. destruct (Rt h) as [[A B]|(k0 & ? & ? & Hk0 & _)]; [|lia]. destruct (Hl0 B) as (_ & Ek & _). split; [lia|auto]. }
  constructor.
  - intros j bj Hj Ej Hi Hs. rewrite W2 in Ej. destruct (Z.eqb_spec j k) as [->|Hjk].
    + apply Some_inj in Ej. subst bj. rewrite V2 in *. rewrite HH', Hoffh.
      assert (Hold1 : off h <> 0 -> wb_next (ws_blk b) = 0 /\ (exists x, In x (H h) /\ w_seq (fst x) = seq0 (ws_blk b)) /\
         (first <> Some h -> off h = 4096 * k /\ lowest (H h) (seq0 (ws_blk b))) /\
         (first = Some h -> if k =? 0 then lowest (H h) (seq0 (ws_blk b)) else exists x, In x (H h) /\ (w_seq (fst x) < seq0 (ws_blk b))%N)).
      { intros Eo. destruct (Hl1 Eo) as (Hln & Ev & _ & Hkp). specialize (O1 k (ws_blk b) ltac:(lia) Ev). rewrite Hbh in O1. apply O1; [|exact HsH].
        now apply (has_idx _ _ Hbl). }
      split; [|split; [|split]].
      * rewrite G6. destruct (Z.eq_dec (off h) 0) as [Eo|Eo]; [destruct (Hl0 Eo) as (_ & _ & A & _); exact A|exact (proj1 (Hold1 Eo))].
      * destruct Hq as [[Hle Eq]|[Hln Eq]]; rewrite Eq.
        -- exists (e0, unix now). split; [apply in_app_iff; now right|reflexivity].
        -- destruct (Z.eq_dec (off h) 0) as [Eo|Eo]; [destruct (Hl0 Eo); contradiction|]. destruct (Hold1 Eo) as (_ & (x & Hx & Ex) & _).
           exists x. split; [apply in_app_iff; now left|exact Ex].
      * intros Hnf. split; [reflexivity|]. assert (Hnf0 : first <> Some h) by (intros Hx; apply Hnf, Hf2, Hx).
        destruct Hq as [[Hle Eq]|[Hln Eq]]; rewrite Eq.
        -- apply Hlow0. apply Hempty; [exact Hnf0|]. destruct (Z.eq_dec (off h) 0) as [Eo|Eo]; [exact Eo|]. destruct (Hl1 Eo); contradiction.
        -- destruct (Z.eq_dec (off h) 0) as [Eo|Eo]; [destruct (Hl0 Eo); contradiction|]. destruct (Hold1 Eo) as (_ & (x & Hx & Ex) & B3 & _).
           eapply Hlow; [exact Hx|exact Ex|]. now apply B3.
      * intros Hfh. destruct first as [f|] eqn:Ef.
        -- unfold first' in Hfh. injection Hfh as ->. specialize (Hkf ltac:(discriminate)). replace (k =? 0) with false by lia.
           destruct Hq as [[Hle Eq]|[Hln Eq]]; rewrite Eq.
           ++ destruct (H h) as [|x r] eqn:EHh; [now apply (RF h eq_refl) in EHh|]. exists x. split; [now left|]. apply Hord; [now left|rewrite Ees; now left].
           ++ destruct (Z.eq_dec (off h) 0) as [Eo|Eo]; [destruct (Hl0 Eo); contradiction|]. destruct (Hold1 Eo) as (_ & _ & _ & B4). specialize (B4 eq_refl).
              replace (k =? 0) with false in B4 by lia. destruct B4 as (x & Hx & Hlt). exists x. split; [apply in_app_iff; now left|exact Hlt].
        -- destruct (Hk0 eq_refl) as (-> & Eo & EHh). cbn [Z.eqb]. destruct (Hl0 Eo) as (Hle & _). destruct Hq as [[_ Eq]|[Hln _]]; [|contradiction].
           rewrite Eq. now apply Hlow0.
    + destruct (N.eq_dec (wb_topicHash bj) h) as [Ehj|Hhj].
      * rewrite Ehj in *. destruct first as [f|] eqn:Ef; [|rewrite (Hnone j Hj eq_refl) in Ej; discriminate].
        specialize (O1 j bj Hj Ej Hi). rewrite Ehj in O1. destruct (O1 HsH) as (B1 & (x & Hx & Ex) & B3 & B4).
        destruct (N.eq_dec f h) as [->|Hfh].
        -- rewrite HH'. split; [exact B1|]. split; [exists x; split; [apply in_app_iff; now left|exact Ex]|]. split; [unfold first'; congruence|].
           intros _. specialize (B4 eq_refl). destruct (j =? 0); [eapply Hlow; [exact Hx|exact Ex|exact B4]|].
           destruct B4 as (y & Hy & Hlt). exists y. split; [apply in_app_iff; now left|exact Hlt].
        -- exfalso. destruct (B3 ltac:(congruence)) as [Eo _]. destruct (Z.eq_dec (off h) 0) as [E0|E0].
           ++ assert (j = 0) as -> by lia. apply Hzero in Ej. congruence.
           ++ destruct (Hl1 E0) as (_ & _ & Eo2 & _). lia.
      * rewrite (HHo _ Hhj), (Hoff _ Hhj) in *. destruct (O1 j bj Hj Ej Hi Hs) as (B1 & B2 & B3 & B4). split; [exact B1|]. split; [exact B2|]. split.
        -- intros Hnf. apply B3. intros Hfx. apply Hnf. now apply Hf2.
        -- intros Hfx. apply B4. now apply Hf'.
  - intros x Hx Hs. destruct (N.eq_dec x h) as [->|Hxh].
    + destruct first as [f|] eqn:Ef.
      * destruct (N.eq_dec f h) as [->|Hfh].
        -- specialize (RF h eq_refl). destruct (O2 h RF HsH) as (j & bj & Hj & Ej & Eh & Hi & Hr). destruct (Hr eq_refl) as (-> & lost & kept & Hp & Hb2 & Hc2).
           specialize (Hkf ltac:(discriminate)). exists 0, bj. split; [lia|]. split; [rewrite W2; now replace (0 =? k) with false by lia|]. split; [exact Eh|]. split; [exact Hi|].
           intros _. split; [reflexivity|]. exists (lost ++ es'), kept. split; [|auto]. rewrite HH', Hp, <- !app_assoc. apply Permutation_app_head, Permutation_app_comm.
        -- exists k, (ws_blk b1). split; [lia|]. split; [rewrite W2; now rewrite Z.eqb_refl|]. split; [exact V2|]. split; [exact Hi1|]. unfold first'. congruence.
      * destruct (Hk0 eq_refl) as (-> & Eo & EHh). exists 0, (ws_blk b1). split; [lia|]. split; [rewrite W2; reflexivity|]. split; [exact V2|]. split; [exact Hi1|].
        intros _. split; [reflexivity|]. exists [], es'. rewrite HH', EHh. cbn [app]. split; [reflexivity|]. destruct (Hl0 Eo) as (-> & _ & _ & Hc). split; [exact G4|congruence].
    + rewrite (HHo _ Hxh) in *. destruct (O2 x Hx Hs) as (j & bj & Hj & Ej & Eh & Hi & Hr). exists j, bj. split; [exact Hj|]. split; [apply Vsame; congruence|].
      split; [exact Eh|]. split; [exact Hi|]. intros Hfx. apply Hr. now apply Hf'.
  - intros x q Eo Hq0 Hs. destruct (N.eq_dec x h) as [->|Hxh].
    + rewrite Hoffh in Eo. assert (q = k) as -> by lia. exists (ws_blk b1). split; [rewrite W2; now rewrite Z.eqb_refl|]. auto.
    + rewrite (HHo _ Hxh), (Hoff _ Hxh) in *. destruct (O3 x q Eo Hq0 Hs) as (bj & Ej & Eh & Hi). exists bj. split; [apply Vsame; congruence|]. auto.
Qed.

(** ** Writing *)
Lemma write_owin w off H first T n w' : rinv w off H first T n -> ww_write w = Some w' -> owin (wview w) off H first ->
  owin (wview (ww_reset w')) off H first /\ owin (fview (ww_file w')) off H first.
Proof.
  intros R E O. pose proof R as [X RT RH R0 RZ RF Rt]. pose proof X as [X1 X2 X3 X4 X5 X6 X7].
  destruct (ww_write_effect w n X1 X5 X2) as (w3 & n' & E' & I1 & I2 & I3 & D' & F' & N' & K' & M' & B' & R').
  { intros k s Es. apply X6 in Es. lia. }
  assert (w3 = w') as -> by congruence.
  destruct (write_rinv _ _ _ _ _ _ R) as (w4 & n2 & E4 & _ & _ & _ & Hfile). assert (w4 = w') as -> by congruence.
  assert (Hnd : forall j b', 0 <= j -> ~ dirtyw w j -> fview (ww_file w') j = Some b' -> wb_entryIdx b' <> 0%N -> fview (ww_file w) j = Some b').
  { intros j b' Hj Hd Ej Hi. destruct (R' j Hj) as [_ Rd]. specialize (Rd Hd).
    destruct (Z_lt_le_dec j (Z.of_nat n')) as [Hjn|Hjn]; [|rewrite (fview_out _ n' j F' Hjn) in Ej; discriminate].
    destruct (fview_in _ n' j F' ltac:(lia)) as (b2 & Eb2 & Hok & Hrd). assert (b2 = b') as -> by congruence.
    destruct (Z_lt_le_dec j (Z.of_nat n)) as [Hjo|Hjo].
    - apply (read_in _ n); [apply X2|lia|exact Hok|congruence].
    - exfalso. apply Hi. unfold bread in Rd at 2. rewrite zread_beyond in Rd by (destruct X2 as [-> _]; unfold blockBytes; lia).
      rewrite <- wb_zero_bytes in Rd. assert (Ez : fview (ww_file w') j = Some wb_zero) by (apply (read_in _ n'); [apply F'|lia|exact wb_zero_ok|exact Rd]).
      rewrite Ez in Ej. apply Some_inj in Ej. now subst b'. }
  assert (Hback : forall j b', 0 <= j -> fview (ww_file w') j = Some b' -> wb_entryIdx b' <> 0%N -> exists b, wview w j = Some b /\ same b' b).
  { intros j b' Hj Ej Hi. unfold wview. destruct (afind Z.eqb (ww_blocks w) j) as [s|] eqn:Es.
    - exists (ws_blk s). split; [reflexivity|]. destruct (Hfile j (ws_blk s) Hj) as (b2 & Eb2 & S); [unfold wview; now rewrite Es|]. assert (b2 = b') by congruence. now subst.
    - exists b'. split; [|apply same_refl]. apply Hnd; auto. intros (s & Es2 & _). congruence. }
  split.
  - eapply owin_ext; [exact O| |].
    + intros j b Hj Eb. unfold wview, ww_reset. cbn [ww_blocks ww_file]. rewrite B'. unfold wview in Eb. destruct (afind Z.eqb (ww_blocks w) j) as [s|] eqn:Es.
      * exists b. split; [exact Eb|apply same_refl].
      * apply Hfile; [exact Hj|]. unfold wview. now rewrite Es.
    + intros j b' Hj Ej Hi. unfold wview, ww_reset in Ej. cbn [ww_blocks ww_file] in Ej. rewrite B' in Ej. destruct (afind Z.eqb (ww_blocks w) j) as [s|] eqn:Es.
      * cbn [option_map clean ws_blk] in Ej. exists b'. split; [unfold wview; now rewrite Es|apply same_refl].
      * cbn [option_map] in Ej. now apply Hback.
  - eapply owin_ext; [exact O|exact Hfile|exact Hback].
Qed.

(** ** Opening *)
Definition old_first (first : option N) (h : N) : bool := match first with Some f => (f =? h)%N | None => false end.
Lemma open_owin f off H first T : wrun (newWindowWriter f) off H first T -> owin (fview f) off H first -> (forall h, short (H h)) ->
  exists H2, let off2 := fun h => if old_first first h then 0 else off h in
    wrun (newWindowWriter f) off2 H2 first T /\ owin (fview f) off2 H2 first /\ (forall h, Permutation (H2 h) (H h)).
Proof.
  intros ((n & R) & Hz) O Hs. destruct first as [h0|].
  2:{ exists H. cbn [old_first]. split; [split; [now exists n|exact Hz]|]. split; [exact O|]. reflexivity. }
  pose proof R as [X RT RH R0 RZ RF Rt]. pose proof O as [O1 O2 O3].
  destruct (O2 h0 (RF h0 eq_refl) (Hs h0)) as (j & b & Hj & Ej & Eh & Hi & Hr). destruct (Hr eq_refl) as (-> & lost & kept & Hp & Hb & Hc).
  destruct (O1 0 b ltac:(lia) Ej Hi (Hs _)) as (Hn & _).
  assert (Hperm : forall h, Permutation (fset H h0 (lost ++ kept) h) (H h)).
  { intros h. unfold fset. destruct (N.eqb_spec h h0) as [->|]; [now symmetry|reflexivity]. }
  exists (fset H h0 (lost ++ kept)). cbn [old_first]. cbv zeta. set (off2 := fun h => if (h0 =? h)%N then 0 else off h). split; [|split; [|exact Hperm]].
  - split.
    + exists n. constructor; auto.
      * intros h. eapply Permutation_Forall; [symmetry; apply Hperm|apply RH].
      * intros h Hh E. apply (RF h Hh). apply Permutation_nil. rewrite <- E. apply Hperm.
      * intros h. unfold off2, fset. rewrite (N.eqb_sym h0 h). destruct (N.eqb_spec h h0) as [->|Hn0].
        -- right. assert (Hi0 : 0 <= ww_idx (newWindowWriter f)).
           { destruct (Rt h0) as [[A _]|(k0 & ? & ? & Hk0 & _)]; [now apply (RF h0 eq_refl) in A|lia]. }
           exists 0, lost, kept. split; [lia|]. split; [reflexivity|]. split; [reflexivity|]. split; [|split; [exists b; auto|now right]].
           apply (ch_base _ _ 0 b); auto; try lia. intros Hx. contradiction.
        -- apply Rt.
    + intros h E. unfold off2. destruct (h0 =? h)%N; [reflexivity|]. apply Hz. apply Permutation_nil. rewrite <- E. apply Hperm.
  - constructor.
    + intros j bj Hj0 Ej0 Hi0 Hs0. destruct (O1 j bj Hj0 Ej0 Hi0 (Hs _)) as (B1 & B2 & B3 & B4). split; [exact B1|]. split; [|split].
      * destruct B2 as (x & Hx & Ex). exists x. split; [|exact Ex]. eapply Permutation_in; [symmetry; apply Hperm|exact Hx].
      * intros Hf. destruct (B3 Hf) as [B5 B6]. split.
        -- unfold off2. destruct (N.eqb_spec h0 (wb_topicHash bj)) as [Ex|]; [congruence|exact B5].
        -- intros x Hx. apply B6. eapply Permutation_in; [apply Hperm|exact Hx].
      * intros Hf. specialize (B4 Hf). destruct (j =? 0).
        -- intros x Hx. apply B4. eapply Permutation_in; [apply Hperm|exact Hx].
        -- destruct B4 as (x & Hx & Hlt). exists x. split; [|exact Hlt]. eapply Permutation_in; [symmetry; apply Hperm|exact Hx].
    + intros h Hh _. assert (Hh' : H h <> []). { intros E. apply Hh. apply Permutation_nil. rewrite <- E. symmetry. apply Hperm. }
      destruct (O2 h Hh' (Hs h)) as (j & bj & Hj0 & Ej0 & Eh0 & Hi0 & Hr0). exists j, bj. split; [exact Hj0|]. split; [exact Ej0|]. split; [exact Eh0|]. split; [exact Hi0|].
      intros Hf. destruct (Hr0 Hf) as (-> & lo & ke & Hp2 & Hb2 & Hc2). split; [reflexivity|]. exists lo, ke. split; [|auto]. now rewrite (Hperm h).
    + intros h k Eo Hk _. unfold off2 in Eo. destruct (h0 =? h)%N; [lia|]. exact (O3 h k Eo Hk (Hs h)).
Qed.

(** What the iterator hands on. *)
Lemma iter_spec f n off H first : fwf f n -> Z.of_nat n < 524288 -> owin (fview f) off H first -> (forall h, short (H h)) -> forall m j,
  0 <= j <= Z.of_nat n -> (n <= Z.to_nat j + m)%nat ->
  forall x, In x (iter_blocks m j f) <-> exists i b, j <= i /\ fview f i = Some b /\ wb_entryIdx b <> 0%N /\ x = (seq0 b, wb_topicHash b, 4096 * i).
Proof.
  intros Hf Hn O Hs. induction m as [|m IH]; intros j Hj Hm x; cbn [iter_blocks].
  - split; [intros []|]. intros (i & b & Hi & Eb & _). rewrite (fview_out _ n i Hf) in Eb by lia. discriminate.
  - destruct (Z_lt_le_dec j (Z.of_nat n)) as [Hjn|Hjn].
    2:{ assert (Eo : readWindowBlock f (winBlockOffset j) = None).
        { rewrite winBlockOffset_small by lia. apply (fview_out _ n j Hf). lia. }
        rewrite Eo. split; [intros []|]. intros (i & b & Hi & Eb & _). rewrite (fview_out _ n i Hf) in Eb by lia. discriminate. }
    rewrite winBlockOffset_small by lia. destruct (fview_in _ n j Hf ltac:(lia)) as (b & Eb & _). unfold fview in Eb. rewrite Eb.
    destruct (N.eqb_spec (wb_entryIdx b) 0) as [Ei|Ei].
    + cbn [orb]. rewrite IH by lia. split; intros (i & bi & Hi & Ebi & Hx).
      * exists i, bi. split; [lia|]. auto.
      * destruct (Z.eq_dec i j) as [->|]; [|exists i, bi; split; [lia|]; auto]. exfalso. unfold fview in Ebi. assert (bi = b) as -> by congruence. destruct Hx; contradiction.
    + destruct (ow_blk _ _ _ _ O j b (proj1 Hj) Eb Ei (Hs _)) as (En & _). rewrite En. cbn [orb negb Z.eqb]. cbn [In]. rewrite IH by lia. split.
      * intros [<-|(i & bi & Hi & Ebi & Hx)]; [exists j, b; split; [lia|]; auto|exists i, bi; split; [lia|]; auto].
      * intros (i & bi & Hi & Ebi & Hx). destruct (Z.eq_dec i j) as [->|]; [left|right; exists i, bi; split; [lia|]; auto].
        unfold fview in Ebi. assert (bi = b) as -> by congruence. destruct Hx as [_ ->]. reflexivity.
Qed.
