(** Every history of the block store keeps what was put into it. *)
From Verif Require Import M_Bytes P_Bytes M_Hash P_Hash P_Bloom P_Mac M_File P_File M_IndexBlock S_Index P_Index
  M_Lease S_Lease P_Lease M_BlockRange S_BlockRange P_BlockRange M_BlockStore S_BlockStore P_BlockStore P_BlockStore2 P_BlockStore3.
From Coq Require Import Lia ZifyBool ZifyNat ZifyN Permutation Sorted.
Open Scope Z_scope.

Definition kept (m : ghost) (s : N) : Prop := exists e c, m s = Some (e, c, false).

Definition holds (w : bwriter) (m : ghost) : Prop := forall s, seq_ok s ->
  match m s with
  | None => ventry w s = None
  | Some (e, c, rel) => x_seq e = s /\ entry_req e c /\ exists off, 0 <= off /\
      ventry w s = Some (stored e off) /\ (rel = false -> content (vdata w) (stored e off) = c)
  end.

Definition sinv (w : bwriter) (m : ghost) : Prop := winv (kept m) w /\ holds w m.

Lemma winv_weaken (K K' : N -> Prop) w : (forall s, K' s -> K s) -> winv K w -> winv K' w.
Proof.
  intros HK Hw. constructor.
  - apply (wi_file K w Hw).
  - apply (wi_keys K w Hw).
  - apply (wi_blocks K w Hw).
  - apply (wi_off K w Hw).
  - apply (wi_lease K w Hw).
  - apply (wi_lease_in K w Hw).
  - intros s e Hs. apply (wi_live K w Hw). auto.
  - intros s t e1 e2 Hs Ht. apply (wi_disj K w Hw); auto.
Qed.

Lemma live_stored e off : 0 <= off -> live (stored e off).
Proof. intros H. unfold live, stored; cbn. lia. Qed.

Lemma holds_ext w w' m : (forall s, seq_ok s -> ventry w' s = ventry w s) -> vdata w' = vdata w ->
  holds w m -> holds w' m.
Proof.
  intros H1 H2 Hh s Hs. specialize (Hh s Hs). rewrite H1, H2 by exact Hs. exact Hh.
Qed.

Lemma sinv_commit w m upper : sinv w m -> seq_ok upper ->
  exists w', bw_commit w upper = Some w' /\ sinv w' m /\ (forall k, ~ is_dirty w' k) /\ w_buffer w' = [] /\
    (forall k, 0 <= k -> ~ is_dirty w k -> bread (w_index w') k = bread (w_index w) k).
Proof.
  intros [Hw Hh] Hu. destruct (commit_spec _ w upper Hw Hu) as (w' & E & Hw' & H1 & _ & H2 & H3 & _ & _ & H4 & _ & _ & H5).
  exists w'. split; [exact E|]. split; [|auto]. split; [exact Hw'|].
  eapply holds_ext; [exact H1| |exact Hh]. unfold vdata at 1. now rewrite H3, app_nil_r.
Qed.

Lemma store_sinv w m : store w m -> sinv w m.
Proof.
  induction 1 as [find min w Hf E | w m e cache w' Hst [Hw Hh] Hreq Hoff E | w m e cache w' Hst [Hw Hh] Hreq Hoff E
    | w m upper w' Hst IH Hu E | w m upper w1 w' Hst IH Hu E1 E | w m upper w1 s e cache x l Hst IH Hu E1 Hs Hm Er El].
  - destruct (empty_spec (newLease find min)) as (w0 & E0 & Hw & Hv & _); [now apply newLease_ok|apply ranges_new|].
    rewrite E in E0. apply Some_inj in E0. subst w0. split; [|intros s Hs; now apply Hv].
    eapply winv_weaken; [|exact Hw]. intros s (e & c & H). discriminate.
  - pose proof (append_spec _ w e cache Hw Hreq Hoff) as Ha.
    destruct (ventry w (x_seq e)) as [x|] eqn:Ev; [congruence|].
    destruct Ha as (w2 & off & E2 & Hw2 & Ho & Hve & Hc & Hk & _). rewrite E in E2.
    assert (w2 = w') as -> by congruence. clear E2.
    split.
    + eapply winv_weaken; [|exact Hw2]. intros s (e0 & c0 & H). unfold put in H.
      destruct (N.eqb_spec s (x_seq e)); [now right|left; exists e0, c0; exact H].
    + intros s Hs. unfold put. rewrite Hve by exact Hs. specialize (Hh s Hs).
      destruct (N.eqb_spec s (x_seq e)) as [->|Hne].
      * split; [reflexivity|]. split; [exact Hreq|]. exists off. auto.
      * destruct (m s) as [[[e0 c0] r]|] eqn:Em; [|exact Hh].
        destruct Hh as (Hx & Hr & o & Ho' & Hv & Hcc). split; [exact Hx|]. split; [exact Hr|]. exists o. split; [exact Ho'|].
        split; [exact Hv|]. intros ->. rewrite <- Hcc by reflexivity.
        apply (Hk s); [exists e0, c0; exact Em|exact Hs|exact Hv|now apply live_stored].
  - pose proof (append_spec _ w e cache Hw Hreq Hoff) as Ha.
    destruct (ventry w (x_seq e)) as [x|] eqn:Ev.
    + rewrite E in Ha. assert (w' = w) as -> by congruence. now split.
    + destruct Ha as (w2 & off & E2 & _). congruence.
  - destruct (sinv_commit w m upper IH Hu) as (w2 & E2 & H2 & _). rewrite E in E2. apply Some_inj in E2. now subst w2.
  - destruct (sinv_commit w m upper IH Hu) as (w2 & E2 & [Hw2 Hh2] & Hc & Hb & _). rewrite E1 in E2. apply Some_inj in E2. subst w2.
    destruct (open_spec _ w1 Hw2 Hc Hb) as (w3 & E3 & Hw3 & Hv3 & Hd3 & _). rewrite E in E3. apply Some_inj in E3. subst w3.
    split; [exact Hw3|]. eapply holds_ext; [exact Hv3|exact Hd3|exact Hh2].
  - destruct (sinv_commit w m upper IH Hu) as (w2 & E2 & [Hw2 Hh2] & Hc & Hb & _). rewrite E1 in E2. apply Some_inj in E2. subst w2.
    pose proof (Hh2 s Hs) as H. rewrite Hm in H. destruct H as (Hxs & Hreq & off & Ho & Hv & Hcc).
    pose proof (readEntry_clean _ w1 s Hw2 Hc Hs) as Hr. rewrite Hv in Hr. rewrite Er in Hr.
    cbn [stored x_msgOffset] in Hr. replace (off =? -1) with false in Hr by lia.
    apply Some_inj in Hr. injection Hr as Hr. fold (stored e off) in Hr. subst x.
    assert (Hms : mSize (stored e off) = N.of_nat (length cache)) by now apply mSize_req.
    destruct (free_spec _ w1 s (stored e off) Hw2 Hb) as (l' & E' & Hw'); [exists e, cache; exact Hm|exact Hs|exact Hv|now apply live_stored| |].
    { rewrite Hms. destruct Hreq as (_ & _ & _ & _ & Hsz). lia. }
    rewrite El in E'. apply Some_inj in E'. subst l'. split.
    + eapply winv_weaken; [|exact Hw']. intros t (e0 & c0 & H). unfold put in H.
      destruct (N.eqb_spec t s) as [->|Hne]; [congruence|]. split; [exists e0, c0; exact H|exact Hne].
    + intros t Ht. unfold put. pose proof (Hh2 t Ht) as Hht.
      destruct (N.eqb_spec t s) as [->|Hne]; [|exact Hht].
      split; [exact Hxs|]. split; [exact Hreq|]. exists off. split; [exact Ho|]. split; [exact Hv|discriminate].
Qed.

(** The block store never fails. *)
Lemma store_append w m e cache : store w m -> entry_req e cache -> w_offset w + Z.of_nat (length cache) < 2 ^ 63 ->
  match m (x_seq e) with
  | Some _ => bw_append w e cache = WErr w EExist
  | None => exists w', bw_append w e cache = WOk w'
  end.
Proof.
  intros Hst Hreq Hoff. destruct (store_sinv w m Hst) as [Hw Hh].
  pose proof (append_spec _ w e cache Hw Hreq Hoff) as Ha. specialize (Hh (x_seq e) (proj1 Hreq)).
  destruct (m (x_seq e)) as [[[e0 c0] r]|].
  - destruct Hh as (_ & _ & off & _ & Hv & _). now rewrite Hv in Ha.
  - rewrite Hh in Ha. destruct Ha as (w' & off & E & _). eauto.
Qed.

(** After writing, everything is read from the files. *)
Lemma store_read w m upper : store w m -> seq_ok upper ->
  exists w', bw_commit w upper = Some w' /\ forall s, seq_ok s ->
    match m s with
    | None => readEntry (w_index w') s = Some RInvalid \/ readEntry (w_index w') s = None
    | Some (e, c, rel) => exists off, 0 <= off /\
        readEntry (w_index w') s = Some (RFound (mkIE s (x_topicSize e) (x_valueSize e) off)) /\
        (rel = false -> read_at (w_data w') off (length c) = Some c)
    end.
Proof.
  intros Hst Hu. destruct (sinv_commit w m upper (store_sinv w m Hst) Hu) as (w' & E & [Hw Hh] & Hc & Hb & _).
  exists w'. split; [exact E|]. intros s Hs. specialize (Hh s Hs).
  pose proof (readEntry_clean _ w' s Hw Hc Hs) as Hr.
  destruct (m s) as [[[e c] rel]|] eqn:Em; [|now rewrite Hh in Hr].
  destruct Hh as (Hx & Hreq & off & Ho & Hv & Hcc). rewrite Hv in Hr. exists off. split; [exact Ho|].
  assert (Hl : live (stored e off)) by now apply live_stored.
  cbn [stored x_msgOffset] in Hr. replace (off =? -1) with false in Hr by lia. unfold stored in Hr. rewrite Hx in Hr. split; [exact Hr|].
  intros ->. pose proof (read_clean _ w' s (stored e off) Hw Hb (ex_intro _ e (ex_intro _ c Em)) Hs Hv Hl) as Hrd.
  assert (Hms : mSize (stored e off) = N.of_nat (length c)) by now apply mSize_req.
  rewrite Hms, Nat2N.id, Hcc in Hrd by reflexivity. exact Hrd.
Qed.

(** The parts of a message. *)
Lemma read_parts data off s id topic value :
  length id = 9%nat -> (N.of_nat (length topic) < 2 ^ 16 - 9)%N -> (N.of_nat (length (id ++ topic ++ value)) < 2 ^ 32)%N ->
  0 <= off ->
  read_at data off (length (id ++ topic ++ value)) = Some (id ++ topic ++ value) ->
  let e := mkIE s (N.of_nat (length topic)) (N.of_nat (length value)) off in
  readMessage data e = Some (id, value) /\ readTopic data e = Some topic.
Proof.
  intros Hid Ht Hlen Ho Hr e. rewrite !app_length in Hlen. split.
  - unfold readMessage, e, mSize; cbn [x_topicSize x_valueSize x_msgOffset].
    replace (N.to_nat (u32 (N.of_nat idSize + N.of_nat (length topic) + N.of_nat (length value))))
      with (length (id ++ topic ++ value)).
    + rewrite Hr. f_equal. f_equal.
      * replace idSize with (length id) by exact Hid. rewrite firstn_app, firstn_all, Nat.sub_diag, firstn_O. apply app_nil_r.
      * unfold u16. rewrite N.mod_small by (unfold idSize; lia).
        replace (N.to_nat (N.of_nat (length topic) + N.of_nat idSize)) with (length (id ++ topic))
          by (rewrite app_length; unfold idSize; lia).
        rewrite app_assoc, skipn_app, skipn_all, Nat.sub_diag. reflexivity.
    + rewrite !app_length. unfold u32. rewrite N.mod_small by (unfold idSize; lia). unfold idSize; lia.
  - unfold readTopic, e; cbn [x_topicSize x_msgOffset]. rewrite Nat2N.id.
    pose proof (read_at_inv _ _ _ _ Hr) as (H1 & H2 & _).
    destruct (read_at_some data off (length (id ++ topic ++ value)) H1 H2) as (d & Ed & _ & H3).
    rewrite Hr in Ed. apply Some_inj in Ed. subst d.
    apply read_at_data; [lia| |reflexivity|].
    + rewrite !app_length in *. unfold idSize. lia.
    + intros i Hi. specialize (H3 (9 + i)%nat). rewrite !app_length in H3. specialize (H3 ltac:(lia)).
      replace (Z.to_nat (off + Z.of_nat idSize) + i)%nat with (Z.to_nat off + (9 + i))%nat by (unfold idSize; lia).
      rewrite <- H3. rewrite !nth_app. replace (Nat.ltb (9 + i) (length id)) with false by lia.
      replace (9 + i - length id)%nat with i by lia. now replace (Nat.ltb i (length topic)) with true by lia.
Qed.

(** * Frames *)
Lemma bread_nth f k i : 0 <= k -> (4096 * k <= Z.of_nat i < 4096 * k + 4096) ->
  nth i f 0%N = nth (i - Z.to_nat (4096 * k)) (bread f k) 0%N.
Proof. intros Hk Hi. unfold bread. rewrite nth_zread by lia. f_equal. lia. Qed.

Lemma store_write w m upper : store w m -> seq_ok upper ->
  exists w', bw_commit w upper = Some w' /\
    (forall k b, In (k, b) (w_blocks w) -> w_dirty b = true ->
       read_at (w_index w') (4096 * k) blockBytes = Some (iblock_marshal (w_blk b))) /\
    (forall i, (forall b, In (Z.of_nat i / 4096, b) (w_blocks w) -> w_dirty b = false) ->
       nth i (w_index w') 0%N = nth i (w_index w) 0%N) /\
    (length (w_index w) <= length (w_index w'))%nat.
Proof.
  intros Hst Hu. destruct (store_sinv w m Hst) as [Hw Hh].
  destruct (commit_spec _ w upper Hw Hu) as (w' & E & Hw' & _ & Hvb & _ & _ & _ & _ & Hc & _ & Hlen & Hfr).
  exists w'. split; [exact E|]. split; [|split; [|exact Hlen]].
  - intros k b Hin Hd. pose proof (in_find _ _ _ (wi_keys _ w Hw) Hin) as Ef.
    destruct (wi_blocks _ w Hw k b Ef) as (Hk & Hok & Hd'). rewrite Hd in Hd'.
    assert (Hvk : vblk w k = w_blk b) by (unfold vblk; now rewrite Ef).
    assert (Hfb : fblk (w_index w') k = w_blk b).
    { rewrite <- (clean_block _ w' k Hw' Hc) by lia. rewrite Hvb by lia. exact Hvk. }
    destruct (wi_file _ w' Hw') as (n & Hf & _).
    assert (Hkn : k < Z.of_nat n).
    { destruct (Z.lt_ge_cases k (Z.of_nat n)) as [|H]; [assumption|]. rewrite (fblk_out _ n) in Hfb by assumption.
      rewrite <- Hfb in Hd'. cbn in Hd'. lia. }
    pose proof Hf as (Hl & _ & _). rewrite read_at_zread by lia. fold (bread (w_index w') k).
    destruct (fblk_ok _ n k Hf) as [Hb _]; [lia|]. rewrite Hb, Hfb. reflexivity.
  - intros i Hnd. set (k := Z.of_nat i / 4096) in *.
    assert (Hk : 0 <= k /\ 4096 * k <= Z.of_nat i < 4096 * k + 4096).
    { unfold k. pose proof (Z.div_mod (Z.of_nat i) 4096 ltac:(lia)). pose proof (Z.mod_pos_bound (Z.of_nat i) 4096 ltac:(lia)). lia. }
    rewrite !(bread_nth _ k i) by lia. rewrite Hfr; [reflexivity|lia|].
    intros (b & Eb & Hb). rewrite (Hnd b) in Hb; [discriminate|]. now apply find_in.
Qed.

Lemma later_entry w w' : later w w' -> forall K, winv K w -> exists K', winv K' w' /\
  forall s x, seq_ok s -> ventry w s = Some x -> ventry w' s = Some x.
Proof.
  induction 1 as [w|w e cache w1 w' Hreq Ho E Hl IH|w upper w1 w' Hu E Hl IH]; intros K Hw; [eauto| |].
  - pose proof (append_spec K w e cache Hw Hreq Ho) as Ha.
    destruct (ventry w (x_seq e)) as [x0|] eqn:Ev.
    + destruct E as [E|E]; rewrite E in Ha; [discriminate|]. assert (w1 = w) as -> by congruence. eauto.
    + destruct Ha as (w2 & off & E2 & Hw2 & _ & Hve & _). destruct E as [E|E]; rewrite E in E2; [|discriminate].
      assert (w2 = w1) as -> by congruence. destruct (IH _ Hw2) as (K' & Hw' & H). exists K'. split; [exact Hw'|].
      intros s x Hs Hx. apply H; [exact Hs|]. rewrite Hve by exact Hs. destruct (N.eqb_spec s (x_seq e)) as [->|]; [congruence|exact Hx].
  - destruct (commit_spec K w upper Hw Hu) as (w2 & E2 & Hw2 & Hve & _). rewrite E in E2. apply Some_inj in E2. subst w2.
    destruct (IH _ Hw2) as (K' & Hw' & H). exists K'. split; [exact Hw'|]. intros s x Hs Hx. apply H; [exact Hs|]. now rewrite Hve.
Qed.

Lemma store_later w m u w1 s x w2 u2 w3 : store w m -> seq_ok u -> bw_commit w u = Some w1 -> seq_ok s ->
  readEntry (w_index w1) s = Some (RFound x) -> later w1 w2 -> seq_ok u2 -> bw_commit w2 u2 = Some w3 ->
  readEntry (w_index w3) s = Some (RFound x).
Proof.
  intros Hst Hu E1 Hs Hr Hl Hu2 E3. destruct (store_sinv w m Hst) as [Hw _].
  destruct (commit_spec _ w u Hw Hu) as (w0 & E0 & Hw1 & _ & _ & _ & _ & _ & _ & Hc & _). rewrite E1 in E0. apply Some_inj in E0. subst w0.
  pose proof (readEntry_clean _ w1 s Hw1 Hc Hs) as H1.
  destruct (ventry w1 s) as [y|] eqn:Ev; [|destruct H1; congruence].
  rewrite Hr in H1. destruct (x_msgOffset y =? -1) eqn:Ey; [discriminate|]. assert (y = x) as -> by congruence.
  destruct (later_entry _ _ Hl _ Hw1) as (K & Hw2 & Hkeep).
  destruct (commit_spec K w2 u2 Hw2 Hu2) as (w0 & E0 & Hw3 & Hve & _ & _ & _ & _ & _ & Hc3 & _). rewrite E3 in E0. apply Some_inj in E0. subst w0.
  pose proof (readEntry_clean K w3 s Hw3 Hc3 Hs) as H3. rewrite Hve, (Hkeep s x Hs Ev) in H3 by exact Hs. now rewrite Ey in H3.
Qed.

Lemma store_message w m upper s id topic value : store w m -> seq_ok upper -> seq_ok s ->
  length id = 9%nat -> (N.of_nat (length topic) < 2 ^ 16 - 9)%N ->
  m s = Some (mkIE s (N.of_nat (length topic)) (N.of_nat (length value)) 0, id ++ topic ++ value, false) ->
  exists w' e, bw_commit w upper = Some w' /\ readEntry (w_index w') s = Some (RFound e) /\
    readMessage (w_data w') e = Some (id, value) /\ readTopic (w_data w') e = Some topic.
Proof.
  intros Hst Hu Hs Hid Ht Hm. destruct (store_read w m upper Hst Hu) as (w' & E & Hr).
  specialize (Hr s Hs). rewrite Hm in Hr. destruct Hr as (off & Ho & Hre & Hd). specialize (Hd eq_refl).
  cbn [x_topicSize x_valueSize] in Hre.
  destruct (store_sinv w m Hst) as [_ Hh]. specialize (Hh s Hs). rewrite Hm in Hh. destruct Hh as (_ & Hreq & _).
  destruct Hreq as (_ & _ & _ & Hl & _).
  exists w'. eexists. split; [exact E|]. split; [exact Hre|]. now apply read_parts.
Qed.

(** An example history. *)
Definition ex_e1 : ientry := mkIE 1 2 3 0.
Definition ex_c1 : bytes := [1;1;1;1;1;1;1;1;0; 7;8; 65;66;67]%N.
Definition ex_e2 : ientry := mkIE 300 0 1 0.
Definition ex_c2 : bytes := [2;2;2;2;2;2;2;2;0; 90]%N.
Definition ex_new : bwriter :=
  match newBlockWriter [] [] (newLease find0 0) with Some w => w | None => mkBW [] [] [] 0 [] 0 (newLease find0 0) 0 0 [] [] end.
Definition ex_w : option bwriter :=
  match bw_append ex_new ex_e1 ex_c1 with
  | WOk w1 => match bw_append w1 ex_e2 ex_c2 with WOk w2 => Some w2 | _ => None end
  | _ => None
  end.
Lemma ex_store : exists w m, ex_w = Some w /\ store w m /\ m 1%N = Some (ex_e1, ex_c1, false) /\ m 300%N = Some (ex_e2, ex_c2, false).
Proof.
  assert (Hn : store ex_new (fun _ => None)).
  { apply (st_new find0 0); [intros k; unfold find0, nShards; lia|reflexivity]. }
  assert (R1 : entry_req ex_e1 ex_c1) by (unfold entry_req, seq_ok; cbn; lia).
  assert (R2 : entry_req ex_e2 ex_c2) by (unfold entry_req, seq_ok; cbn; lia).
  unfold ex_w. destruct (bw_append ex_new ex_e1 ex_c1) as [w1| |] eqn:E1; [|vm_compute in E1; discriminate..].
  pose proof (st_append _ _ _ _ _ Hn R1 ltac:(vm_compute; reflexivity) E1) as H1.
  assert (O1 : w_offset w1 = 14).
  { assert (match bw_append ex_new ex_e1 ex_c1 with WOk w => w_offset w | _ => 0 end = 14) as H by (vm_compute; reflexivity).
    now rewrite E1 in H. }
  assert (Ho : w_offset w1 + Z.of_nat (length ex_c2) < 2 ^ 63) by (rewrite O1; vm_compute; reflexivity).
  assert (H2 : exists w2, bw_append w1 ex_e2 ex_c2 = WOk w2) by exact (store_append _ _ ex_e2 ex_c2 H1 R2 Ho).
  destruct H2 as [w2 E2]. rewrite E2.
  exists w2. eexists. split; [reflexivity|]. split; [exact (st_append _ _ _ _ _ H1 R2 Ho E2)|]. split; reflexivity.
Qed.
