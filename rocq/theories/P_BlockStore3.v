(** Opening, the empty store, giving space back. *)
From Verif Require Import M_Bytes P_Bytes M_Hash P_Hash P_Bloom P_Mac M_File P_File M_IndexBlock S_Index P_Index
  M_Lease S_Lease P_Lease M_BlockRange S_BlockRange P_BlockRange M_BlockStore S_BlockStore P_BlockStore P_BlockStore2.
From Coq Require Import Lia ZifyBool ZifyNat ZifyN Permutation Sorted.
Open Scope Z_scope.

(** * Opening the files again *)
Lemma newBlockWriter_aligned index data l n : length index = (blockBytes * n)%nat -> Z.of_nat n <= 524287 ->
  newBlockWriter index data l =
    Some (mkBW index data [] (if Nat.eqb n 0 then -1 else Z.of_nat n) [] (fsize data) l (fsize index) (fsize data) [] []).
Proof.
  intros Hl Hn. unfold newBlockWriter. unfold fsize. rewrite Hl, i32_div by exact Hn.
  destruct (Nat.eqb_spec n 0) as [->|H0].
  - reflexivity.
  - replace (0 <? Z.of_nat (blockBytes * n)) with true by lia. cbn [andb].
    rewrite i32_small by (unfold int32_ok; change (2 ^ 31) with 2147483648; lia).
    replace (Z.of_nat n * 4096 <? Z.of_nat (blockBytes * n)) with false by lia. reflexivity.
Qed.

Definition opened (index data : bytes) (l : lease) (n : nat) : bwriter :=
  mkBW index data [] (if Nat.eqb n 0 then -1 else Z.of_nat n) [] (fsize data) l (fsize index) (fsize data) [] [].

Lemma opened_vblk index data l n k : vblk (opened index data l n) k = fblk index k.
Proof. reflexivity. Qed.

Lemma opened_vdata index data l n : vdata (opened index data l n) = data.
Proof. unfold vdata, opened; cbn [w_data w_buffer]. apply app_nil_r. Qed.

Lemma opened_entry K w n s : winv K w -> (forall j, ~ is_dirty w j) -> seq_ok s ->
  ventry (opened (w_index w) (w_data w) (w_lease w) n) s = ventry w s.
Proof.
  intros Hw Hc Hs. unfold ventry. rewrite opened_vblk. rewrite (clean_block K); [reflexivity|assumption|assumption|].
  destruct (seq_ok_index s Hs). lia.
Qed.

Lemma opened_winv K w n : winv K w -> (forall j, ~ is_dirty w j) -> w_buffer w = [] -> index_file_ok (w_index w) n ->
  winv K (opened (w_index w) (w_data w) (w_lease w) n).
Proof.
  intros Hw Hc Hb Hf.
  assert (Hv : vdata w = w_data w) by (unfold vdata; rewrite Hb; apply app_nil_r).
  constructor.
  - exists n. split; [exact Hf|]. intros k Hk. unfold opened; cbn [w_blockIdx]. destruct (Nat.eqb_spec n 0); lia.
  - constructor.
  - discriminate.
  - rewrite opened_vdata. reflexivity.
  - apply (wi_lease K w Hw).
  - apply (wi_lease_in K w Hw).
  - intros s e HK Hs. rewrite (opened_entry K) by assumption. intros E Hl.
    destruct (wi_live K w Hw s e HK Hs E Hl) as (H1 & H2 & H3). rewrite (wi_off K w Hw), Hv in H2. auto.
  - intros s t e1 e2 HK1 HK2 Hs Ht Hne. rewrite !(opened_entry K) by assumption. now apply (wi_disj K w Hw s t).
Qed.

Lemma open_spec K w : winv K w -> (forall j, ~ is_dirty w j) -> w_buffer w = [] ->
  exists w', newBlockWriter (w_index w) (w_data w) (w_lease w) = Some w' /\ winv K w' /\
    (forall s, seq_ok s -> ventry w' s = ventry w s) /\ vdata w' = vdata w /\
    (forall j, ~ is_dirty w' j) /\ w_offset w' = w_offset w /\ w_index w' = w_index w /\ w_lease w' = w_lease w.
Proof.
  intros Hw Hc Hb. destruct (wi_file K w Hw) as (n & Hf & Hi).
  assert (Hv : vdata w = w_data w) by (unfold vdata; rewrite Hb; apply app_nil_r).
  exists (opened (w_index w) (w_data w) (w_lease w) n).
  split; [apply newBlockWriter_aligned; apply Hf|]. split; [now apply opened_winv|].
  split; [intros s Hs; now apply (opened_entry K)|]. split; [now rewrite opened_vdata|].
  split; [intros j (b & E & _); discriminate|]. split; [|auto].
  rewrite (wi_off K w Hw), Hv. reflexivity.
Qed.

(** The empty store. *)
Lemma empty_spec l : lease_ok l -> ranges l = [] -> exists w, newBlockWriter [] [] l = Some w /\ winv (fun _ => False) w /\
  (forall s, seq_ok s -> ventry w s = None) /\ (forall j, ~ is_dirty w j) /\ w_buffer w = [] /\ w_offset w = 0 /\
  w_index w = [] /\ w_data w = [] /\ w_lease w = l.
Proof.
  intros Hl Hr. eexists. split; [reflexivity|].
  assert (Hfb : index_file_ok [] 0).
  { split; [reflexivity|]. split; [lia|]. intros j Hj. exists iblock_zero. split; [|apply blk_ok_zero].
    unfold bread. rewrite zread_beyond by (cbn; lia). now rewrite zero_block_bytes. }
  split; [|repeat split].
  - constructor; cbn [w_blocks w_index w_offset w_lease w_data w_blockIdx].
    + exists O. split; [exact Hfb|]. cbn. lia.
    + constructor.
    + discriminate.
    + reflexivity.
    + exact Hl.
    + rewrite Hr. contradiction.
    + contradiction.
    + contradiction.
  - intros s Hs. unfold ventry, vblk; cbn [w_blocks w_index blk_find].
    rewrite (fblk_out [] 0) by (assumption || (destruct (seq_ok_index s Hs); lia)). unfold find_entry.
    change (b_entries iblock_zero) with ([] ++ repeat ie_zero entriesPerIndexBlock).
    rewrite find_entry_app by (unfold seq_ok in Hs; lia). reflexivity.
  - intros j (b & E & _). discriminate.
Qed.

(** Giving back the bytes of one entry. *)
Lemma winv_lease K w l' : winv K w -> lease_ok l' ->
  (forall r, In r (ranges l') -> fst r + Z.of_N (snd r) <= fsize (w_data w)) ->
  forall K' : N -> Prop, (forall s, K' s -> K s) ->
  (forall s e, K' s -> seq_ok s -> ventry w s = Some e -> live e -> forall x, in_range x (erange e) -> ~ is_free (ranges l') x) ->
  winv K' (with_lease w l').
Proof.
  intros Hw Hl Hin K' HK Hlv. unfold with_lease. constructor; cbn [w_blocks w_index w_offset w_lease w_data w_blockIdx].
  - apply (wi_file K w Hw).
  - apply (wi_keys K w Hw).
  - apply (wi_blocks K w Hw).
  - apply (wi_off K w Hw).
  - exact Hl.
  - exact Hin.
  - intros s e Hs1 Hs2 E Hle. destruct (wi_live K w Hw s e (HK s Hs1) Hs2 E Hle) as (H1 & H2 & _).
    split; [exact H1|]. split; [exact H2|]. exact (Hlv s e Hs1 Hs2 E Hle).
  - intros s t e1 e2 H1 H2. apply (wi_disj K w Hw); auto.
Qed.

Lemma free_spec K w s e : winv K w -> w_buffer w = [] -> K s -> seq_ok s -> ventry w s = Some e -> live e ->
  (0 < mSize e)%N ->
  exists l', freeBlock (w_lease w) (x_msgOffset e) (mSize e) = Some l' /\
    winv (fun t => K t /\ t <> s)
         (with_lease w l').
Proof.
  intros Hw Hb HK Hs E Hl Hpos. pose proof (live_inside K w s e Hw Hb HK Hs E Hl) as (Hv & Hi1 & Hi2).
  destruct (wi_live K w Hw s e HK Hs E Hl) as (H1 & H2 & H3).
  assert (Hm : (mSize e < 2 ^ 32)%N) by (unfold mSize, u32; apply N.mod_lt; lia).
  destruct (freeBlock_ok (w_lease w) (x_msgOffset e) (mSize e) (wi_lease K w Hw) H1 ltac:(lia) H3) as (l' & E' & Hl' & Hc).
  exists l'. split; [exact E'|]. apply (winv_lease K); [exact Hw|exact Hl'| |now intros t []|].
  - intros r Hr. pose proof (ranges_blocks l' Hl') as Hbk. rewrite Forall_forall in Hbk. destruct (Hbk r Hr) as [Hb1 Hb2].
    assert (Hfr : is_free (ranges l') (fst r + Z.of_N (snd r) - 1)) by (exists r; split; [exact Hr|unfold in_range; lia]).
    rewrite is_free_cover, Hc in Hfr. destruct (in_rangeb _ _) eqn:Ei in Hfr.
    + apply in_rangeb_spec in Ei. unfold in_range in Ei; cbn in Ei. unfold fsize. lia.
    + assert (is_free (ranges (w_lease w)) (fst r + Z.of_N (snd r) - 1)) as (r0 & Hr0 & Hx) by (apply is_free_cover; lia).
      pose proof (wi_lease_in K w Hw r0 Hr0). unfold in_range in Hx. lia.
  - intros t x [HKt Hne] Ht Ex Hlx y Hy Hf. rewrite is_free_cover, Hc in Hf.
    destruct (in_rangeb y (x_msgOffset e, mSize e)) eqn:Ei.
    + apply in_rangeb_spec in Ei. exact (wi_disj K w Hw t s x e HKt HK Ht Hs Hne Ex E Hlx Hl y Hy Ei).
    + destruct (wi_live K w Hw t x HKt Ht Ex Hlx) as (_ & _ & H). apply (H y Hy). apply is_free_cover. lia.
Qed.
