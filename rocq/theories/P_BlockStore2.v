(** Invariant of the block writer: appending, extending, writing, reading. *)
From Verif Require Import M_Bytes P_Bytes M_Hash P_Hash P_Bloom P_Mac M_File P_File M_IndexBlock S_Index P_Index
  M_Lease S_Lease P_Lease M_BlockRange S_BlockRange P_BlockRange M_BlockStore S_BlockStore P_BlockStore.
From Coq Require Import Lia ZifyBool ZifyNat ZifyN Permutation Sorted.
Open Scope Z_scope.

(** A block of run [k]: used slots first, keys of the run, all different. *)
Definition blk_ok (k : Z) (b : iblock) : Prop :=
  exists es, b_entries b = es ++ repeat ie_zero (entriesPerIndexBlock - length es) /\
    (length es <= entriesPerIndexBlock)%nat /\ b_entryIdx b = N.of_nat (length es) /\
    Forall (fun e => ientry_ok e /\ 255 * k < Z.of_N (x_seq e) <= 255 * k + 255) es /\
    NoDup (map x_seq es).

Lemma ie_zero_ok : ientry_ok ie_zero.
Proof. unfold ientry_ok, ie_zero; cbn. lia. Qed.

Lemma blk_ok_zero k : blk_ok k iblock_zero.
Proof. exists []. repeat split; cbn; try constructor; lia. Qed.

Lemma blk_ok_len k b : blk_ok k b -> length (b_entries b) = entriesPerIndexBlock.
Proof. intros (es & -> & H & _). rewrite app_length, repeat_length. lia. Qed.

Lemma blk_ok_run k b : 0 <= k -> blk_ok k b -> block_of_run (Z.to_N k) b.
Proof.
  intros Hk H. pose proof (blk_ok_len k b H) as HL. destruct H as (es & E & Hl & Hi & Hf & _).
  split; [exact HL|]. rewrite E. split; [|split; [|split]].
  - apply Forall_app. split; [|apply Forall_repeat, ie_zero_ok].
    eapply Forall_impl; [|exact Hf]. now intros e [He _].
  - apply Forall_app. split; [|apply Forall_repeat; now left].
    eapply Forall_impl; [|exact Hf]. intros e [_ He]. right. lia.
  - unfold base_of. rewrite E. destruct es as [|e es]; [intros _; apply Forall_repeat; reflexivity|].
    cbn [app]. inversion Hf as [|? ? [_ He] _]; subst. lia.
  - rewrite Hi. unfold entriesPerIndexBlock in Hl. lia.
Qed.

Lemma blk_ok_roundtrip k b : 0 <= k -> blk_ok k b -> iblock_unmarshal (iblock_marshal b) = Some b.
Proof.
  intros Hk H. rewrite <- (app_nil_r (iblock_marshal b)).
  eapply iblock_roundtrip, blk_ok_run; eassumption.
Qed.

Lemma zero_block_bytes : iblock_marshal iblock_zero = repeat 0%N blockBytes.
Proof. vm_compute. reflexivity. Qed.

(** The first slot with a key. *)
Definition find_entry (b : iblock) (s : N) : option ientry := find (fun e => (x_seq e =? s)%N) (b_entries b).

Lemma find_entry_app es n s : s <> 0%N ->
  find (fun e => (x_seq e =? s)%N) (es ++ repeat ie_zero n) = find (fun e => (x_seq e =? s)%N) es.
Proof.
  intros Hs. induction es as [|e es IH]; cbn [app find].
  - induction n as [|n IHn]; cbn [repeat find]; [reflexivity|].
    change (x_seq ie_zero) with 0%N. replace (0 =? s)%N with false by lia. exact IHn.
  - destruct (x_seq e =? s)%N; [reflexivity|exact IH].
Qed.

Lemma scan_find l s : scan_entries l s =
  match find (fun e => (x_seq e =? s)%N) l with
  | Some e => if x_msgOffset e =? -1 then RDeleted else RFound e
  | None => RInvalid
  end.
Proof.
  induction l as [|e l IH]; cbn [scan_entries find]; [reflexivity|].
  destruct (x_seq e =? s)%N; [reflexivity|exact IH].
Qed.

Lemma has_seq_find l s : has_seq l s = match find (fun e => (x_seq e =? s)%N) l with Some _ => true | None => false end.
Proof.
  unfold has_seq. induction l as [|e l IH]; cbn [existsb find]; [reflexivity|].
  destruct (x_seq e =? s)%N; [reflexivity|exact IH].
Qed.

(** Block [k] as the writer sees it. *)
Definition fblk (f : bytes) (k : Z) : iblock :=
  match iblock_unmarshal (bread f k) with Some b => b | None => iblock_zero end.
Definition vblk (w : bwriter) (k : Z) : iblock :=
  match blk_find (w_blocks w) k with Some b => w_blk b | None => fblk (w_index w) k end.
Definition ventry (w : bwriter) (s : N) : option ientry := find_entry (vblk w (blockIndex s)) s.
Definition vdata (w : bwriter) : bytes := w_data w ++ w_buffer w.
Definition live (e : ientry) : Prop := x_msgOffset e <> -1.
Definition erange (e : ientry) : range := (x_msgOffset e, mSize e).
Definition content (d : bytes) (e : ientry) : bytes := zread d (Z.to_nat (x_msgOffset e)) (N.to_nat (mSize e)).


Definition index_file_ok (f : bytes) (n : nat) : Prop :=
  length f = (blockBytes * n)%nat /\ Z.of_nat n <= 524287 /\
  forall j, 0 <= j -> exists b, bread f j = iblock_marshal b /\ blk_ok j b.

(** [K] tells whose bytes are still promised: entries whose space was given
    back to the free list are not in [K]. *)
Record winv (K : N -> Prop) (w : bwriter) : Prop := mkWinv {
  wi_file : exists n, index_file_ok (w_index w) n /\
                      (forall k, 0 <= k -> (k < w_blockIdx w <-> k < Z.of_nat n));
  wi_keys : NoDup (keys (w_blocks w));
  wi_blocks : forall k b, blk_find (w_blocks w) k = Some b ->
     0 <= k < 524287 /\ blk_ok k (w_blk b) /\
     (if w_dirty b then (1 <= b_entryIdx (w_blk b))%N else bread (w_index w) k = iblock_marshal (w_blk b));
  wi_off : w_offset w = Z.of_nat (length (vdata w));
  wi_lease : lease_ok (w_lease w);
  wi_lease_in : forall r, In r (ranges (w_lease w)) -> fst r + Z.of_N (snd r) <= fsize (w_data w);
  wi_live : forall s e, K s -> seq_ok s -> ventry w s = Some e -> live e ->
     0 <= x_msgOffset e /\ x_msgOffset e + Z.of_N (mSize e) <= w_offset w /\
     forall x, in_range x (erange e) -> ~ is_free (ranges (w_lease w)) x;
  wi_disj : forall s t e1 e2, K s -> K t -> seq_ok s -> seq_ok t -> s <> t ->
     ventry w s = Some e1 -> ventry w t = Some e2 -> live e1 -> live e2 ->
     forall x, in_range x (erange e1) -> in_range x (erange e2) -> False
}.

Lemma seq_ok_index s : seq_ok s -> 0 <= blockIndex s < 524287 /\
  255 * blockIndex s < Z.of_N s <= 255 * blockIndex s + 255.
Proof.
  unfold seq_ok. intros H. 
  rewrite blockIndex_spec by (change (2 ^ 64)%N with 18446744073709551616%N; lia). lia.
Qed.

Lemma index_of_range k s : seq_ok s -> 255 * k < Z.of_N s <= 255 * k + 255 -> blockIndex s = k.
Proof. intros H1 H2. destruct (seq_ok_index s H1). lia. Qed.

Lemma fblk_ok f n k : index_file_ok f n -> 0 <= k ->
  bread f k = iblock_marshal (fblk f k) /\ blk_ok k (fblk f k).
Proof.
  intros (_ & _ & H) Hk. destruct (H k Hk) as (b & E & Hb). unfold fblk. rewrite E.
  rewrite (blk_ok_roundtrip k b Hk Hb). auto.
Qed.

Lemma vblk_ok K w k : winv K w -> 0 <= k -> blk_ok k (vblk w k).
Proof.
  intros Hw Hk. unfold vblk. destruct (blk_find (w_blocks w) k) as [b|] eqn:E.
  - apply (wi_blocks K w Hw k b E).
  - destruct (wi_file K w Hw) as (n & Hf & _). now apply (fblk_ok _ n).
Qed.

Lemma readIndexBlock_in f n k : index_file_ok f n -> 0 <= k < Z.of_nat n ->
  readIndexBlock f (blockOffset k) = Some (fblk f k).
Proof.
  intros Hf Hk. pose proof Hf as (Hl & Hn & _). 
  rewrite blockOffset_small by (change (2 ^ 19) with 524288; lia).
  unfold readIndexBlock. rewrite read_at_zread by lia.
  fold (bread f k). destruct (fblk_ok f n k Hf) as [E Hb]; [lia|]. rewrite E.
  now rewrite (blk_ok_roundtrip k) by (assumption || lia).
Qed.

Lemma readIndexBlock_out f n k : length f = (blockBytes * n)%nat -> Z.of_nat n <= k < 524287 ->
  readIndexBlock f (blockOffset k) = None.
Proof.
  intros Hl Hk. 
  rewrite blockOffset_small by (change (2 ^ 19) with 524288; lia).
  unfold readIndexBlock. now rewrite read_at_none by lia.
Qed.

Lemma fblk_out f n k : index_file_ok f n -> Z.of_nat n <= k -> fblk f k = iblock_zero.
Proof.
  intros (Hl & _ & H) Hk. unfold fblk, bread. rewrite zread_beyond by lia.
  rewrite <- zero_block_bytes. now rewrite (blk_ok_roundtrip 0) by (lia || apply blk_ok_zero).
Qed.

(** What [append] loads is the block the writer sees, and the flag tells
    nothing else. *)
Lemma load_spec K w k : winv K w -> 0 <= k < 524287 ->
  exists b, match blk_find (w_blocks w) k with
            | Some b => Some b
            | None => if k <? w_blockIdx w
                      then match readIndexBlock (w_index w) (blockOffset k) with
                           | None => None
                           | Some b => Some (mkWB b false true)
                           end
                      else Some wblock_zero
            end = Some b /\ w_blk b = vblk w k.
Proof.
  intros Hw Hk. unfold vblk. destruct (blk_find (w_blocks w) k) as [b|] eqn:E; [eauto|].
  destruct (wi_file K w Hw) as (n & Hf & Hi). destruct (Z.ltb_spec k (w_blockIdx w)) as [L|L].
  - rewrite (readIndexBlock_in _ n) by (assumption || (apply Hi in L; lia)). eauto.
  - exists wblock_zero. split; [reflexivity|]. symmetry. apply (fblk_out _ n); [exact Hf|].
    destruct (Z.lt_ge_cases k (Z.of_nat n)) as [H|H]; [|exact H]. apply Hi in H; lia.
Qed.

Lemma mSize_req e cache off : entry_req e cache ->
  mSize (mkIE (x_seq e) (x_topicSize e) (x_valueSize e) off) = N.of_nat (length cache).
Proof.
  intros (_ & _ & _ & H1 & H2). unfold mSize, u32; cbn [x_topicSize x_valueSize]. rewrite N.mod_small.
  - rewrite H2. reflexivity.
  - unfold idSize. lia.
Qed.

Lemma find_in_list (l : list ientry) s e : find (fun e => (x_seq e =? s)%N) l = Some e -> In e l /\ x_seq e = s.
Proof. intros H. apply find_some in H. destruct H. split; [assumption|lia]. Qed.

Lemma find_none_list (l : list ientry) s : find (fun e => (x_seq e =? s)%N) l = None -> ~ In s (map x_seq l).
Proof.
  intros H Hin. apply in_map_iff in Hin as (e & He & Hin). apply (find_none _ _ H) in Hin. lia.
Qed.

Lemma find_app_entry (l1 l2 : list ientry) s : find (fun e => (x_seq e =? s)%N) (l1 ++ l2) =
  match find (fun e => (x_seq e =? s)%N) l1 with Some e => Some e | None => find (fun e => (x_seq e =? s)%N) l2 end.
Proof. induction l1 as [|a l1 IH]; cbn [app find]; [reflexivity|]. destruct (x_seq a =? s)%N; [reflexivity|exact IH]. Qed.

(** Adding an entry to a block. *)
Lemma blk_add k b e : 0 <= k -> blk_ok k b -> ientry_ok e ->
  255 * k < Z.of_N (x_seq e) <= 255 * k + 255 -> find_entry b (x_seq e) = None ->
  let n := N.to_nat (b_entryIdx b) in
  let b' := mkIB (M_Hash.update (b_entries b) n e) (u16 (b_entryIdx b + 1)) in
  (n < entriesPerIndexBlock)%nat /\ blk_ok k b' /\ (1 <= b_entryIdx b')%N /\
  (forall s, s <> 0%N -> find_entry b' s = if (s =? x_seq e)%N then Some e else find_entry b s).
Proof.
  intros Hk (es & E & Hl & Hi & Hf & Hnd) He Hr Hno n b'.
  assert (Hs0 : x_seq e <> 0%N) by lia.
  unfold find_entry in Hno. rewrite E, find_entry_app in Hno by exact Hs0.
  pose proof (find_none_list _ _ Hno) as Hni.
  assert (Hlt : (length es < entriesPerIndexBlock)%nat).
  { destruct (Nat.eq_dec (length es) entriesPerIndexBlock) as [Heq|]; [|lia]. exfalso.
    (* 255 different keys in the run: the new one is among them *)
    assert (incl (map x_seq es) (map (fun i => Z.to_N (255 * k + 1 + Z.of_nat i)) (List.seq 0 255))) as Hincl.
    { intros s Hs. apply in_map_iff in Hs as (x & <- & Hx). rewrite Forall_forall in Hf.
      destruct (Hf x Hx) as [_ Hx2]. apply in_map_iff. exists (Z.to_nat (Z.of_N (x_seq x) - 255 * k - 1)).
      split; [lia|]. apply in_seq. lia. }
    apply NoDup_length_incl in Hincl; [|exact Hnd|rewrite !map_length, seq_length; unfold entriesPerIndexBlock in Heq; lia].
    apply Hni, Hincl. apply in_map_iff. exists (Z.to_nat (Z.of_N (x_seq e) - 255 * k - 1)).
    split; [lia|]. apply in_seq. lia. }
  assert (Hn : n = length es) by (unfold n; lia).
  assert (Hent : b_entries b' = (es ++ [e]) ++ repeat ie_zero (entriesPerIndexBlock - length (es ++ [e]))).
  { unfold b'; cbn [b_entries]. rewrite E, Hn. rewrite app_length. cbn [length].
    replace (entriesPerIndexBlock - length es)%nat with (S (entriesPerIndexBlock - (length es + 1))) by lia.
    cbn [repeat]. rewrite update_middle, <- app_assoc. reflexivity. }
  assert (Hidx : b_entryIdx b' = N.of_nat (length (es ++ [e]))).
  { unfold b'; cbn [b_entryIdx]. rewrite Hi, app_length. cbn [length]. unfold u16.
    rewrite N.mod_small; [lia|]. unfold entriesPerIndexBlock in Hlt. lia. }
  split; [lia|]. split; [|split].
  - exists (es ++ [e]). split; [exact Hent|]. split; [rewrite app_length; cbn; lia|].
    split; [exact Hidx|]. split.
    + apply Forall_app; split; [exact Hf|]. constructor; [auto|constructor].
    + rewrite map_app. cbn [map]. rewrite <- (rev_involutive (map x_seq es ++ [x_seq e])). apply NoDup_rev.
      rewrite rev_app_distr. cbn [rev app]. constructor; [rewrite <- in_rev; exact Hni|now apply NoDup_rev].
  - rewrite Hidx, app_length. cbn [length]. lia.
  - intros s Hs. unfold find_entry. rewrite Hent, E, !find_entry_app by exact Hs.
    rewrite find_app_entry. cbn [find]. rewrite (N.eqb_sym s (x_seq e)).
    destruct (N.eqb_spec (x_seq e) s) as [<-|Hne].
    + now rewrite Hno.
    + clear Hno. destruct (find (fun e0 => (x_seq e0 =? s)%N) es); reflexivity.
Qed.

Lemma block_valid_ok k b : blk_ok k b -> 0 <= k < 524287 -> (1 <= b_entryIdx b)%N -> block_valid b k = true.
Proof.
  intros (es & E & Hl & Hi & Hf & _) Hk Hidx. unfold block_valid. rewrite E.
  destruct es as [|e es]; [cbn in Hi; lia|]. cbn [app]. inversion Hf as [|? ? [_ He] _]; subst.
  apply Z.eqb_eq. apply index_of_range; [|exact He].
  unfold seq_ok.   lia.
Qed.

(** * Where the bytes go *)
Lemma place_spec w cache : lease_ok (w_lease w) ->
  (forall r, In r (ranges (w_lease w)) -> fst r + Z.of_N (snd r) <= fsize (w_data w)) ->
  w_offset w = Z.of_nat (length (vdata w)) -> cache <> [] -> (N.of_nat (length cache) < 2 ^ 32)%N ->
  exists l' d' buf' offset' off dl, place w cache = Some (l', d', buf', offset', off, dl) /\
    lease_ok l' /\ length d' = length (w_data w) /\ (exists t, buf' = w_buffer w ++ t) /\
    (forall r, In r (ranges l') -> fst r + Z.of_N (snd r) <= fsize d') /\
    offset' = Z.of_nat (length (d' ++ buf')) /\ w_offset w <= offset' <= w_offset w + Z.of_nat (length cache) /\
    0 <= off /\ off + Z.of_nat (length cache) <= offset' /\
    zread (d' ++ buf') (Z.to_nat off) (length cache) = cache /\
    (forall x, is_free (ranges l') x -> is_free (ranges (w_lease w)) x) /\
    (forall x, in_range x (off, N.of_nat (length cache)) -> ~ is_free (ranges l') x /\
        (is_free (ranges (w_lease w)) x \/ w_offset w <= x)) /\
    (forall i, (i < length (vdata w))%nat -> ~ is_free (ranges (w_lease w)) (Z.of_nat i) ->
        nth i (d' ++ buf') 0%N = nth i (vdata w) 0%N).
Proof.
  intros Hl Hin Hoff Hne Hlen.
  assert (Hlc : (0 < length cache)%nat) by (destruct cache; [congruence|cbn; lia]).
  assert (Hsz : u32 (N.of_nat (length cache)) = N.of_nat (length cache)) by (unfold u32; apply N.mod_small; exact Hlen).
  assert (Happ : exists l' d' buf' offset' off dl,
    Some (w_lease w, w_data w, w_buffer w ++ cache, w_offset w + Z.of_nat (length cache), w_offset w, w_dataLeases w)
      = Some (l', d', buf', offset', off, dl) /\
    lease_ok l' /\ length d' = length (w_data w) /\ (exists t, buf' = w_buffer w ++ t) /\
    (forall r, In r (ranges l') -> fst r + Z.of_N (snd r) <= fsize d') /\
    offset' = Z.of_nat (length (d' ++ buf')) /\ w_offset w <= offset' <= w_offset w + Z.of_nat (length cache) /\
    0 <= off /\ off + Z.of_nat (length cache) <= offset' /\
    zread (d' ++ buf') (Z.to_nat off) (length cache) = cache /\
    (forall x, is_free (ranges l') x -> is_free (ranges (w_lease w)) x) /\
    (forall x, in_range x (off, N.of_nat (length cache)) -> ~ is_free (ranges l') x /\
        (is_free (ranges (w_lease w)) x \/ w_offset w <= x)) /\
    (forall i, (i < length (vdata w))%nat -> ~ is_free (ranges (w_lease w)) (Z.of_nat i) ->
        nth i (d' ++ buf') 0%N = nth i (vdata w) 0%N)).
  { do 6 eexists. split; [reflexivity|].
    rewrite app_assoc. fold (vdata w).
    split; [exact Hl|]. split; [reflexivity|]. split; [eauto|]. split; [exact Hin|].
    split; [rewrite app_length; lia|]. split; [lia|]. split; [lia|]. split; [lia|]. split; [|split; [|split]].
    - apply zread_data; [reflexivity|]. intros i Hi. rewrite nth_app.
      replace (Nat.ltb _ _) with false by lia. f_equal. lia.
    - auto.
    - intros x Hx. unfold in_range in Hx; cbn in Hx. split; [|right; lia].
      intros (r & Hr & Hxr). specialize (Hin r Hr). unfold in_range in Hxr. unfold vdata in Hoff.
      rewrite app_length in Hoff. unfold fsize in Hin. lia.
    - intros i Hi _. rewrite nth_app. replace (Nat.ltb _ _) with true by lia. reflexivity. }
  unfold place. rewrite Hsz.
  pose proof (allocate_ok (w_lease w) (N.of_nat (length cache)) Hl ltac:(lia)) as Ha.
  destruct (allocate (w_lease w) (N.of_nat (length cache))) as [l' [| |off]].
  - destruct Ha as [_ []].
  - destruct Ha as [_ ->]. exact Happ.
  - destruct Ha as (Hl' & Ho & (o & n & Hr & Hro & Hrn) & Hcov). replace (off =? -1) with false by lia.
    pose proof (Hin _ Hr) as Hro2. cbn [fst snd] in Hro2. unfold fsize in Hro2.
    destruct (write_at_spec (w_data w) off cache Ho Hne) as (d & Ew & Hld & Hnd).
    rewrite Ew. assert (Hld' : length d = length (w_data w)) by lia.
    assert (Hcov1 : forall x, (cover (ranges (w_lease w)) x <= 1)%nat) by apply Hl.
    assert (Hsub : forall x, is_free (ranges l') x -> is_free (ranges (w_lease w)) x).
    { intros x. rewrite !is_free_cover, Hcov. lia. }
    assert (Hal : forall x, in_range x (off, N.of_nat (length cache)) ->
              ~ is_free (ranges l') x /\ is_free (ranges (w_lease w)) x).
    { intros x Hx. rewrite <- in_rangeb_spec in Hx. rewrite !is_free_cover. specialize (Hcov x). specialize (Hcov1 x).
      rewrite Hx in Hcov. lia. }
    do 6 eexists. split; [reflexivity|]. split; [exact Hl'|]. split; [exact Hld'|].
    split; [exists []; now rewrite app_nil_r|].
    split; [|split; [|split; [|split; [|split; [|split; [|split; [|split]]]]]]].
    + intros r Hr'. pose proof (ranges_blocks l' Hl') as Hb. rewrite Forall_forall in Hb.
      destruct (Hb r Hr') as [Hb1 Hb2].
      assert (is_free (ranges (w_lease w)) (fst r + Z.of_N (snd r) - 1)) as (r0 & Hr0 & Hx).
      { apply Hsub. exists r. split; [exact Hr'|]. unfold in_range. lia. }
      specialize (Hin r0 Hr0). unfold in_range in Hx. unfold fsize in *. lia.
    + rewrite app_length, Hld'. rewrite Hoff. unfold vdata. now rewrite app_length.
    + lia.
    + exact Ho.
    + rewrite Hoff. unfold vdata. rewrite app_length. lia.
    + apply zread_data; [reflexivity|]. intros i Hi. rewrite nth_app. replace (Nat.ltb _ _) with true by lia.
      rewrite Hnd. replace (Nat.leb _ _ && Nat.ltb _ _)%bool with true by lia. f_equal. lia.
    + exact Hsub.
    + intros x Hx. destruct (Hal x Hx). auto.
    + intros i Hi Hnf. unfold vdata. rewrite !nth_app, Hld'. destruct (Nat.ltb_spec i (length (w_data w))) as [L|L]; [|reflexivity].
      rewrite Hnd.
      destruct (Nat.leb_spec (Z.to_nat off) i) as [L1|L1]; cbn [andb]; [|reflexivity].
      destruct (Nat.ltb_spec i (Z.to_nat off + length cache)) as [L2|L2]; [|reflexivity].
      exfalso. apply Hnf. apply Hal. unfold in_range; cbn. lia.
Qed.

(** * Append *)

Lemma blk_first k b s : blk_ok k b -> s <> 0%N ->
  has_seq (firstn (N.to_nat (b_entryIdx b)) (b_entries b)) s =
  match find_entry b s with Some _ => true | None => false end.
Proof.
  intros (es & E & Hl & Hi & _ & _) Hs. unfold find_entry. rewrite E, find_entry_app by exact Hs.
  rewrite Hi, Nat2N.id, firstn_app, Nat.sub_diag, firstn_all, firstn_O, app_nil_r. apply has_seq_find.
Qed.

Definition stored (e : ientry) (off : Z) : ientry := mkIE (x_seq e) (x_topicSize e) (x_valueSize e) off.

Lemma content_ext d1 d2 e : (forall i, (Z.to_nat (x_msgOffset e) <= i < Z.to_nat (x_msgOffset e) + N.to_nat (mSize e))%nat ->
   nth i d1 0%N = nth i d2 0%N) -> content d1 e = content d2 e.
Proof. intros H. unfold content. now apply zread_ext. Qed.

Lemma append_spec K w e cache : winv K w -> entry_req e cache -> w_offset w + Z.of_nat (length cache) < 2 ^ 63 ->
  match ventry w (x_seq e) with
  | Some _ => bw_append w e cache = WErr w EExist
  | None => exists w' off, bw_append w e cache = WOk w' /\ winv (fun s => K s \/ s = x_seq e) w' /\ 0 <= off /\
      (forall s, seq_ok s -> ventry w' s = if (s =? x_seq e)%N then Some (stored e off) else ventry w s) /\
      content (vdata w') (stored e off) = cache /\
      (forall s x, K s -> seq_ok s -> ventry w s = Some x -> live x -> content (vdata w') x = content (vdata w) x) /\
      w_offset w <= w_offset w' <= w_offset w + Z.of_nat (length cache) /\
      w_index w' = w_index w /\ w_blockIdx w' = w_blockIdx w /\
      (forall k, In k (keys (w_blocks w')) <-> k = blockIndex (x_seq e) \/ In k (keys (w_blocks w)))
  end.
Proof.
  intros Hw Hreq Hoff. pose proof Hreq as (Hs & Hts & Hvs & Hlen & Hsz).
  destruct (seq_ok_index _ Hs) as [Hk Hkr]. set (k := blockIndex (x_seq e)) in *.
  assert (Hs0 : x_seq e <> 0%N) by lia.
  assert (Hvok : blk_ok k (vblk w k)) by (apply (vblk_ok K); [exact Hw|lia]).
  destruct (load_spec K w k Hw Hk) as (b & Eb & Hb).
  unfold bw_append. replace (x_seq e =? 0)%N with false by lia. fold k. cbv zeta. rewrite Eb, Hb.
  rewrite (blk_first k) by assumption. unfold ventry. fold k.
  destruct (find_entry (vblk w k) (x_seq e)) as [e0|] eqn:Ef; [reflexivity|].
  assert (Hne : cache <> []) by (intros Hc; rewrite Hc in Hsz; change (length (@nil N)) with O in Hsz; lia).
  destruct (place_spec w cache (wi_lease K w Hw) (wi_lease_in K w Hw) (wi_off K w Hw) Hne Hlen)
    as (l' & d' & buf' & offset' & off & dl & Ep & Hl' & Hld & [t Hbuf] & Hin' & Hoff' & Hgrow & Hoff0 & Hoff1 &
        Hread & Hsub & Hal & Hkeep).
  rewrite Ep.
  assert (Hie : ientry_ok (stored e off)).
  { unfold ientry_ok, stored; cbn [x_seq x_topicSize x_valueSize x_msgOffset].
    unfold seq_ok in Hs. 
    repeat split; try assumption; try lia. }
  destruct (blk_add k (vblk w k) (stored e off) ltac:(lia) Hvok Hie Hkr Ef) as (Hn & Hbok & Hb1 & Hbf).
  fold (stored e off).
  set (b' := mkIB (M_Hash.update (b_entries (vblk w k)) (N.to_nat (b_entryIdx (vblk w k))) (stored e off))
                  (u16 (b_entryIdx (vblk w k) + 1))) in *.
  replace (Nat.ltb entriesPerIndexBlock (N.to_nat (b_entryIdx (vblk w k)))) with false by lia.
  replace (Nat.eqb (length cache) 0) with false by lia.
  replace (Nat.leb entriesPerIndexBlock (N.to_nat (b_entryIdx (vblk w k)))) with false by lia.
  rewrite (block_valid_ok k) by assumption.
  set (w' := mkBW (w_index w) d' (blk_set (w_blocks w) k (mkWB b' true (w_leased b))) (w_blockIdx w) buf' offset' l'
               (w_indexOffset w) (w_dataOffset w) dl (if w_leased b then x_seq e :: w_indexLeases w else w_indexLeases w)).
  assert (Hve : forall s, seq_ok s -> ventry w' s = if (s =? x_seq e)%N then Some (stored e off) else ventry w s).
  { intros s Hss. unfold ventry, vblk, w'; cbn [w_blocks w_index]. rewrite blk_find_set.
    destruct (Z.eqb_spec (blockIndex s) k) as [E|E].
    - cbn [w_blk]. rewrite Hbf by (unfold seq_ok in Hss; lia).
      change (x_seq (stored e off)) with (x_seq e). destruct (s =? x_seq e)%N; [reflexivity|].
      rewrite E. reflexivity.
    - destruct (N.eqb_spec s (x_seq e)) as [->|]; [now elim E|reflexivity]. }
  assert (Hms : mSize (stored e off) = N.of_nat (length cache)) by now apply mSize_req.
  assert (Hvl : length (vdata w) = Z.to_nat (w_offset w)) by (rewrite (wi_off K w Hw); lia).
  assert (Hnew : forall s x y, K s -> seq_ok s -> ventry w s = Some x -> live x -> in_range y (erange x) ->
                 in_range y (erange (stored e off)) -> False).
  { intros s x y HK Hss Hx Hlx Hy1 Hy2. unfold erange in Hy2. rewrite Hms in Hy2. cbn [stored x_msgOffset] in Hy2.
    destruct (wi_live K w Hw s x HK Hss Hx Hlx) as (Hx0 & Hx1 & Hx2).
    destruct (Hal y Hy2) as [_ [Hf|Hf]]; [exact (Hx2 y Hy1 Hf)|]. unfold in_range, erange in Hy1; cbn in Hy1. lia. }
  exists w', off. split; [reflexivity|]. split; [|split; [exact Hoff0|split; [exact Hve|split; [|split; [|split; [|split; [|split]]]]]]].
  - constructor.
    + exact (wi_file K w Hw).
    + unfold w'; cbn [w_blocks]. apply nodup_set, (wi_keys K w Hw).
    + intros j bj. unfold w'; cbn [w_blocks w_index]. rewrite blk_find_set.
      destruct (Z.eqb_spec j k) as [->|]; [|apply (wi_blocks K w Hw)].
      intros E. apply Some_inj in E. subst bj. cbn [w_blk w_dirty]. auto.
    + exact Hoff'.
    + exact Hl'.
    + exact Hin'.
    + intros s x HK' Hss. rewrite Hve by exact Hss. change (ranges (w_lease w')) with (ranges l').
      change (w_offset w') with offset'.
      destruct (N.eqb_spec s (x_seq e)) as [->|Hne'].
      * intros E. apply Some_inj in E. subst x. intros _. unfold erange. rewrite Hms. cbn [stored x_msgOffset].
        split; [lia|]. split; [lia|]. intros y Hy. now apply Hal.
      * intros E Hlx. destruct HK' as [HK|]; [|contradiction]. destruct (wi_live K w Hw s x HK Hss E Hlx) as (Hx0 & Hx1 & Hx2).
        split; [lia|]. split; [lia|]. intros y Hy Hf. apply (Hx2 y Hy). now apply Hsub.
    + intros s t0 x1 x2 HK1 HK2 Hss Htt Hst. rewrite !Hve by assumption.
      destruct (N.eqb_spec s (x_seq e)) as [->|Hns]; destruct (N.eqb_spec t0 (x_seq e)) as [->|Hnt].
      * congruence.
      * intros E1 E2 H1 H2 y Hy1 Hy2. apply Some_inj in E1. subst x1. destruct HK2 as [HK2|]; [|contradiction]. eapply (Hnew t0 x2); eassumption.
      * intros E1 E2 H1 H2 y Hy1 Hy2. apply Some_inj in E2. subst x2. destruct HK1 as [HK1|]; [|contradiction]. eapply (Hnew s x1); eassumption.
      * destruct HK1 as [HK1|]; [|contradiction]. destruct HK2 as [HK2|]; [|contradiction]. apply (wi_disj K w Hw); assumption.
  - unfold content. rewrite Hms, Nat2N.id. exact Hread.
  - intros s x HK Hss E Hlx. destruct (wi_live K w Hw s x HK Hss E Hlx) as (Hx0 & Hx1 & Hx2).
    apply content_ext. intros i Hi. change (vdata w') with (d' ++ buf').
    apply Hkeep; [lia|]. apply Hx2. unfold in_range, erange; cbn. lia.
  - change (w_offset w') with offset'. lia.
  - reflexivity.
  - reflexivity.
  - intros j. unfold w'; cbn [w_blocks]. rewrite !keys_find. setoid_rewrite blk_find_set.
    destruct (Z.eqb_spec j k) as [->|Hj].
    + split; [now left|eauto].
    + split; [now right|]. intros [?|H]; [contradiction|exact H].
Qed.

(** * Writing *)
Lemma winv_lens K w : winv K w -> lens_ok (w_blocks w).
Proof. intros Hw k b E. eapply blk_ok_len. apply (wi_blocks K w Hw k b E). Qed.

Definition dirty_keys (m : list (Z * wblock)) (l : bool) : list Z :=
  map fst (filter (fun kb => (Bool.eqb (w_leased (snd kb)) l && w_dirty (snd kb))%bool) m).

Lemma in_dirty m l k : NoDup (keys m) ->
  (In k (dirty_keys m l) <-> exists b, blk_find m k = Some b /\ w_leased b = l /\ w_dirty b = true).
Proof.
  intros Hnd. unfold dirty_keys. rewrite in_map_iff. split.
  - intros ([k' b] & <- & Hin). apply filter_In in Hin as [Hin Hf]. cbn [snd fst] in *.
    apply andb_prop in Hf as [H1 H2]. apply Bool.eqb_prop in H1. exists b. split; [now apply in_find|auto].
  - intros (b & E & H1 & H2). exists (k, b). split; [reflexivity|]. apply filter_In. split; [now apply find_in|].
    cbn [snd]. rewrite H1, H2, Bool.eqb_reflx. reflexivity.
Qed.

Lemma nodup_dirty m l : NoDup (keys m) -> NoDup (dirty_keys m l).
Proof.
  unfold dirty_keys, keys. induction m as [|[k b] m IH]; cbn [map filter fst snd]; intros H; [constructor|].
  inversion H as [|? ? Hni Hn]; subst. destruct (Bool.eqb (w_leased b) l && w_dirty b)%bool; cbn [map fst]; [|auto].
  constructor; [|auto]. intros Hin. apply Hni. apply in_map_iff in Hin as (x & <- & Hx).
  apply filter_In in Hx. apply in_map, Hx.
Qed.

Lemma filter_ext_in' {A} (f g : A -> bool) l : (forall x, f x = g x) -> filter f l = filter g l.
Proof. intros H. apply filter_ext. exact H. Qed.

Definition is_dirty (w : bwriter) (k : Z) : Prop := exists b, blk_find (w_blocks w) k = Some b /\ w_dirty b = true.

Lemma blk_get_find m k b : blk_find m k = Some b -> blk_get m k = b.
Proof. unfold blk_get. now intros ->. Qed.

Definition flushed (w : bwriter) : bwriter :=
  mkBW (w_index w) (file_append (w_data w) (w_buffer w)) (w_blocks w) (w_blockIdx w) []
       (w_offset w) (w_lease w) (w_indexOffset w) (w_dataOffset w) (w_dataLeases w) (w_indexLeases w).

(** [write] puts every dirty block at its place and changes nothing else.
    Conditions: block numbers in range, dirty blocks pass the validation. *)
Lemma write_effect w n : NoDup (keys (w_blocks w)) -> lens_ok (w_blocks w) ->
  length (w_index w) = (blockBytes * n)%nat ->
  (forall k, is_dirty w k -> 0 <= k < 2 ^ 19 /\ block_valid (w_blk (blk_get (w_blocks w) k)) k = true) ->
  exists w' n', bw_write w = Some w' /\
    w' = set_blocks (set_index (flushed w) (w_index w')) (w_blocks w') /\
    length (w_index w') = (blockBytes * n')%nat /\ (n <= n')%nat /\
    (forall k, is_dirty w k -> (Z.to_nat k < n')%nat) /\
    (forall m, (n <= m)%nat -> (forall k, is_dirty w k -> (Z.to_nat k < m)%nat) -> (n' <= m)%nat) /\
    keys (w_blocks w') = keys (w_blocks w) /\
    (forall j, blk_find (w_blocks w') j =
       option_map (fun b => mkWB (w_blk b) false (w_leased b)) (blk_find (w_blocks w) j)) /\
    (forall j, 0 <= j -> (is_dirty w j -> bread (w_index w') j = iblock_marshal (w_blk (blk_get (w_blocks w) j))) /\
                         (~ is_dirty w j -> bread (w_index w') j = bread (w_index w) j)).
Proof.
  intros Hnd Hl Hn Hd. unfold bw_write. fold (flushed w).
  set (L := dirty_keys (w_blocks w) true).
  replace (map fst (filter (fun kb => (w_leased (snd kb) && w_dirty (snd kb))%bool) (w_blocks (flushed w)))) with L
    by (unfold L, dirty_keys; f_equal; apply filter_ext; intros [k b]; cbn; now destruct (w_leased b)).
  assert (HL : forall k, In k L <-> exists b, blk_find (w_blocks w) k = Some b /\ w_leased b = true /\ w_dirty b = true)
    by (intros k; apply in_dirty, Hnd).
  assert (HLd : forall k, In k L -> is_dirty w k) by (intros k Hk; apply HL in Hk as (b & ? & ? & ?); exists b; auto).
  destruct (fold_write_effect L (flushed w) n) as (w1 & n1 & E1 & S1 & L1 & N1 & F1 & M1 & K1 & B1 & R1).
  { now apply nodup_dirty. }
  { apply Forall_forall. intros k Hk. now apply Hd, HLd. }
  { exact Hl. }
  { apply Forall_forall. intros k Hk. split.
    - apply keys_find. apply HL in Hk as (b & ? & _). eauto.
    - apply Hd, HLd, Hk. }
  { exact Hn. }
  rewrite E1. set (R := dirty_keys (w_blocks w1) false).
  replace (map fst (filter (fun kb => (negb (w_leased (snd kb)) && w_dirty (snd kb))%bool) (w_blocks w1))) with R
    by (unfold R, dirty_keys; f_equal; apply filter_ext; intros [k b]; cbn; now destruct (w_leased b)).
  change (w_blocks (flushed w)) with (w_blocks w) in *.
  assert (Hnd1 : NoDup (keys (w_blocks w1))) by (rewrite K1; exact Hnd).
  assert (HR : forall k, In k R <-> exists b, blk_find (w_blocks w) k = Some b /\ w_leased b = false /\ w_dirty b = true).
  { intros k. unfold R. rewrite in_dirty by exact Hnd1. setoid_rewrite B1.
    destruct (in_dec Z.eq_dec k L) as [Hin|Hin]; [|reflexivity]. split.
    - intros (b & E & H1 & H2). destruct (blk_find (w_blocks w) k); cbn [option_map] in E; [|discriminate].
      apply Some_inj in E. subst b. discriminate.
    - intros (b & E & H1 & H2). apply HL in Hin as (b2 & E2 & H3 & _). congruence. }
  assert (HRd : forall k, In k R -> is_dirty w k) by (intros k Hk; apply HR in Hk as (b & ? & ? & ?); exists b; auto).
  assert (HRL : forall k, In k R -> ~ In k L).
  { intros k Hk Hin. apply HR in Hk as (b & ? & ? & ?). apply HL in Hin as (b2 & ? & ? & ?). congruence. }
  assert (Hdd : forall k, is_dirty w k <-> In k L \/ In k R).
  { intros k. split; [|intros [H|H]; auto]. intros (b & E & Hb). destruct (w_leased b) eqn:El.
    - left. apply HL. eauto.
    - right. apply HR. eauto. }
  assert (HndR : NoDup (sort_Z R)).
  { eapply Permutation_NoDup; [symmetry; apply sort_Z_perm|]. now apply nodup_dirty. }
  destruct (blockRange_ok (sort_Z R)) as (parts & Ep & Pp & Gp).
  { apply Forall_forall. intros k Hk. apply (Permutation_in _ (sort_Z_perm R)) in Hk.
    destruct (Hd k (HRd k Hk)) as [Hr _]. change (2 ^ 19) with 524288 in Hr. unfold int32_ok.
    change (2 ^ 31) with 2147483648. lia. }
  { apply sorted_strict; [apply sort_Z_sorted|exact HndR]. }
  rewrite Ep. set (Q := concat (map expand parts)) in *.
  assert (HQ : forall k, In k Q <-> In k R).
  { intros k. split; intros H.
    - eapply Permutation_in; [apply sort_Z_perm|]. eapply Permutation_in; [exact Pp|exact H].
    - eapply Permutation_in; [symmetry; exact Pp|]. eapply Permutation_in; [symmetry; apply sort_Z_perm|exact H]. }
  assert (Hl1 : lens_ok (w_blocks w1)) by (eapply fold_write_lens; [|exact E1]; exact Hl).
  assert (Hget1 : forall k, In k R -> blk_get (w_blocks w1) k = blk_get (w_blocks w) k).
  { intros k Hk. unfold blk_get. rewrite B1. destruct (in_dec Z.eq_dec k L) as [Hin|]; [exfalso; eapply HRL; eauto|reflexivity]. }
  rewrite write_parts_seq; [|exact Gp|exact Hl1|].
  2:{ apply Forall_forall. intros k Hk. apply HQ in Hk. apply Hd, HRd, Hk. }
  fold Q.
  destruct (fold_write_effect Q w1 n1) as (w2 & n2 & E2 & S2 & L2 & N2 & F2 & M2 & K2 & B2 & R2).
  { eapply Permutation_NoDup; [symmetry; exact Pp|exact HndR]. }
  { apply Forall_forall. intros k Hk. apply HQ in Hk. apply Hd, HRd, Hk. }
  { exact Hl1. }
  { apply Forall_forall. intros k Hk. apply HQ in Hk. split.
    - rewrite K1. apply keys_find. apply HR in Hk as (b & ? & _). eauto.
    - rewrite Hget1 by exact Hk. apply Hd, HRd, Hk. }
  { exact L1. }
  exists w2, n2. split; [exact E2|]. split; [|split; [exact L2|split; [lia|split; [|split; [|split; [|split]]]]]].
  - rewrite S2 at 1. rewrite S1. reflexivity.
  - rewrite Forall_forall in F1, F2. intros k Hk. apply Hdd in Hk as [Hk|Hk].
    + specialize (F1 k Hk). cbn beta in F1. lia.
    + apply F2, HQ, Hk.
  - intros m Hm Hk. apply M2.
    + apply M1; [exact Hm|]. apply Forall_forall. intros k Hk'. apply Hk, HLd, Hk'.
    + apply Forall_forall. intros k Hk'. apply Hk, HRd, HQ, Hk'.
  - now rewrite K2.
  - intros j. rewrite B2, B1. destruct (in_dec Z.eq_dec j Q) as [Hq|Hq]; destruct (in_dec Z.eq_dec j L) as [Hj|Hj].
    + destruct (blk_find (w_blocks w) j); reflexivity.
    + reflexivity.
    + reflexivity.
    + destruct (blk_find (w_blocks w) j) as [b|] eqn:E; [|reflexivity]. cbn [option_map].
      destruct (w_dirty b) eqn:Eb; [|destruct b as [? d ?]; cbn [w_dirty] in Eb; subst d; reflexivity].
      exfalso. destruct (proj1 (Hdd j)) as [H|H]; [exists b; auto|contradiction|]. apply Hq, HQ, H.
  - intros j Hj. rewrite R2, R1 by exact Hj. split.
    + intros H. apply Hdd in H. destruct (in_dec Z.eq_dec j Q) as [Hq|Hq].
      * rewrite Hget1 by now apply HQ. reflexivity.
      * destruct (in_dec Z.eq_dec j L) as [|Hnl]; [reflexivity|]. exfalso. destruct H as [|H]; [contradiction|]. apply Hq, HQ, H.
    + intros H. destruct (in_dec Z.eq_dec j Q) as [Hq|Hq]; [exfalso; apply H, HRd, HQ, Hq|].
      destruct (in_dec Z.eq_dec j L) as [Hjl|_]; [exfalso; apply H, HLd, Hjl|reflexivity].
Qed.

Lemma bread_ext f g j : (forall i, nth i f 0%N = nth i g 0%N) -> bread f j = bread g j.
Proof. intros H. unfold bread. apply zread_ext. intros; apply H. Qed.

Lemma extend_effect w n upper : seq_ok upper -> length (w_index w) = (blockBytes * n)%nat ->
  w_index (bw_extend w upper) = truncate (w_index w) (blockBytes * Nat.max n (Z.to_nat (blockIndex upper))) /\
  bw_extend w upper = set_index w (w_index (bw_extend w upper)).
Proof.
  intros Hs Hn. destruct (seq_ok_index _ Hs) as [Hk _]. unfold bw_extend, fsize.
  rewrite blockOffset_small by (change (2 ^ 19) with 524288; lia). 
  destruct (Z.leb_spec (4096 * blockIndex upper) (Z.of_nat (length (w_index w)))) as [L|L].
  - split; [|destruct w; reflexivity]. rewrite Nat.max_l by lia. rewrite <- Hn.
    unfold truncate. rewrite firstn_all, Nat.sub_diag. cbn [repeat]. now rewrite app_nil_r.
  - cbn [w_index]. split; [|reflexivity]. f_equal. unfold to_unsigned.
    rewrite Z.mod_small by (change (2 ^ Z.of_N 32) with 4294967296; lia). lia.
Qed.

Lemma i32_div n : Z.of_nat n <= 524287 -> i32 (Z.of_nat (blockBytes * n) / 4096) = Z.of_nat n.
Proof.
  intros H. 
  replace (Z.of_nat (blockBytes * n) / 4096) with (Z.of_nat n).
  - apply i32_small. unfold int32_ok. change (2 ^ 31) with 2147483648. lia.
  - rewrite Nat2Z.inj_mul, Z.mul_comm, Z.div_mul by lia. reflexivity.
Qed.

Lemma commit_spec K w upper : winv K w -> seq_ok upper ->
  exists w', bw_commit w upper = Some w' /\ winv K w' /\
    (forall s, seq_ok s -> ventry w' s = ventry w s) /\
    (forall k, 0 <= k -> vblk w' k = vblk w k) /\
    w_data w' = vdata w /\ w_buffer w' = [] /\ w_lease w' = w_lease w /\ w_offset w' = w_offset w /\
    (forall k, ~ is_dirty w' k) /\ keys (w_blocks w') = keys (w_blocks w) /\
    (length (w_index w) <= length (w_index w'))%nat /\
    (forall k, 0 <= k -> ~ is_dirty w k -> bread (w_index w') k = bread (w_index w) k).
Proof.
  intros Hw Hs. destruct (wi_file K w Hw) as (n & (Hlen & Hn & Hbr) & Hi).
  destruct (extend_effect w n upper Hs Hlen) as [He1 He2]. set (w1 := bw_extend w upper) in *.
  set (n1 := Nat.max n (Z.to_nat (blockIndex upper))) in *.
  assert (Hl1 : length (w_index w1) = (blockBytes * n1)%nat) by (rewrite He1; apply truncate_length).
  assert (Hb1 : forall j, bread (w_index w1) j = bread (w_index w) j).
  { intros j. apply bread_ext. intros i. rewrite He1. apply nth_truncate. lia. }
  assert (Hbk : w_blocks w1 = w_blocks w) by (rewrite He2; reflexivity).
  assert (Hdirty : forall k, is_dirty w1 k <-> is_dirty w k) by (intros; unfold is_dirty; now rewrite Hbk).
  assert (Hdk : forall k, is_dirty w1 k -> 0 <= k < 524287 /\ block_valid (w_blk (blk_get (w_blocks w1) k)) k = true).
  { intros k (b & E & Hb). rewrite Hbk in *. destruct (wi_blocks K w Hw k b E) as (H1 & H2 & H3). rewrite Hb in H3.
    rewrite (blk_get_find _ _ _ E). split; [exact H1|]. now apply block_valid_ok. }
  destruct (write_effect w1 n1) as (w2 & n2 & E2 & S2 & L2 & N2 & F2 & M2 & K2 & B2 & R2).
  { rewrite Hbk. apply (wi_keys K w Hw). }
  { rewrite Hbk. apply (winv_lens K w Hw). }
  { exact Hl1. }
  { intros k Hk. destruct (Hdk k Hk). split; [change (2 ^ 19) with 524288; lia|assumption]. }
  unfold bw_commit. fold w1. rewrite E2.
  exists (bw_reset w2). split; [reflexivity|].
  assert (Hdata : w_data w2 = vdata w).
  { rewrite S2. cbn [set_blocks set_index w_data flushed]. unfold file_append, vdata. rewrite He2. reflexivity. }
  assert (Hoff2 : w_offset w2 = w_offset w) by (rewrite S2, He2; reflexivity).
  assert (Hlease : w_lease w2 = w_lease w) by (rewrite S2, He2; reflexivity).
  assert (Hn2 : Z.of_nat n2 <= 524287).
  { enough (n2 <= Z.to_nat 524287)%nat by lia. apply M2.
    - unfold n1. destruct (seq_ok_index _ Hs) as [Hk _]. lia.
    - intros k Hk. destruct (Hdk k Hk) as [Hk' _]. lia. }
  assert (Hread : forall j, 0 <= j -> (forall b, blk_find (w_blocks w) j = Some b ->
             bread (w_index w2) j = iblock_marshal (w_blk b)) /\
             (blk_find (w_blocks w) j = None -> bread (w_index w2) j = bread (w_index w) j)).
  { intros j Hj. destruct (R2 j Hj) as [Ra Rb]. split.
    - intros b E. destruct (w_dirty b) eqn:Ed.
      + rewrite Ra by (exists b; rewrite Hbk; auto). rewrite Hbk. now rewrite (blk_get_find _ _ _ E).
      + rewrite Rb, Hb1.
        * destruct (wi_blocks K w Hw j b E) as (_ & _ & H3). now rewrite Ed in H3.
        * intros (b2 & Eb2 & Hb2). rewrite Hbk in Eb2. congruence.
    - intros E. rewrite Rb, Hb1; [reflexivity|]. intros (b2 & Eb2 & _). rewrite Hbk in Eb2. congruence. }
  assert (Hfile : index_file_ok (w_index w2) n2).
  { split; [exact L2|]. split; [exact Hn2|]. intros j Hj. destruct (Hread j Hj) as [Ha Hb].
    destruct (blk_find (w_blocks w) j) as [b|] eqn:E.
    - exists (w_blk b). split; [now apply Ha|]. apply (wi_blocks K w Hw j b E).
    - rewrite Hb by reflexivity. now apply Hbr. }
  assert (Hvb : forall k, 0 <= k -> vblk (bw_reset w2) k = vblk w k).
  { intros k Hk. unfold vblk. change (w_blocks (bw_reset w2)) with (w_blocks w2). rewrite B2, Hbk.
    destruct (blk_find (w_blocks w) k) as [b|] eqn:E; [reflexivity|]. cbn [option_map].
    change (w_index (bw_reset w2)) with (w_index w2).
    unfold fblk. now rewrite (proj2 (Hread k Hk) E). }
  assert (Hve : forall s, seq_ok s -> ventry (bw_reset w2) s = ventry w s).
  { intros s Hss. unfold ventry. rewrite Hvb; [reflexivity|]. destruct (seq_ok_index s Hss). lia. }
  assert (Hclean : forall k, ~ is_dirty (bw_reset w2) k).
  { intros k (b & E & Hb). change (w_blocks (bw_reset w2)) with (w_blocks w2) in E. rewrite B2, Hbk in E.
    destruct (blk_find (w_blocks w) k); cbn [option_map] in E; [|discriminate]. apply Some_inj in E. now subst b. }
  split; [|repeat split].
  - constructor.
    + exists n2. split; [exact Hfile|]. intros k Hk. unfold bw_reset; cbn [w_blockIdx]. unfold fsize.
      rewrite L2, i32_div by exact Hn2. reflexivity.
    + change (w_blocks (bw_reset w2)) with (w_blocks w2). rewrite K2, Hbk. apply (wi_keys K w Hw).
    + intros k b. change (w_blocks (bw_reset w2)) with (w_blocks w2). change (w_index (bw_reset w2)) with (w_index w2).
      rewrite B2, Hbk. destruct (blk_find (w_blocks w) k) as [b0|] eqn:E; cbn [option_map]; [|discriminate].
      intros E'. apply Some_inj in E'. subst b. cbn [w_blk w_dirty].
      destruct (wi_blocks K w Hw k b0 E) as (H1 & H2 & _). split; [exact H1|]. split; [exact H2|].
      apply (Hread k); [lia|exact E].
    + change (w_offset (bw_reset w2)) with (w_offset w2). rewrite Hoff2, (wi_off K w Hw). unfold vdata at 2.
      change (w_data (bw_reset w2)) with (w_data w2). cbn [bw_reset w_buffer]. rewrite app_nil_r, Hdata. reflexivity.
    + change (w_lease (bw_reset w2)) with (w_lease w2). rewrite Hlease. apply (wi_lease K w Hw).
    + change (w_lease (bw_reset w2)) with (w_lease w2). rewrite Hlease. intros r Hr.
      pose proof (wi_lease_in K w Hw r Hr) as H. change (w_data (bw_reset w2)) with (w_data w2). rewrite Hdata.
      unfold fsize, vdata in *. rewrite app_length. lia.
    + intros s e HK Hss. rewrite Hve by exact Hss. change (w_offset (bw_reset w2)) with (w_offset w2). rewrite Hoff2.
      change (w_lease (bw_reset w2)) with (w_lease w2). rewrite Hlease. apply (wi_live K w Hw); assumption.
    + intros s t e1 e2 HK1 HK2 Hss Htt Hne. rewrite !Hve by assumption. apply (wi_disj K w Hw); assumption.
  - exact Hve.
  - exact Hvb.
  - exact Hdata.
  - exact Hlease.
  - exact Hoff2.
  - exact Hclean.
  - change (w_blocks (bw_reset w2)) with (w_blocks w2). now rewrite K2, Hbk.
  - change (w_index (bw_reset w2)) with (w_index w2). rewrite Hlen, L2. lia.
  - intros k Hk Hnd. change (w_index (bw_reset w2)) with (w_index w2).
    destruct (R2 k Hk) as [_ Rb]. rewrite Rb, Hb1; [reflexivity|]. now rewrite Hdirty.
Qed.

(** * Reading back from the files *)
Lemma clean_block K w k : winv K w -> (forall j, ~ is_dirty w j) -> 0 <= k -> vblk w k = fblk (w_index w) k.
Proof.
  intros Hw Hc Hk. unfold vblk. destruct (blk_find (w_blocks w) k) as [b|] eqn:E; [|reflexivity].
  destruct (wi_blocks K w Hw k b E) as (_ & H2 & H3).
  destruct (w_dirty b) eqn:Ed; [exfalso; apply (Hc k); exists b; auto|].
  unfold fblk. rewrite H3. now rewrite (blk_ok_roundtrip k) by assumption.
Qed.

Lemma readEntry_clean K w s : winv K w -> (forall j, ~ is_dirty w j) -> seq_ok s ->
  match ventry w s with
  | Some e => readEntry (w_index w) s = Some (if x_msgOffset e =? -1 then RDeleted else RFound e)
  | None => readEntry (w_index w) s = Some RInvalid \/ readEntry (w_index w) s = None
  end.
Proof.
  intros Hw Hc Hs. destruct (seq_ok_index s Hs) as [Hk Hr]. unfold ventry.
  rewrite (clean_block K) by (assumption || lia). unfold readEntry.
  destruct (wi_file K w Hw) as (n & Hf & _).
  destruct (Z.lt_ge_cases (blockIndex s) (Z.of_nat n)) as [L|L].
  - rewrite (readIndexBlock_in _ n) by (assumption || lia). rewrite scan_find. unfold find_entry.
    destruct (find _ _); auto.
  - rewrite (fblk_out _ n) by assumption. unfold find_entry.
    change (b_entries iblock_zero) with ([] ++ repeat ie_zero entriesPerIndexBlock).
    rewrite find_entry_app by (unfold seq_ok in Hs; lia). cbn [find].
    rewrite (readIndexBlock_out _ n) by (apply Hf || lia). now right.
Qed.

Lemma live_inside K w s e : winv K w -> w_buffer w = [] -> K s -> seq_ok s -> ventry w s = Some e -> live e ->
  vdata w = w_data w /\ 0 <= x_msgOffset e /\
  (Z.to_nat (x_msgOffset e) + N.to_nat (mSize e) <= length (w_data w))%nat.
Proof.
  intros Hw Hb HK Hs E Hl. destruct (wi_live K w Hw s e HK Hs E Hl) as (H1 & H2 & _).
  assert (Hv : vdata w = w_data w) by (unfold vdata; rewrite Hb; apply app_nil_r).
  pose proof (wi_off K w Hw) as Ho. rewrite Hv in Ho. split; [exact Hv|]. lia.
Qed.

Lemma read_clean K w s e : winv K w -> w_buffer w = [] -> K s -> seq_ok s -> ventry w s = Some e -> live e ->
  read_at (w_data w) (x_msgOffset e) (N.to_nat (mSize e)) = Some (content (vdata w) e).
Proof.
  intros Hw Hb HK Hs E Hl. destruct (live_inside K w s e Hw Hb HK Hs E Hl) as (Hv & H1 & H2).
  rewrite read_at_zread by lia. unfold content. now rewrite Hv.
Qed.

