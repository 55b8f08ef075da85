(** Proofs about the write-ahead log. *)
From Verif Require Import M_Bytes P_Bytes M_File P_File M_Wal S_Wal.
From Coq Require Import Lia ZifyBool ZifyNat ZifyN.
Open Scope N_scope.

Definition enc (rs : list bytes) : bytes := concat (map (fun r => le 4 (N.of_nat (length r) + 4) ++ r) rs).

Lemma enc_length rs : N.of_nat (length (enc rs)) = records_size rs.
Proof.
  induction rs as [|r rs IH]; [reflexivity|]. unfold enc in *. cbn [map concat records_size fold_right].
  fold (records_size rs). rewrite !app_length, le_length. lia.
Qed.

Lemma append_all rs : forall w, Forall (fun r => r <> []) rs ->
  lw_size w + records_size rs < 2 ^ 32 -> lw_count w <= lw_size w ->
  fold_left lw_append rs w =
    mkLW (lw_count w + N.of_nat (length rs)) (lw_buf w ++ enc rs) (lw_size w + records_size rs).
Proof.
  induction rs as [|r rs IH]; intros w Hne Hsz Hc.
  - cbn [fold_left]. unfold enc; cbn. rewrite app_nil_r. destruct w as [c b s]; cbn. f_equal; lia.
  - inversion Hne as [|? ? Hr Hne']; subst. cbn [fold_left].
    cbn [records_size fold_right] in *. fold (records_size rs) in *.
    assert (Ha : lw_append w r = mkLW (lw_count w + 1) (lw_buf w ++ le 4 (N.of_nat (length r) + 4) ++ r)
                                  (lw_size w + (N.of_nat (length r) + 4))).
    { unfold lw_append. destruct r as [|b r]; [congruence|]. cbv zeta. set (n := N.of_nat (length (b :: r))) in *.
      unfold u32. rewrite (N.mod_small (n + 4)) by lia. rewrite !N.mod_small by lia. reflexivity. }
    rewrite Ha, IH; cbn [lw_size lw_count lw_buf]; [|assumption|lia|lia].
    unfold enc. cbn [map concat length]. f_equal; [lia| |lia]. now rewrite <- !app_assoc.
Qed.

Lemma read_enc_app rs : forall m pre post, records_size rs < 2 ^ 32 ->
  read_records (length rs + m) (pre ++ enc rs ++ post) (length pre) =
    (let (t, e) := read_records m (pre ++ enc rs ++ post) (length pre + length (enc rs)) in (rs ++ t, e)).
Proof.
  induction rs as [|r rs IH]; intros m pre post Hsz.
  - cbn [length Nat.add app]. unfold enc. cbn [map concat length]. rewrite Nat.add_0_r.
    destruct (read_records m _ _). reflexivity.
  - cbn [length read_records Nat.add]. cbn [records_size fold_right] in Hsz. fold (records_size rs) in Hsz.
    set (h := le 4 (N.of_nat (length r) + 4)).
    assert (Hh : length h = 4%nat) by apply le_length.
    assert (Henc : enc (r :: rs) = h ++ r ++ enc rs) by (unfold enc; cbn [map concat]; now rewrite <- app_assoc).
    rewrite Henc. rewrite <- !app_assoc.
    rewrite (slice_app_mid pre h) by (auto; lia).
    assert (Hu : unle h = N.of_nat (length r) + 4) by (unfold h; apply unle_le4; lia). rewrite Hu.
    replace (Nat.ltb (length (pre ++ h ++ r ++ enc rs ++ post)) (length pre + 4)) with false
      by (rewrite !app_length; lia).
    replace (N.to_nat (N.of_nat (length r) + 4)) with (length r + 4)%nat by lia.
    replace (Nat.ltb (length r + 4) 4 || Nat.ltb (length (pre ++ h ++ r ++ enc rs ++ post)) (length pre + (length r + 4)))%bool
      with false by (rewrite !app_length; lia).
    replace (length pre + (length r + 4))%nat with (length (pre ++ h ++ r)) by (rewrite !app_length; lia).
    replace (pre ++ h ++ r ++ enc rs ++ post) with ((pre ++ h ++ r) ++ enc rs ++ post) by (now rewrite <- !app_assoc).
    rewrite IH by lia.
    replace (length (pre ++ h ++ r) + length (enc rs))%nat with (length pre + length (h ++ r ++ enc rs))%nat
      by (rewrite !app_length; lia).
    destruct (read_records m _ _) as [t e]. cbn [app]. f_equal. f_equal.
    replace ((pre ++ h ++ r) ++ enc rs ++ post) with ((pre ++ h) ++ r ++ enc rs ++ post) by (now rewrite <- !app_assoc).
    apply slice_app_mid; rewrite ?app_length; lia.
Qed.

Lemma read_enc rs pre post : records_size rs < 2 ^ 32 ->
  read_records (length rs) (pre ++ enc rs ++ post) (length pre) = (rs, EndOk).
Proof.
  intros H. pose proof (read_enc_app rs 0 pre post H) as E. rewrite Nat.add_0_r in E. rewrite E.
  cbn [read_records]. now rewrite app_nil_r.
Qed.

Definition logfile (id : Z) (rs : list bytes) : bytes :=
  li_marshal (mkLI 1 id (N.of_nat (length rs)) (records_size rs)) ++ enc rs.

Lemma li_marshal_length l : length (li_marshal l) = 18%nat.
Proof. unfold li_marshal. now rewrite !app_length, !le_length. Qed.

Lemma li_roundtrip l : li_version l < 2 ^ 16 -> (- 2 ^ 63 <= li_timeID l < 2 ^ 63)%Z ->
  li_count l < 2 ^ 32 -> li_size l < 2 ^ 32 -> li_unmarshal (li_marshal l) = l.
Proof.
  intros H1 H2 H3 H4. unfold li_unmarshal, li_marshal.
  set (a := le 2 (li_version l)). set (b := le 8 (to_unsigned 64 (li_timeID l))).
  set (c := le 4 (li_count l)). set (e := le 4 (li_size l)).
  assert (Ha : length a = 2%nat) by apply le_length. assert (Hb : length b = 8%nat) by apply le_length.
  assert (Hc : length c = 4%nat) by apply le_length. assert (He : length e = 4%nat) by apply le_length.
  rewrite (slice_head a) by exact Ha. rewrite (slice_app_mid a b) by assumption.
  replace (a ++ b ++ c ++ e) with ((a ++ b) ++ c ++ e) by (now rewrite <- app_assoc).
  rewrite (slice_app_mid (a ++ b) c) by (rewrite ?app_length; lia).
  replace ((a ++ b) ++ c ++ e) with ((a ++ b ++ c) ++ e) by (now rewrite <- !app_assoc).
  rewrite slice_app_mid_end by (rewrite ?app_length; lia).
  unfold a, b, c, e. rewrite unle_le2, unle_le8, !unle_le4; try assumption.
  - rewrite to_signed_unsigned by (cbn; lia). destruct l; reflexivity.
  - pose proof (to_unsigned_bound 64 (li_timeID l)). lia.
Qed.

Lemma records_pos rs : rs <> [] -> 0 < records_size rs.
Proof. destruct rs; [congruence|]. cbn [records_size fold_right]. lia. Qed.
Lemma records_count rs : N.of_nat (length rs) <= records_size rs.
Proof.
  induction rs as [|r rs IH]; [reflexivity|]. cbn [records_size fold_right length]. fold (records_size rs). lia.
Qed.
Lemma enc_nonempty rs : rs <> [] -> enc rs <> [].
Proof. intros H E. apply records_pos in H. rewrite <- enc_length, E in H. cbn in H. lia. Qed.

(** * Directories *)
Lemma fname_eqb_spec a b : reflect (a = b) (fname_eqb a b).
Proof.
  destruct a, b; cbn; try (constructor; discriminate).
  1-3: destruct (Z.eqb_spec id id0); constructor; congruence.
  destruct (N.eqb_spec k k0); constructor; congruence.
Qed.
Lemma fname_eqb_refl a : fname_eqb a a = true.
Proof. destruct (fname_eqb_spec a a); congruence. Qed.

Lemma ddel_app a b n : ddel (a ++ b) n = ddel a n ++ ddel b n.
Proof. apply filter_app. Qed.
Lemma ddel_idem d n : ddel (ddel d n) n = ddel d n.
Proof.
  induction d as [|[m c] d IH]; cbn [ddel filter fst]; [reflexivity|].
  fold (ddel d n). destruct (fname_eqb n m) eqn:E; cbn [negb]; [exact IH|].
  cbn [ddel filter fst]. rewrite E. cbn [negb]. fold (ddel (ddel d n) n). now rewrite IH.
Qed.
Lemma dset_dset d n a b : dset (dset d n a) n b = dset d n b.
Proof.
  unfold dset. rewrite ddel_app, ddel_idem. unfold ddel at 2; cbn [filter fst]. rewrite fname_eqb_refl. cbn [negb].
  now rewrite app_nil_r.
Qed.
Lemma dget_app a b n : dget (a ++ b) n = match dget a n with Some c => Some c | None => dget b n end.
Proof. induction a as [|[m c] a IH]; cbn [app dget]; [reflexivity|]. destruct (fname_eqb n m); [reflexivity|exact IH]. Qed.
Lemma dget_ddel_same d n : dget (ddel d n) n = None.
Proof.
  induction d as [|[m c] d IH]; cbn [ddel filter fst dget]; [reflexivity|]. fold (ddel d n).
  destruct (fname_eqb n m) eqn:E; cbn [negb]; [exact IH|]. cbn [dget]. now rewrite E.
Qed.
Lemma dget_ddel d n m : n <> m -> dget (ddel d n) m = dget d m.
Proof.
  intros H. induction d as [|[k c] d IH]; cbn [ddel filter fst dget]; [reflexivity|]. fold (ddel d n).
  destruct (fname_eqb_spec n k) as [->|E]; cbn [negb].
  - destruct (fname_eqb_spec m k); [congruence|exact IH].
  - cbn [dget]. destruct (fname_eqb m k); [reflexivity|exact IH].
Qed.
Lemma dget_dset_same d n c : dget (dset d n c) n = Some c.
Proof. unfold dset. rewrite dget_app, dget_ddel_same. cbn. now rewrite fname_eqb_refl. Qed.

Definition is_log (f : fname * bytes) : bool := match fst f with FLog _ => true | _ => false end.

Lemma rename_map d a b : dget d a = None -> map (fun f => if fname_eqb a (fst f) then (b, snd f) else f) d = d.
Proof.
  induction d as [|[m c] d IH]; cbn [dget map fst]; [reflexivity|].
  destruct (fname_eqb a m) eqn:E; [discriminate|]. intros H. now rewrite IH.
Qed.

(** The whole write in one step. *)
Lemma rename_last d a b c : a <> b -> dget d a = None ->
  apply_op (d ++ [(a, c)]) (ORename a b) = ddel d b ++ [(b, c)].
Proof.
  intros Hab Hd. cbn [apply_op]. rewrite dget_app, Hd. cbn [dget]. rewrite fname_eqb_refl.
  rewrite ddel_app, map_app. f_equal.
  - apply rename_map. rewrite dget_ddel by congruence. exact Hd.
  - unfold ddel; cbn [filter fst]. destruct (fname_eqb_spec b a); [congruence|]. cbn [negb map fst snd].
    now rewrite fname_eqb_refl.
Qed.

Lemma tmp_log id id' : FTmp id <> FLog id'. Proof. discriminate. Qed.

Lemma put_dir d info data : data <> [] ->
  fold_left apply_op (put_ops info data) d =
    ddel (ddel d (FTmp (li_timeID info))) (FLog (li_timeID info)) ++ [(FLog (li_timeID info), li_marshal info ++ data)].
Proof.
  intros Hd. unfold put_ops. set (t := FTmp (li_timeID info)). set (l := FLog (li_timeID info)).
  cbn [fold_left]. unfold apply_op at 4. unfold apply_op at 3. rewrite dget_dset_same.
  assert (W1 : write_at [] 0 (li_marshal info) = Some (li_marshal info)).
  { unfold write_at. cbn [Z.ltb]. change (0 <? 0)%Z with false. cbv iota.
    pose proof (li_marshal_length info) as HL. destruct (li_marshal info) as [|b r]; [discriminate|].
    change (Z.to_nat 0) with O. cbn [length Nat.sub repeat app firstn Nat.add]. rewrite skipn_nil. now rewrite app_nil_r. }
  rewrite W1, dset_dset.
  unfold apply_op at 2. rewrite dget_dset_same.
  assert (W2 : write_at (li_marshal info) 18 data = Some (li_marshal info ++ data)).
  { pose proof (li_marshal_length info) as HL. unfold write_at. change (18 <? 0)%Z with false. cbv iota.
    destruct data as [|b r]; [congruence|]. change (Z.to_nat 18) with 18%nat. rewrite HL, Nat.sub_diag. cbn [repeat].
    rewrite app_nil_r. rewrite firstn_all2 by lia. rewrite (skipn_all2 (n := 18 + length (b :: r))) by lia. now rewrite app_nil_r. }
  rewrite W2, dset_dset. unfold dset. rewrite rename_last; [reflexivity|discriminate|apply dget_ddel_same].
Qed.

Lemma write_records_dir d id rs : log_ok id rs ->
  write_records d id rs = ddel (ddel d (FTmp id)) (FLog id) ++ [(FLog id, logfile id rs)].
Proof.
  intros (_ & Hne & Hnn & Hsz). unfold write_records, writeLog, log_ops.
  rewrite append_all; [|assumption|cbn; lia|cbn; lia]. cbn [lw_size lw_count lw_buf newWriter app].
  rewrite !N.add_0_l. pose proof (records_pos rs Hne). replace (records_size rs =? 0) with false by lia.
  rewrite put_dir by now apply enc_nonempty. reflexivity.
Qed.

(** * Replay *)
Lemma all_ids_app a b : all_ids (a ++ b) = all_ids a ++ all_ids b.
Proof. apply flat_map_app. Qed.
Lemma all_ids_filter d : all_ids (filter is_log d) = all_ids d.
Proof.
  induction d as [|[m c] d IH]; cbn [filter all_ids flat_map fst]; [reflexivity|].
  unfold is_log at 1; cbn [fst]. destruct m; cbn [all_ids flat_map fst app]; fold (all_ids (filter is_log d)) (all_ids d); now rewrite IH.
Qed.
Lemma dget_filter d id : dget (filter is_log d) (FLog id) = dget d (FLog id).
Proof.
  induction d as [|[m c] d IH]; cbn [filter dget fst]; [reflexivity|].
  unfold is_log at 1; cbn [fst]. destruct m; cbn [dget fname_eqb]; try exact IH.
  destruct (id =? id0)%Z; [reflexivity|exact IH].
Qed.
Lemma read_log_ext d1 d2 id : dget d1 (FLog id) = dget d2 (FLog id) -> read_log d1 id = read_log d2 id.
Proof. unfold read_log. now intros ->. Qed.
Lemma replay_filter d : replay (filter is_log d) = replay d.
Proof.
  unfold replay. rewrite all_ids_filter. apply map_ext. intros id. now rewrite (read_log_ext _ d) by apply dget_filter.
Qed.
Lemma replay_logs d1 d2 : filter is_log d1 = filter is_log d2 -> replay d1 = replay d2.
Proof. intros H. now rewrite <- (replay_filter d1), <- (replay_filter d2), H. Qed.

Lemma dget_log_none d id : ~ In id (all_ids d) -> dget d (FLog id) = None.
Proof.
  induction d as [|[m c] d IH]; cbn [all_ids flat_map fst dget]; [reflexivity|]. fold (all_ids d). intros H.
  rewrite in_app_iff in H. destruct (fname_eqb_spec (FLog id) m) as [<-|]; [exfalso; apply H; left; now left|]. apply IH. tauto.
Qed.
Lemma dget_log_some d id : In id (all_ids d) -> exists c, dget d (FLog id) = Some c.
Proof.
  induction d as [|[m c] d IH]; cbn [all_ids flat_map fst dget]; [intros []|]. fold (all_ids d). rewrite in_app_iff. intros H.
  destruct (fname_eqb_spec (FLog id) m) as [E|E]; [eauto|]. destruct H as [H|H]; [|auto].
  destruct m; cbn in H; try contradiction. destruct H as [->|[]]. congruence.
Qed.

Lemma ddel_none d n : dget d n = None -> ddel d n = d.
Proof.
  induction d as [|[m c] d IH]; cbn [dget ddel filter fst]; [reflexivity|]. fold (ddel d n).
  destruct (fname_eqb n m); [discriminate|]. cbn [negb]. intros H. now rewrite IH.
Qed.
Lemma filter_ddel_tmp d id : filter is_log (ddel d (FTmp id)) = filter is_log d.
Proof.
  induction d as [|[m c] d IH]; cbn [ddel filter fst]; [reflexivity|]. fold (ddel d (FTmp id)).
  destruct m; cbn [fname_eqb negb].
  - cbn [filter]. unfold is_log at 1 3. cbn [fst]. now rewrite IH.
  - destruct (id =? id0)%Z; cbn [negb filter]; unfold is_log at 1; cbn [fst]; [|unfold is_log at 2; cbn [fst]]; exact IH.
  - cbn [filter]. unfold is_log at 1 3. cbn [fst]. exact IH.
  - cbn [filter]. unfold is_log at 1 3. cbn [fst]. exact IH.
Qed.

Lemma read_logfile d id rs : log_ok id rs -> dget d (FLog id) = Some (logfile id rs) ->
  read_log d id = (mkLI 1 id (N.of_nat (length rs)) (records_size rs), enc rs, false).
Proof.
  intros (Hid & Hne & _ & Hsz) Hd. unfold read_log. rewrite Hd. unfold logfile.
  set (h := li_marshal _). assert (Hh : length h = 18%nat) by apply li_marshal_length.
  rewrite (read_at_data _ _ _ h); [|lia|rewrite app_length, Hh; unfold logHeaderSize; change (Z.to_nat 0) with O; lia|exact Hh|].
  2:{ intros i Hi. rewrite nth_app. change (Z.to_nat 0 + i)%nat with i.
      unfold logHeaderSize in Hi. now replace (Nat.ltb i (length h)) with true by lia. }
  unfold h. rewrite li_roundtrip; cbn [li_version li_timeID li_count li_size];
    [|reflexivity|assumption|pose proof (records_count rs); lia|assumption].
  fold h. replace (slice (h ++ enc rs) logHeaderSize (N.to_nat (records_size rs))) with (enc rs).
  - rewrite <- enc_length, Nat2N.id, Nat.sub_diag, Nat.ltb_irrefl. cbn [repeat]. now rewrite app_nil_r.
  - symmetry. apply slice_app_mid_end; [exact Hh|]. rewrite <- enc_length. lia.
Qed.

Lemma replay_app d id rs : log_ok id rs -> ~ In id (all_ids d) ->
  replay (d ++ [(FLog id, logfile id rs)]) = replay d ++ [(id, (rs, EndOk))].
Proof.
  intros Hok Hni. unfold replay. rewrite all_ids_app, map_app. f_equal.
  - apply map_ext_in. intros id' Hin. rewrite (read_log_ext _ d); [reflexivity|].
    rewrite dget_app. destruct (dget_log_some d id' Hin) as [c ->]. reflexivity.
  - cbn [all_ids flat_map fst map app].
    rewrite (read_logfile _ id rs Hok).
    + cbn [li_count]. rewrite Nat2N.id.
      pose proof (read_enc rs [] [] ltac:(apply Hok)) as H. cbn [app length] in H. rewrite app_nil_r in H. now rewrite H.
    + rewrite dget_app, dget_log_none by exact Hni. cbn [dget]. now rewrite fname_eqb_refl.
Qed.

Lemma write_replay d id rs : log_ok id rs -> ~ In id (all_ids d) ->
  replay (write_records d id rs) = replay d ++ [(id, (rs, EndOk))] /\
  all_ids (write_records d id rs) = all_ids d ++ [id].
Proof.
  intros Hok Hni. rewrite write_records_dir by exact Hok.
  rewrite (ddel_none (ddel d (FTmp id))) by (rewrite dget_ddel by discriminate; now apply dget_log_none).
  assert (Hids : all_ids (ddel d (FTmp id)) = all_ids d) by (rewrite <- all_ids_filter, filter_ddel_tmp; apply all_ids_filter).
  split.
  - rewrite replay_app by (try assumption; now rewrite Hids). f_equal. apply replay_logs, filter_ddel_tmp.
  - rewrite all_ids_app, Hids. reflexivity.
Qed.

Lemma write_all ls : forall d, Forall (fun l => log_ok (fst l) (snd l)) ls -> NoDup (map fst ls) ->
  (forall id, In id (map fst ls) -> ~ In id (all_ids d)) ->
  replay (fold_left (fun d l => write_records d (fst l) (snd l)) ls d) =
    replay d ++ map (fun l => (fst l, (snd l, EndOk))) ls.
Proof.
  induction ls as [|[id rs] ls IH]; intros d Hok Hnd Hni; cbn [fold_left map fst snd]; [now rewrite app_nil_r|].
  inversion Hok as [|? ? H1 Hok']; subst. inversion Hnd as [|? ? Hni1 Hnd']; subst. cbn [fst snd] in *.
  destruct (write_replay d id rs H1) as [E1 E2]; [apply Hni; now left|].
  rewrite IH; [|assumption|assumption|].
  - rewrite E1, <- app_assoc. reflexivity.
  - intros id' Hin'. rewrite E2, in_app_iff. intros [H|[->|[]]]; [|contradiction]. apply (Hni id'); [now right|exact H].
Qed.

(** * Crashes *)
Lemma filter_dset_tmp d id c : filter is_log (dset d (FTmp id) c) = filter is_log d.
Proof. unfold dset. rewrite filter_app, filter_ddel_tmp. cbn [filter]. unfold is_log at 2. cbn [fst]. apply app_nil_r. Qed.

Lemma filter_write_tmp d id off b : filter is_log (apply_op d (OWriteAt (FTmp id) off b)) = filter is_log d.
Proof.
  cbn [apply_op]. destruct (dget d (FTmp id)); [|reflexivity]. destruct (write_at _ _ _); [apply filter_dset_tmp|reflexivity].
Qed.

Lemma crash_put d info data d' : crashed d (put_ops info data) d' ->
  filter is_log d' = filter is_log d \/ d' = fold_left apply_op (put_ops info data) d.
Proof.
  unfold put_ops. intros H. inversion H as [? ? E1|? ? ? ? ? ? |? ? ? ? H1]; subst; clear H; [now left|].
  inversion H1 as [? ? E1|? ? ? ? ? ? |? ? ? ? H2]; subst; clear H1.
  - left. cbn [apply_op]. apply filter_dset_tmp.
  - left. rewrite filter_write_tmp. cbn [apply_op]. apply filter_dset_tmp.
  - inversion H2 as [? ? E1|? ? ? ? ? ? |? ? ? ? H3]; subst; clear H2.
    + left. rewrite filter_write_tmp. cbn [apply_op]. apply filter_dset_tmp.
    + left. rewrite !filter_write_tmp. cbn [apply_op]. apply filter_dset_tmp.
    + inversion H3 as [? ? E1|? ? ? ? ? ? |? ? ? ? H4]; subst; clear H3.
      * left. rewrite !filter_write_tmp. cbn [apply_op]. apply filter_dset_tmp.
      * inversion H4; subst. right. reflexivity.
Qed.

Lemma crash_log d w id d' : crashed d (log_ops w id) d' ->
  filter is_log d' = filter is_log d \/ d' = writeLog d w id.
Proof.
  unfold writeLog, log_ops. destruct (lw_size w =? 0).
  - intros H. inversion H; subst. now left.
  - apply crash_put.
Qed.

Lemma crash_replay d w id d' : crashed d (log_ops w id) d' ->
  replay d' = replay d \/ replay d' = replay (writeLog d w id).
Proof. intros H. destruct (crash_log d w id d' H) as [E|E]; [left; now apply replay_logs|right; now rewrite E]. Qed.

(** * A log cut short on disk *)
Lemma cut_header d id k : (k < logHeaderSize)%nat -> forall f, dget d (FLog id) = Some (firstn k f) ->
  read_log d id = (li_zero, [], true).
Proof.
  intros Hk f H. unfold read_log. rewrite H, read_at_none; [reflexivity|lia|].
  rewrite firstn_length. change (Z.to_nat 0) with O. lia.
Qed.

Lemma enc_app a b : enc (a ++ b) = enc a ++ enc b.
Proof. unfold enc. now rewrite map_app, concat_app. Qed.
Lemma records_size_app a b : records_size (a ++ b) = records_size a + records_size b.
Proof. rewrite <- !enc_length, enc_app, app_length. lia. Qed.

Lemma cut_log id rs1 rs2 k : log_ok id (rs1 ++ rs2) ->
  (logHeaderSize + N.to_nat (records_size rs1) <= k)%nat ->
  exists t e, replay [(FLog id, firstn k (logfile id (rs1 ++ rs2)))] = [(id, (rs1 ++ t, e))].
Proof.
  intros (Hid & Hne & _ & Hsz) Hk. unfold replay. cbn [all_ids flat_map fst app map].
  unfold read_log. cbn [dget]. rewrite fname_eqb_refl. unfold logfile.
  set (h := li_marshal _). assert (Hh : length h = logHeaderSize) by apply li_marshal_length.
  assert (Hcut : exists post, firstn k (h ++ enc (rs1 ++ rs2)) = h ++ enc rs1 ++ post).
  { exists (firstn (k - length h - length (enc rs1)) (enc rs2)). rewrite enc_app.
    rewrite !firstn_app. rewrite (firstn_all2 h) by lia. f_equal.
    rewrite (firstn_all2 (enc rs1)); [reflexivity|]. pose proof (enc_length rs1). lia. }
  destruct Hcut as [post ->].
  rewrite (read_at_data _ _ _ h); [|lia|rewrite app_length, Hh; change (Z.to_nat 0) with O; lia|exact Hh|].
  2:{ intros i Hi. rewrite nth_app. change (Z.to_nat 0 + i)%nat with i.
      now replace (Nat.ltb i (length h)) with true by lia. }
  assert (Hm : li_unmarshal h = mkLI 1 id (N.of_nat (length (rs1 ++ rs2))) (records_size (rs1 ++ rs2))).
  { apply li_roundtrip; cbn [li_version li_timeID li_count li_size];
      [reflexivity|assumption|pose proof (records_count (rs1 ++ rs2)); lia|assumption]. }
  cbv zeta. rewrite Hm. cbn [li_count li_size]. rewrite Nat2N.id.
  set (got := slice (h ++ enc rs1 ++ post) logHeaderSize (N.to_nat (records_size (rs1 ++ rs2)))).
  assert (Hg : exists p, got = enc rs1 ++ p).
  { unfold got, slice. rewrite skipn_app, skipn_all2 by lia. rewrite Hh, Nat.sub_diag. cbn [skipn app].
    rewrite firstn_app, (firstn_all2 (enc rs1)); [eauto|].
    rewrite records_size_app. pose proof (enc_length rs1). lia. }
  clearbody got. destruct Hg as [p ->]. rewrite <- app_assoc, (app_length rs1).
  rewrite records_size_app in Hsz.
  pose proof (read_enc_app rs1 (length rs2) [] (p ++ repeat 0 (N.to_nat (records_size (rs1 ++ rs2)) - length (enc rs1 ++ p))) ltac:(lia)) as E.
  cbn [app length] in E. rewrite E. destruct (read_records (length rs2) _ _) as [t e]. eauto.
Qed.

Lemma cut_header_replay id rs k : (k < logHeaderSize)%nat ->
  replay [(FLog id, firstn k (logfile id rs))] = [(id, ([], EndOk))].
Proof.
  intros Hk. unfold replay. cbn [all_ids flat_map fst app map].
  rewrite (cut_header _ id k Hk (logfile id rs)); [reflexivity|]. cbn [dget]. now rewrite fname_eqb_refl.
Qed.

Lemma cut_ex_ok : log_ok 7 [[1; 2]; [3; 4]; [5]].
Proof. repeat split; try discriminate; repeat constructor; discriminate. Qed.
