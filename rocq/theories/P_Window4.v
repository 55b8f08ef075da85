(** Lookups. *)
From Verif Require Import M_Bytes P_Bytes M_Hash P_Hash P_Bloom P_Mac M_File P_File P_Index M_BlockRange P_BlockRange
  M_MemDB P_MemBlock M_Query M_BlockStore P_BlockStore M_WinBlock M_Window S_Window P_Window P_Window2 P_Window3.
From Coq Require Import Lia ZifyBool ZifyNat ZifyN.
Open Scope Z_scope.

Lemma filter_len {A} (p : A -> bool) l : (length (filter p l) <= length l)%nat.
Proof. induction l as [|x l IH]; cbn; [lia|]. destruct (p x); cbn; lia. Qed.

Lemma newest_live_all now l es : Z.of_nat (length es) <= l -> newest_live now l es = filter (we_live now) (rev es).
Proof. intros H. unfold newest_live. rewrite firstn_all2; [reflexivity|]. rewrite rev_length. lia. Qed.

(** Nothing expired, whatever the file holds. *)
Lemma newest_live_in now l es e : In e (newest_live now l es) -> we_live now e = true /\ In e es.
Proof.
  unfold newest_live. intros H. apply filter_In in H as [H1 H2]. split; [exact H2|].
  rewrite in_rev. rewrite <- (firstn_skipn (Z.to_nat l) (rev es)). apply in_app_iff. now left.
Qed.
Lemma ilookup_in now limit : forall ls l acc e, In e (ilookup_loop now limit l ls acc) ->
  In e acc \/ (we_live now e = true /\ exists es, In es ls /\ In e es).
Proof.
  induction ls as [|es ls IH]; intros l acc e; cbn [ilookup_loop]; [now left|].
  destruct es as [|e0 es].
  - intros H. destruct (IH _ _ _ H) as [?|(? & x & ? & ?)]; [now left|]. right. split; [assumption|]. exists x. split; [now right|assumption].
  - intros H. destruct (IH _ _ _ H) as [Ha|(? & x & ? & ?)].
    + apply in_app_iff in Ha as [Ha|Ha]; [now left|]. right. apply newest_live_in in Ha as [A B]. split; [exact A|].
      exists (e0 :: es). split; [now left|exact B].
    + right. split; [assumption|]. exists x. split; [now right|assumption].
Qed.
Lemma look_block_in now h cutoff b limit acc acc' limit' s e : look_block now h cutoff b limit acc = Some (acc', limit', s) ->
  In e acc' -> In e acc \/ we_live now e = true.
Proof.
  unfold look_block. destruct (negb _); [intros E; apply Some_inj in E; injection E as <- <- <-; now left|].
  destruct (wb_used b) as [es|]; [|discriminate].
  destruct (_ <? _); [destruct (_ <=? _)|]; intros E; apply Some_inj in E; injection E as <- <- <-;
    rewrite ?in_app_iff; intros H; repeat (destruct H as [H|H]); auto; right; apply newest_live_in in H; apply H.
Qed.
Lemma look_chain_in now f h cutoff e : forall fuel off limit acc r, look_chain fuel now f h cutoff off limit acc = Some r ->
  In e r -> In e acc \/ we_live now e = true.
Proof.
  induction fuel as [|fuel IH]; intros off limit acc r; cbn [look_chain]; [discriminate|].
  destruct (readWindowBlock f off) as [b|]; [|intros E; apply Some_inj in E; subst; now left].
  destruct (look_block now h cutoff b limit acc) as [[[acc' limit'] s]|] eqn:Eb; [|discriminate].
  pose proof (look_block_in _ _ _ _ _ _ _ _ _ e Eb) as Hb. destruct s.
  - intros E; apply Some_inj in E; subst. auto.
  - destruct (wb_next b =? 0).
    + intros E; apply Some_inj in E; subst. auto.
    + intros E Hin. destruct (IH _ _ _ _ E Hin); auto.
Qed.
Lemma lookup_live now ls f h off cutoff limit r : tw_lookup now ls f h off cutoff limit = Some r ->
  Forall (fun e => is_expired (w_expiresAt e) now = false) r.
Proof.
  intros H. apply Forall_forall. intros e He.
  assert (X : we_live now e = true).
  { unfold tw_lookup in H.
    assert (Y : In e (tw_ilookup now limit ls) -> we_live now e = true).
    { intros Hi. apply ilookup_in in Hi as [Hi|[Hi _]]; [destruct Hi|exact Hi]. }
    destruct (limit <=? _).
    - apply Some_inj in H. subst r. auto.
    - destruct (look_chain_in _ _ _ _ _ _ _ _ _ _ H He); auto. }
  unfold we_live in X. now destruct (is_expired _ _).
Qed.

(** ** All of them when the limit is not reached *)
Lemma ilookup_all now limit : forall ls l acc, 0 <= l -> l + Z.of_nat (total ls) <= limit ->
  ilookup_loop now limit l ls acc = acc ++ live_lists now ls.
Proof.
  induction ls as [|es ls IH]; intros l acc Hl Ht; cbn [ilookup_loop].
  - unfold live_lists. cbn. now rewrite app_nil_r.
  - unfold total in *. cbn [concat] in Ht. rewrite app_length in Ht. unfold live_lists. cbn [map concat].
    destruct es as [|e es].
    + cbn [rev filter app]. apply IH; [exact Hl|]. cbn [length] in Ht. lia.
    + set (x := e :: es) in *. replace (if Z.of_nat (length x) <? limit - l then Z.of_nat (length x) else limit - l)
        with (Z.of_nat (length x)) by (destruct (Z.ltb_spec (Z.of_nat (length x)) (limit - l)); lia).
      rewrite IH by lia. rewrite newest_live_all by lia. now rewrite app_assoc.
Qed.

Lemma live_lists_len now ls : (length (live_lists now ls) <= total ls)%nat.
Proof.
  unfold live_lists, total. induction ls as [|es ls IH]; cbn; [lia|]. rewrite !app_length.
  pose proof (filter_len (we_live now) (rev es)). rewrite rev_length in H. lia.
Qed.

Lemma chain_lt f n h k C : fwf f n -> chain (fview f) h k C -> 0 <= k < Z.of_nat n.
Proof.
  intros Hf H. apply chain_head in H as (Hk & b & E & _). split; [exact Hk|].
  destruct (Z_lt_le_dec k (Z.of_nat n)) as [|Hx]; [assumption|]. rewrite (fview_out f n k Hf Hx) in E. discriminate.
Qed.

Lemma has_used b l : blk_has b l -> wb_used b = Some (map fst l).
Proof.
  intros (H1 & H2 & H3). unfold wb_used. rewrite H1, Nat2N.id.
  destruct (Nat.ltb_spec entriesPerWindowBlock (length l)); [lia|]. now rewrite H3.
Qed.

Definition all_live (now : Z) (l : list tent) : Prop := Forall (fun x : tent => we_live now (fst x) = true) l.
Lemma all_live_filter now l : all_live now l -> filter (we_live now) (map fst l) = map fst l.
Proof.
  induction 1 as [|x l H _ IH]; cbn; [reflexivity|]. rewrite H. now rewrite IH.
Qed.
Lemma filter_all {A} (p : A -> bool) l : (forall x, In x l -> p x = true) -> filter p l = l.
Proof. induction l as [|x l IH]; cbn; intros H; [reflexivity|]. rewrite H by auto. f_equal. auto. Qed.
Lemma all_live_newest now l n : all_live now l -> newest_live now n (map fst l) = firstn (Z.to_nat n) (rev (map fst l)).
Proof.
  intros H. unfold newest_live. apply filter_all. intros e He.
  assert (In e (rev (map fst l))) as Hi by (rewrite <- (firstn_skipn (Z.to_nat n)); apply in_app_iff; now left).
  apply in_rev, in_map_iff in Hi as (x & <- & Hx). unfold all_live in H. rewrite Forall_forall in H. now apply H.
Qed.

Lemma firstn_app_ge {A} (a b : list A) n : (length a <= n)%nat -> firstn n (a ++ b) = a ++ firstn (n - length a) b.
Proof. intros H. rewrite firstn_app. now rewrite (firstn_all2 a) by lia. Qed.

Definition block_step now h cutoff b limit acc l : Prop :=
  (Z.of_nat (length acc + length l) <= limit ->
     look_block now h cutoff b limit acc = Some (acc ++ live_desc now l, limit, wb_old b cutoff)) /\
  (all_live now l -> Z.of_nat (length acc) < limit ->
     (Z.of_nat (length acc + length l) <= limit) \/
     exists limit', look_block now h cutoff b limit acc = Some (firstn (Z.to_nat limit) (acc ++ rev (map fst l)), limit', true)).

Lemma look_block_step now h cutoff b limit acc l : wb_topicHash b = h -> blk_has b l -> block_step now h cutoff b limit acc l.
Proof.
  intros Hh Hb. unfold block_step, look_block. rewrite (has_used b l Hb), Hh, N.eqb_refl. cbn [negb].
  rewrite map_length. split.
  - intros Hl. replace (limit - Z.of_nat (length l) <? Z.of_nat (length acc)) with false by lia.
    rewrite newest_live_all by (rewrite map_length; lia). reflexivity.
  - intros Hall Hl. destruct (Z.ltb_spec (limit - Z.of_nat (length l)) (Z.of_nat (length acc))) as [Hlt|Hge]; [right|left; lia].
    assert (E : acc ++ newest_live now (limit - Z.of_nat (length acc)) (map fst l) = firstn (Z.to_nat limit) (acc ++ rev (map fst l))).
    { rewrite all_live_newest by exact Hall. rewrite firstn_app_ge by lia. do 2 f_equal. lia. }
    rewrite E.
    replace (limit - Z.of_nat (length acc) <=? Z.of_nat (length (firstn (Z.to_nat limit) (acc ++ rev (map fst l))))) with true.
    + eexists. reflexivity.
    + rewrite firstn_length, app_length, rev_length, map_length. lia.
Qed.

Lemma live_desc_app now a b : live_desc now (a ++ b) = live_desc now b ++ live_desc now a.
Proof. unfold live_desc. now rewrite map_app, rev_app_distr, filter_app. Qed.
Lemma live_desc_len now a : (length (live_desc now a) <= length a)%nat.
Proof. unfold live_desc. etransitivity; [apply filter_len|]. now rewrite rev_length, map_length. Qed.

(** An answer that is complete stays as it is. *)
Lemma look_full now f h cutoff : forall k C, chain (fview f) h k C -> forall fuel limit acc, (Z.to_nat k < fuel)%nat ->
  Z.of_nat (length acc) = limit -> look_chain fuel now f h cutoff (4096 * k) limit acc = Some acc.
Proof.
  intros k C Hc. induction Hc as [k b l Hk E Hh Hn Hb Hcut|k k' b l C Hk E Hh Hn Hb Hcut Hc IH];
    intros fuel limit acc Hfu Hl; (destruct fuel as [|fuel]; [lia|]); cbn [look_chain]; fold (fview f k); rewrite E;
    unfold look_block; rewrite (has_used b l Hb), Hh, N.eqb_refl; cbn [negb]; rewrite map_length, Hl, Z.sub_diag;
    (assert (E0 : forall x : list wentry, acc ++ newest_live now 0 x = acc) by (intros x; unfold newest_live; cbn; apply app_nil_r));
    rewrite E0; replace (0 <=? Z.of_nat (length acc)) with true by lia;
    (destruct (Z.ltb_spec (limit - Z.of_nat (length l)) limit) as [|Hge]; [reflexivity|]);
    (assert (El : l = []) by (destruct l; [reflexivity|cbn [length] in Hge; lia])); subst l; cbn [map length];
    rewrite E0; (destruct (wb_old b cutoff); [reflexivity|]); rewrite Hn.
  - reflexivity.
  - replace (4096 * k' =? 0) with false by lia. apply IH; [lia|exact Hl].
Qed.

Lemma look_chain_spec now f n h cutoff : fwf f n -> forall k C, chain (fview f) h k C ->
  exists old kept, C = old ++ kept /\ Forall (fun x : tent => snd x < cutoff) old /\
  forall fuel limit acc, (Z.to_nat k < fuel)%nat ->
   (Z.of_nat (length acc + length C) <= limit ->
      look_chain fuel now f h cutoff (4096 * k) limit acc = Some (acc ++ live_desc now kept)) /\
   (all_live now C -> Z.of_nat (length acc) < limit ->
      look_chain fuel now f h cutoff (4096 * k) limit acc = Some (firstn (Z.to_nat limit) (acc ++ rev (map fst kept)))).
Proof.
  intros Hf k C Hc. induction Hc as [k b l Hk E Hh Hn Hb Hcut|k k' b l C Hk E Hh Hn Hb Hcut Hc IH].
  - exists [], l. split; [reflexivity|]. split; [constructor|]. intros fuel limit acc Hfu.
    destruct fuel as [|fuel]; [lia|]. cbn [look_chain]. fold (fview f k). rewrite E.
    destruct (look_block_step now h cutoff b limit acc l Hh Hb) as [S1 S2]. rewrite Hn. cbn [Z.eqb]. split.
    + intros Hl. rewrite (S1 Hl). destruct (wb_old b cutoff); reflexivity.
    + intros Ha Hl. destruct (S2 Ha Hl) as [Hs|(limit' & Hs)].
      * rewrite (S1 Hs). rewrite firstn_all2 by (rewrite app_length, rev_length, map_length; lia).
        assert (Ed : live_desc now l = rev (map fst l)).
        { pose proof (all_live_newest now l (Z.of_nat (length l)) Ha) as X. rewrite newest_live_all in X by (rewrite map_length; lia).
          unfold live_desc. rewrite X, Nat2Z.id. apply firstn_all2. rewrite rev_length, map_length. lia. }
        rewrite Ed. destruct (wb_old b cutoff); reflexivity.
      * rewrite Hs. reflexivity.
  - destruct (wb_old b cutoff) eqn:Hold.
    + exists C, l. split; [reflexivity|]. split.
      { unfold wb_old in Hold. apply andb_true_iff in Hold as [O1 O2].
        assert (Hx : wb_cutoffTime b <> 0) by lia. specialize (Hcut Hx). apply Forall_app in Hcut as [Hcut _].
        eapply Forall_impl; [|exact Hcut]. intros x Hx'. cbv beta in *. lia. }
      intros fuel limit acc Hfu. destruct fuel as [|fuel]; [lia|]. cbn [look_chain]. fold (fview f k). rewrite E.
      destruct (look_block_step now h cutoff b limit acc l Hh Hb) as [S1 S2]. rewrite Hold in S1. split.
      * rewrite app_length. intros Hl. rewrite S1 by lia. reflexivity.
      * intros Ha Hl. apply Forall_app in Ha as [_ Ha]. destruct (S2 Ha Hl) as [Hs|(limit' & Hs)].
        -- rewrite (S1 Hs). rewrite firstn_all2 by (rewrite app_length, rev_length, map_length; lia).
           do 2 f_equal. unfold live_desc. apply filter_all. intros e He. apply in_rev, in_map_iff in He as (x & <- & Hx).
           unfold all_live in Ha. rewrite Forall_forall in Ha. now apply Ha.
        -- rewrite Hs. reflexivity.
    + destruct IH as (old & kept & EC & Hol & IH). exists old, (kept ++ l). split; [now rewrite EC, app_assoc|].
      split; [exact Hol|].
      intros fuel limit acc Hfu. destruct fuel as [|fuel]; [lia|]. cbn [look_chain]. fold (fview f k). rewrite E.
      destruct (look_block_step now h cutoff b limit acc l Hh Hb) as [S1 S2]. rewrite Hold in S1.
      rewrite Hn. replace (4096 * k' =? 0) with false by lia. split.
      * rewrite app_length. intros Hl. rewrite S1 by lia. pose proof (live_desc_len now l).
        destruct (IH fuel limit (acc ++ live_desc now l) ltac:(lia)) as [I1 _].
        rewrite I1 by (rewrite app_length; lia). rewrite live_desc_app. now rewrite app_assoc.
      * intros Ha Hl. apply Forall_app in Ha as [Ha1 Ha]. rewrite map_app, rev_app_distr.
        destruct (S2 Ha Hl) as [Hs|(limit' & Hs)].
        -- rewrite (S1 Hs).
           assert (Ed : live_desc now l = rev (map fst l)).
           { unfold live_desc. apply filter_all. intros e He. apply in_rev, in_map_iff in He as (x & <- & Hx).
             unfold all_live in Ha. rewrite Forall_forall in Ha. now apply Ha. }
           rewrite Ed. destruct (Z.eq_dec (Z.of_nat (length acc + length l)) limit) as [Heq|Hneq].
           2:{ destruct (IH fuel limit (acc ++ rev (map fst l)) ltac:(lia)) as [_ I2].
               rewrite I2; [now rewrite app_assoc|exact Ha1|]. rewrite app_length, rev_length, map_length. lia. }
           (* exactly the limit: the next block adds nothing *)
           rewrite app_assoc.
           rewrite firstn_app, firstn_all2 by (rewrite app_length, rev_length, map_length; lia).
           replace (Z.to_nat limit - length (acc ++ rev (map fst l)))%nat with 0%nat by (rewrite app_length, rev_length, map_length; lia).
           rewrite app_nil_r.
           assert (Hacc : Z.of_nat (length (acc ++ rev (map fst l))) = limit) by (rewrite app_length, rev_length, map_length; lia).
           revert Hacc. generalize (acc ++ rev (map fst l)). intros a Hacc.
           apply (look_full now f h cutoff k' _ Hc); [lia|exact Hacc].
        -- rewrite Hs. f_equal. rewrite app_assoc. rewrite (firstn_app _ (acc ++ rev (map fst l))).
           assert (Hlen : (Z.to_nat limit <= length (acc ++ rev (map fst l)))%nat).
           { unfold look_block in Hs. rewrite (has_used b l Hb), Hh, N.eqb_refl in Hs. cbn [negb] in Hs. rewrite map_length in Hs.
             rewrite app_length, rev_length, map_length.
             destruct (Z.ltb_spec (limit - Z.of_nat (length l)) (Z.of_nat (length acc))); [lia|]. rewrite Hold in Hs.
             discriminate. }
           replace (Z.to_nat limit - length (acc ++ rev (map fst l)))%nat with 0%nat by lia. now rewrite app_nil_r.
Qed.

(** ** Histories *)
Definition wrun (w : winwriter) (off : offsets) (H : hist) (first : option N) (T : Z) : Prop :=
  (exists n, rinv w off H first T n) /\ forall h, H h = [] -> off h = 0.
Lemma run_zero w off H first T h : win_run w off H first T -> H h = [] -> off h = 0.
Proof.
  induction 1 as [|w off H first T now h' es w' o _ IH Hh He _ _ _ _| |]; auto. unfold fset. destruct (h =? h')%N; [|exact IH].
  intros E. apply app_eq_nil in E as [_ E]. apply map_eq_nil in E. contradiction.
Qed.
Lemma run_wrun w off H first T : win_run w off H first T -> wrun w off H first T.
Proof. intros Hr. split; [exact (run_rinv _ _ _ _ _ Hr)|]. intros h. exact (run_zero _ _ _ _ _ h Hr). Qed.
Lemma wrun_append w off H first T now h es w' o :
  wrun w off H first T -> (h < 2 ^ 64)%N -> es <> [] -> Forall went_ok es ->
  T <= unix now < 2 ^ 63 -> ww_idx w + Z.of_nat (length es) < 524286 ->
  ww_append now w h (off h) es = AppOk w' o ->
  wrun w' (fset off h o) (fset H h (H h ++ map (fun e => (e, unix now)) es))
          (match first with None => Some h | _ => first end) (unix now).
Proof.
  intros ((n & R) & Z0) Hh Hne Hes HT Hsz E. split.
  - destruct (append_rinv now h w off H first T n es R Hh Hne Hes HT Hsz) as (w2 & o2 & E2 & R2).
    rewrite E in E2. injection E2 as -> ->. eauto.
  - intros h'. unfold fset. destruct (h' =? h)%N; [|apply Z0]. intros E0. apply app_eq_nil in E0 as [_ E0]. apply map_eq_nil in E0. contradiction.
Qed.
Lemma wrun_write w off H first T w' : wrun w off H first T -> ww_write w = Some w' -> wrun (ww_reset w') off H first T.
Proof.
  intros ((n & R) & Z0) E. split; [|exact Z0]. destruct (write_rinv _ _ _ _ _ _ R) as (w2 & n2 & E2 & R2 & _). assert (w2 = w') by congruence. subst. eauto.
Qed.
Lemma wrun_again w off H first T w' : wrun w off H first T -> ww_write w = Some w' -> ww_idx w < 524286 ->
  wrun (newWindowWriter (ww_file w')) off H first T.
Proof.
  intros ((n & R) & Z0) E Hx. split; [|exact Z0]. destruct (write_rinv _ _ _ _ _ _ R) as (w2 & n2 & E2 & _ & R2 & _). assert (w2 = w') by congruence. subst. eauto.
Qed.

Lemma wrun_file w off H first T w' h now cutoff :
  wrun w off H first T -> ww_write w = Some w' ->
  exists lost old kept, H h = lost ++ old ++ kept /\ (lost = [] \/ first = Some h) /\
    Forall (fun x : tent => snd x < cutoff) old /\
    forall limit acc,
     (Z.of_nat (length acc + length (H h)) <= limit ->
        look_chain (S (length (ww_file w') / 4096)) now (ww_file w') h cutoff (off h) limit acc = Some (acc ++ live_desc now kept)) /\
     (all_live now (H h) -> Z.of_nat (length acc) < limit ->
        look_chain (S (length (ww_file w') / 4096)) now (ww_file w') h cutoff (off h) limit acc
        = Some (firstn (Z.to_nat limit) (acc ++ rev (map fst kept)))).
Proof.
  intros Hr E. destruct Hr as ((n & R) & _).
  destruct (write_rinv _ _ _ _ _ _ R) as (w2 & n' & E2 & R2 & _ & Ff & Hv). assert (w2 = w') by congruence. subst w2.
  set (f := ww_file w') in *.
  assert (Hlen : (length f / 4096)%nat = n').
  { destruct Ff as [Ff _]. rewrite Ff. unfold blockBytes. rewrite Nat.mul_comm. apply Nat.div_mul. discriminate. }
  rewrite Hlen. destruct (r_top _ _ _ _ _ _ R h) as [[H0 Ho]|(k & lost & C & Hk & Ho & El & Hc & (b0 & Eb0 & _) & Hl)].
  - exists [], [], []. rewrite H0, Ho. split; [reflexivity|]. split; [now left|]. split; [constructor|].
    intros limit acc. assert (X : look_chain (S n') now f h cutoff 0 limit acc = Some acc).
    { cbn [look_chain]. destruct (readWindowBlock f 0) as [b|] eqn:Eb; [|reflexivity].
      unfold look_block. destruct (N.eqb_spec (wb_topicHash b) h) as [Eh|]; [|reflexivity]. exfalso.
      assert (Hi : 0 <= ww_idx w).
      { destruct (Z_lt_le_dec (ww_idx w) 0) as [Hneg|]; [|assumption]. exfalso.
        destruct n' as [|n'']; [change 0 with (4096 * 0) in Eb; fold (fview f 0) in Eb; rewrite (fview_out f 0 0 Ff) in Eb by lia; discriminate|].
        pose proof (r_x _ _ _ _ _ _ R2) as X2. pose proof (x_n _ _ X2) as Xn. cbn [ww_reset ww_idx] in Xn.
        pose proof (r_x _ _ _ _ _ _ R) as X1.
        destruct (ww_write_effect w n (x_nodup _ _ X1) (x_ok _ _ X1) (x_file _ _ X1)) as (w3 & n3 & E3 & I3 & _).
        { intros j s Es. pose proof (x_keys _ _ X1 j s Es). pose proof (x_idx _ _ X1). lia. }
        assert (w3 = w') by congruence. subst w3. lia. }
      destruct (r_zero _ _ _ _ _ _ R Hi) as (b1 & Eb1 & Ef).
      destruct (Hv 0 b1 ltac:(lia) Eb1) as (b2 & Eb2 & S). unfold fview in Eb2. change (4096 * 0) with 0 in Eb2.
      assert (b2 = b) by congruence. subst b2. destruct S as [S _].
      apply (r_firstH _ _ _ _ _ _ R h); [|exact H0]. congruence. }
    rewrite X. split.
    + intros _. unfold live_desc. cbn. now rewrite app_nil_r.
    + intros _ Hl. cbn [map rev]. rewrite app_nil_r. now rewrite firstn_all2 by lia.
  - assert (Hcf : chain (fview f) h k C).
    { eapply chain_ext; [exact Hc|]. intros j bj Hj. apply Hv. lia. }
    destruct (look_chain_spec now f n' h cutoff Ff k C Hcf) as (old & kept & EC & Hold & Hlook).
    exists lost, old, kept. rewrite El, EC. split; [reflexivity|]. split; [exact Hl|]. split; [exact Hold|].
    intros limit acc. rewrite Ho. pose proof (chain_lt f n' h k C Ff Hcf).
    destruct (Hlook (S n') limit acc ltac:(lia)) as [L1 L2]. rewrite EC in L1, L2. split.
    + rewrite app_length. intros Hx. apply L1. lia.
    + intros Ha. apply Forall_app in Ha as [_ Ha]. now apply L2.
Qed.

(** Every message while the limit is not reached. *)
Lemma wlookup_all w off H first T w' h now cutoff limit ls :
  wrun w off H first T -> ww_write w = Some w' -> Z.of_nat (total ls + length (H h)) <= limit ->
  exists lost old kept, H h = lost ++ old ++ kept /\ (lost = [] \/ first = Some h) /\
    Forall (fun x : tent => snd x < cutoff) old /\
    tw_lookup now ls (ww_file w') h (off h) cutoff limit = Some (live_lists now ls ++ live_desc now kept).
Proof.
  intros Hr E Hlim. destruct (wrun_file w off H first T w' h now cutoff Hr E) as (lost & old & kept & EH & Hl & Ho & Hlook).
  exists lost, old, kept. split; [exact EH|]. split; [exact Hl|]. split; [exact Ho|].
  unfold tw_lookup, tw_ilookup. rewrite ilookup_all by lia. cbn [app]. pose proof (live_lists_len now ls) as Hll.
  destruct (Z.leb_spec limit (Z.of_nat (length (live_lists now ls)))) as [Hge|Hlt].
  - assert (H h = []) by (destruct (H h); [reflexivity|cbn [length] in Hlim; lia]).
    rewrite H0 in EH. symmetry in EH. apply app_eq_nil in EH as [_ EH]. apply app_eq_nil in EH as [_ ->].
    unfold live_desc. cbn. now rewrite app_nil_r.
  - destruct (Hlook limit (live_lists now ls)) as [L1 _]. apply L1. lia.
Qed.

(** The newest when nothing has expired and at most one list is in memory. *)
Lemma wlookup_newest w off H first T w' h now cutoff limit es :
  wrun w off H first T -> ww_write w = Some w' -> 0 < limit ->
  Forall (fun e => we_live now e = true) es -> all_live now (H h) ->
  exists lost old kept, H h = lost ++ old ++ kept /\ (lost = [] \/ first = Some h) /\
    Forall (fun x : tent => snd x < cutoff) old /\
    tw_lookup now [es] (ww_file w') h (off h) cutoff limit
    = Some (firstn (Z.to_nat limit) (rev es ++ rev (map fst kept))).
Proof.
  intros Hr E Hlim Hes HH. destruct (wrun_file w off H first T w' h now cutoff Hr E) as (lost & old & kept & EH & Hl & Ho & Hlook).
  exists lost, old, kept. split; [exact EH|]. split; [exact Hl|]. split; [exact Ho|].
  assert (Ei : tw_ilookup now limit [es] = firstn (Z.to_nat limit) (rev es)).
  { unfold tw_ilookup. cbn [ilookup_loop]. destruct es as [|e r]; [now rewrite firstn_nil|].
    set (x := e :: r) in *. cbn [app]. rewrite Z.sub_0_r. unfold newest_live.
    rewrite filter_all.
    - destruct (Z.ltb_spec (Z.of_nat (length x)) limit); [|reflexivity].
      rewrite !firstn_all2 by (rewrite rev_length; lia). reflexivity.
    - intros y Hy. rewrite Forall_forall in Hes. apply Hes. apply in_rev.
      destruct (Z.of_nat (length x) <? limit).
      + rewrite <- (firstn_skipn (Z.to_nat (Z.of_nat (length x)))). apply in_app_iff. now left.
      + rewrite <- (firstn_skipn (Z.to_nat limit)). apply in_app_iff. now left. }
  unfold tw_lookup. rewrite Ei. rewrite firstn_length, rev_length.
  destruct (Z.leb_spec limit (Z.of_nat (Nat.min (Z.to_nat limit) (length es)))) as [Hge|Hlt].
  - rewrite firstn_app. replace (Z.to_nat limit - length (rev es))%nat with 0%nat by (rewrite rev_length; lia).
    now rewrite app_nil_r.
  - rewrite firstn_all2 by (rewrite rev_length; lia).
    destruct (Hlook limit (rev es)) as [_ L2]. apply L2; [exact HH|]. rewrite rev_length. lia.
Qed.
Lemma wnonneg w off H first T h : wrun w off H first T -> Forall (fun x : tent => 0 <= snd x) (H h).
Proof.
  intros Hr. destruct Hr as ((n & R) & _). eapply Forall_impl; [|apply (r_times _ _ _ _ _ _ R)].
  intros x Hx. cbv beta in Hx. lia.
Qed.
Lemma no_old (l : list tent) : Forall (fun x : tent => 0 <= snd x) l -> Forall (fun x : tent => snd x < 0) l -> l = [].
Proof. destruct l as [|x l]; [reflexivity|]. intros H1 H2. inversion H1; inversion H2; subst. lia. Qed.

(** A writer never fails on such a history. *)
Lemma wrun_progress w off H first T : wrun w off H first T ->
  (exists w', ww_write w = Some w') /\
  (forall now h es, (h < 2 ^ 64)%N -> es <> [] -> Forall went_ok es -> T <= unix now < 2 ^ 63 ->
     ww_idx w + Z.of_nat (length es) < 524286 -> exists w' o, ww_append now w h (off h) es = AppOk w' o).
Proof.
  intros Hr. destruct Hr as ((n & R) & _). split.
  - destruct (write_rinv _ _ _ _ _ _ R) as (w' & n' & E & _). eauto.
  - intros now h es H1 H2 H3 H4 H5. destruct (append_rinv now h w off H first T n es R H1 H2 H3 H4 H5) as (w' & o & E & _). eauto.
Qed.

(** The same for the histories of [S_Window]. *)
Lemma lookup_all w off H first T w' h now cutoff limit ls :
  win_run w off H first T -> ww_write w = Some w' -> Z.of_nat (total ls + length (H h)) <= limit ->
  exists lost old kept, H h = lost ++ old ++ kept /\ (lost = [] \/ first = Some h) /\
    Forall (fun x : tent => snd x < cutoff) old /\
    tw_lookup now ls (ww_file w') h (off h) cutoff limit = Some (live_lists now ls ++ live_desc now kept).
Proof. intros Hr. exact (wlookup_all w off H first T w' h now cutoff limit ls (run_wrun _ _ _ _ _ Hr)). Qed.
Lemma lookup_newest w off H first T w' h now cutoff limit es :
  win_run w off H first T -> ww_write w = Some w' -> 0 < limit ->
  Forall (fun e => we_live now e = true) es -> all_live now (H h) ->
  exists lost old kept, H h = lost ++ old ++ kept /\ (lost = [] \/ first = Some h) /\
    Forall (fun x : tent => snd x < cutoff) old /\
    tw_lookup now [es] (ww_file w') h (off h) cutoff limit
    = Some (firstn (Z.to_nat limit) (rev es ++ rev (map fst kept))).
Proof. intros Hr. exact (wlookup_newest w off H first T w' h now cutoff limit es (run_wrun _ _ _ _ _ Hr)). Qed.
Lemma nonneg_times w off H first T h : win_run w off H first T -> Forall (fun x : tent => 0 <= snd x) (H h).
Proof. intros Hr. exact (wnonneg _ _ _ _ _ h (run_wrun _ _ _ _ _ Hr)). Qed.
Lemma run_progress w off H first T : win_run w off H first T ->
  (exists w', ww_write w = Some w') /\
  (forall now h es, (h < 2 ^ 64)%N -> es <> [] -> Forall went_ok es -> T <= unix now < 2 ^ 63 ->
     ww_idx w + Z.of_nat (length es) < 524286 -> exists w' o, ww_append now w h (off h) es = AppOk w' o).
Proof. intros Hr. exact (wrun_progress _ _ _ _ _ (run_wrun _ _ _ _ _ Hr)). Qed.
