(** Lemmas about association lists and about the bytes of one time block. *)
From Verif Require Import M_Bytes M_Hash M_Bloom M_Wal M_MemDB S_MemDB P_Bytes P_Bloom.
From Coq Require Import Lia ZifyBool ZifyNat ZifyN.
Open Scope Z_scope.

(** * Association lists *)
Section Assoc.
Context {K V : Type} (eqb : K -> K -> bool) (Heq : forall a b, eqb a b = true <-> a = b).

Lemma eqb_same a : eqb a a = true.
Proof. now apply Heq. Qed.
Lemma eqb_diff a b : a <> b -> eqb a b = false.
Proof. intros H. apply not_true_is_false. now rewrite Heq. Qed.

Lemma afind_adel_same (m : list (K * V)) k : afind eqb (adel eqb m k) k = None.
Proof.
  unfold adel. induction m as [|[k' v] m IH]; [reflexivity|]. cbn [filter fst].
  destruct (eqb k' k) eqn:E; cbn [negb]; [exact IH|]. cbn [afind]. now rewrite E.
Qed.
Lemma afind_adel_other (m : list (K * V)) k k' : k <> k' -> afind eqb (adel eqb m k) k' = afind eqb m k'.
Proof.
  intros H. unfold adel. induction m as [|[k2 v] m IH]; [reflexivity|]. cbn [filter fst afind].
  destruct (eqb k2 k) eqn:E; cbn [negb].
  - apply Heq in E. subst k2. rewrite (eqb_diff k k') by exact H. exact IH.
  - cbn [afind]. now rewrite IH.
Qed.
Lemma afind_aset_same (m : list (K * V)) k v : afind eqb (aset eqb m k v) k = Some v.
Proof. unfold aset. cbn [afind]. now rewrite eqb_same. Qed.
Lemma afind_aset_other (m : list (K * V)) k k' v : k <> k' -> afind eqb (aset eqb m k v) k' = afind eqb m k'.
Proof. intros H. unfold aset. cbn [afind]. rewrite eqb_diff by exact H. now apply afind_adel_other. Qed.
Lemma afind_In (m : list (K * V)) k v : afind eqb m k = Some v -> In (k, v) m.
Proof.
  induction m as [|[k' v'] m IH]; [discriminate|]. cbn [afind]. destruct (eqb k' k) eqn:E.
  - intros [= ->]. apply Heq in E. subst. now left.
  - intros H. right. now apply IH.
Qed.
Lemma afind_keys (m : list (K * V)) k : afind eqb m k <> None <-> In k (map fst m).
Proof.
  induction m as [|[k' v'] m IH]; cbn [afind map fst In]; [split; [congruence|tauto]|].
  destruct (eqb k' k) eqn:E.
  - apply Heq in E. split; [now left|discriminate].
  - rewrite IH. split; [now right|]. intros [->|H]; [|exact H]. now rewrite eqb_same in E.
Qed.
Lemma adel_keys (m : list (K * V)) k x : In x (map fst (adel eqb m k)) <-> In x (map fst m) /\ x <> k.
Proof.
  unfold adel. rewrite !in_map_iff. split.
  - intros ((k' & v) & <- & H). apply filter_In in H as [H1 H2]. cbn [fst] in *. split; [now exists (k', v)|].
    intros ->. rewrite eqb_same in H2. discriminate.
  - intros [((k' & v) & <- & H) Hn]. exists (k', v). split; [reflexivity|]. apply filter_In. split; [exact H|].
    cbn [fst] in *. now rewrite eqb_diff.
Qed.
Lemma adel_length (m : list (K * V)) k : (length (adel eqb m k) <= length m)%nat.
Proof. unfold adel. induction m as [|x m IH]; cbn [filter length]; [lia|]. destruct (negb _); cbn [length]; lia. Qed.
End Assoc.

Lemma Zeqb_iff a b : (a =? b) = true <-> a = b.
Proof. apply Z.eqb_eq. Qed.
Lemma ik_eqb_iff a b : ik_eqb a b = true <-> a = b.
Proof.
  destruct a as [x k], b as [y l]. unfold ik_eqb; cbn [fst snd]. rewrite andb_true_iff, Bool.eqb_true_iff, N.eqb_eq.
  split; [intros [-> ->]; reflexivity|intros [= -> ->]; auto].
Qed.
Lemma Neqb_iff a b : (a =? b)%N = true <-> a = b.
Proof. apply N.eqb_eq. Qed.

Lemma nth_error_update {A} (l : list A) i x j : (i < length l)%nat ->
  nth_error (update l i x) j = if Nat.eqb j i then Some x else nth_error l j.
Proof.
  revert i j; induction l as [|a l IH]; intros i j H; cbn [length] in H; [lia|].
  destruct i as [|i].
  - unfold update. cbn [firstn skipn app]. destruct j; reflexivity.
  - change (update (a :: l) (S i) x) with (a :: update l i x). destruct j as [|j]; cbn [nth_error Nat.eqb]; [reflexivity|].
    apply IH. lia.
Qed.
Lemma nth_error_lt {A} (l : list A) i x : nth_error l i = Some x -> (i < length l)%nat.
Proof. intros H. apply nth_error_Some. congruence. Qed.
Lemma update_app {A} (l1 l2 : list A) x y i : length l1 = i -> update (l1 ++ x :: l2) i y = l1 ++ y :: l2.
Proof. intros <-. apply P_Hash.update_middle. Qed.

(** * The bytes of a block *)
Definition enc (r : ikey * bytes) : bytes := mrecord (fst r) (snd r).
Definition encs (rs : list (ikey * bytes)) : bytes := concat (map enc rs).
Definition start (rs : list (ikey * bytes)) (i : nat) : nat := length (encs (firstn i rs)).
Definition rec_ok (r : ikey * bytes) : Prop := item_ok (snd (fst r)) (snd r).

Lemma enc_length r : length (enc r) = (length (snd r) + 13)%nat.
Proof.
  unfold enc, mrecord. rewrite app_length, le_length. cbn [length].
  rewrite app_length, le_length. lia.
Qed.
Lemma encs_app a b : encs (a ++ b) = encs a ++ encs b.
Proof. unfold encs. now rewrite map_app, concat_app. Qed.
Lemma encs_cons r l : encs (r :: l) = enc r ++ encs l.
Proof. reflexivity. Qed.
Lemma encs_one r : encs [r] = enc r.
Proof. unfold encs. cbn [map concat]. apply app_nil_r. Qed.

Lemma split_at {A} (l : list A) i x : nth_error l i = Some x -> l = firstn i l ++ x :: skipn (S i) l.
Proof.
  revert i; induction l as [|a l IH]; intros [|i]; cbn [nth_error firstn skipn app]; try discriminate.
  - now intros [= ->].
  - intros H. f_equal. now apply IH.
Qed.
Lemma encs_split rs i r : nth_error rs i = Some r ->
  encs rs = encs (firstn i rs) ++ enc r ++ encs (skipn (S i) rs).
Proof. intros H. rewrite (split_at _ _ _ H) at 1. now rewrite encs_app, encs_cons. Qed.

Lemma buf_get_at pre r post : rec_ok r -> buf_get (pre ++ enc r ++ post) (Z.of_nat (length pre)) = GOk (snd r).
Proof.
  intros (H1 & H2 & H3). unfold buf_get. rewrite !app_length, enc_length.
  destruct (Z.ltb_spec (Z.of_nat (length pre + (length (snd r) + 13 + length post))) (Z.of_nat (length pre) + 4)); [lia|].
  rewrite Nat2Z.id.
  assert (E : slice (pre ++ enc r ++ post) (length pre) 4 = le 4 (N.of_nat (length (snd r) + 13))).
  { unfold enc, mrecord. unfold u32. rewrite N.mod_small by lia. rewrite <- !app_assoc.
    apply slice_app_mid; [reflexivity|]. apply le_length. }
  rewrite E. rewrite unle_le4 by lia.
  destruct (Z.ltb_spec (Z.of_nat (length pre + (length (snd r) + 13 + length post)))
             (Z.of_nat (length pre) + Z.of_N (N.of_nat (length (snd r) + 13)))); [lia|].
  destruct (Z.ltb_spec (Z.of_N (N.of_nat (length (snd r) + 13))) 13); [lia|]. f_equal.
  replace (Z.to_nat (Z.of_N (N.of_nat (length (snd r) + 13))) - 13)%nat with (length (snd r)) by lia.
  unfold enc, mrecord.
  set (hd := le 4 (u32 (N.of_nat (length (snd r) + 13))) ++ (if fst (fst r) then 1%N else 0%N) :: le 8 (snd (fst r))).
  replace (pre ++ (le 4 (u32 (N.of_nat (length (snd r) + 13))) ++
            (if fst (fst r) then 1%N else 0%N) :: le 8 (snd (fst r)) ++ snd r) ++ post)
    with ((pre ++ hd) ++ snd r ++ post).
  2:{ unfold hd. rewrite <- !app_assoc. cbn [app]. rewrite <- !app_assoc. reflexivity. }
  apply slice_app_mid; [|reflexivity]. rewrite app_length. unfold hd. rewrite app_length, le_length. cbn [length].
  rewrite le_length. reflexivity.
Qed.

Lemma buf_get_enc rs i r : Forall rec_ok rs -> nth_error rs i = Some r ->
  buf_get (encs rs) (Z.of_nat (start rs i)) = GOk (snd r).
Proof.
  intros Hr Hi. rewrite (encs_split _ _ _ Hi). unfold start. apply buf_get_at.
  apply (proj1 (Forall_forall _ _) Hr). eapply nth_error_In, Hi.
Qed.

(** The records of a block and what its index says about them. *)
Record block_inv (d : bytes) (recs : list (ikey * Z)) (rs : list (ikey * bytes)) : Prop := {
  bi_data : d = encs rs;
  bi_ok : Forall rec_ok rs;
  bi_recs : forall k off, afind ik_eqb recs k = Some off ->
    exists i v, nth_error rs i = Some (k, v) /\ off = Z.of_nat (start rs i)
}.

(** The value of a key in a block. *)
Definition bval (d : bytes) (recs : list (ikey * Z)) (k : N) : option bytes :=
  match afind ik_eqb recs (false, k) with
  | None => None
  | Some off => match buf_get d off with GOk v => Some v | _ => None end
  end.

Lemma block_inv_nil recs : (forall k, afind ik_eqb recs k = None) -> block_inv [] recs [].
Proof. intros H. split; [reflexivity|constructor|]. intros k off E. rewrite H in E. discriminate. Qed.

Lemma bval_get d recs rs k : block_inv d recs rs ->
  match afind ik_eqb recs (false, k) with
  | None => bval d recs k = None
  | Some off => exists v, bval d recs k = Some v /\ buf_get d off = GOk v
  end.
Proof.
  intros [Hd Ho Hr]. unfold bval. destruct (afind ik_eqb recs (false, k)) as [off|] eqn:E; [|reflexivity].
  destruct (Hr _ _ E) as (i & v & Hi & ->). subst d. rewrite (buf_get_enc _ _ _ Ho Hi). eauto.
Qed.
Lemma bval_none d recs rs k : block_inv d recs rs -> bval d recs k = None -> afind ik_eqb recs (false, k) = None.
Proof.
  intros H E. pose proof (bval_get _ _ _ k H) as G. destruct (afind ik_eqb recs (false, k)); [|reflexivity].
  destruct G as (v & G & _). congruence.
Qed.

Lemma start_app rs x i : (i <= length rs)%nat -> start (rs ++ x) i = start rs i.
Proof. intros H. unfold start. rewrite firstn_app. replace (i - length rs)%nat with 0%nat by lia. now rewrite firstn_O, app_nil_r. Qed.
Lemma start_all rs : start rs (length rs) = length (encs rs).
Proof. unfold start. now rewrite firstn_all. Qed.

Lemma block_inv_put d recs rs k v : block_inv d recs rs -> item_ok (snd k) v ->
  block_inv (d ++ mrecord k v) (aset ik_eqb recs k (Z.of_nat (length d))) (rs ++ [(k, v)]).
Proof.
  intros [Hd Ho Hr] Hk. split.
  - rewrite encs_app, encs_one, Hd. reflexivity.
  - apply Forall_app. split; [exact Ho|]. constructor; [exact Hk|constructor].
  - intros k' off E. destruct (ik_eqb k k') eqn:Ek.
    + apply ik_eqb_iff in Ek. subst k'. rewrite afind_aset_same in E by exact ik_eqb_iff. injection E as <-.
      exists (length rs), v. rewrite nth_error_app2, Nat.sub_diag by lia. split; [reflexivity|].
      rewrite start_app by lia. rewrite start_all, Hd. reflexivity.
    + rewrite afind_aset_other in E by (first [exact ik_eqb_iff | intros ->; rewrite (eqb_same _ ik_eqb_iff) in Ek; discriminate]).
      destruct (Hr _ _ E) as (i & w & Hi & ->). exists i, w.
      pose proof (nth_error_lt _ _ _ Hi). rewrite nth_error_app1 by assumption. split; [exact Hi|].
      now rewrite start_app by lia.
Qed.
Lemma bval_put d recs rs k v k' : block_inv d recs rs -> item_ok (snd k) v ->
  bval (d ++ mrecord k v) (aset ik_eqb recs k (Z.of_nat (length d))) k' =
    if ik_eqb k (false, k') then Some v else bval d recs k'.
Proof.
  intros H Hk. pose proof (block_inv_put _ _ _ _ _ H Hk) as H'. unfold bval.
  destruct (ik_eqb k (false, k')) eqn:Ek.
  - apply ik_eqb_iff in Ek. subst k. rewrite afind_aset_same by exact ik_eqb_iff.
    destruct H as [Hd Ho Hr]. rewrite <- (app_nil_r (mrecord _ _)).
    change (mrecord (false, k') v) with (enc ((false, k'), v)). rewrite buf_get_at by exact Hk. reflexivity.
  - rewrite afind_aset_other by (first [exact ik_eqb_iff | intros ->; rewrite (eqb_same _ ik_eqb_iff) in Ek; discriminate]).
    destruct (afind ik_eqb recs (false, k')) as [off|] eqn:E; [|reflexivity].
    destruct H as [Hd Ho Hr]. destruct (Hr _ _ E) as (i & w & Hi & ->). subst d.
    rewrite (buf_get_enc _ _ _ Ho Hi). rewrite (encs_split _ _ _ Hi). rewrite <- !app_assoc.
    unfold start. rewrite buf_get_at; [reflexivity|]. apply (proj1 (Forall_forall _ _) Ho). eapply nth_error_In, Hi.
Qed.

(** Deleting a key sets the flag of its record. *)
Lemma enc_flag fl k v : enc ((true, k), v) = firstn 4 (enc ((fl, k), v)) ++ (1%N :: le 8 k) ++ skipn 13 (enc ((fl, k), v)).
Proof.
  unfold enc, mrecord. cbn [fst snd].
  set (a := le 4 (u32 (N.of_nat (length v + 13)))). assert (La : length a = 4%nat) by apply le_length.
  rewrite firstn_app_len by exact La.
  replace (skipn 13 (a ++ (if fl then 1%N else 0%N) :: le 8 k ++ v)) with v; [reflexivity|].
  change ((if fl then 1%N else 0%N) :: le 8 k ++ v) with (((if fl then 1%N else 0%N) :: le 8 k) ++ v).
  rewrite app_assoc. symmetry. apply skipn_app_len. rewrite app_length, La. cbn [length]. now rewrite le_length.
Qed.

Lemma flag_bytes pre fl k v post :
  firstn (length pre + 4) (pre ++ enc ((fl, k), v) ++ post) ++ (1%N :: le 8 k)
    ++ skipn (length pre + 13) (pre ++ enc ((fl, k), v) ++ post) = pre ++ enc ((true, k), v) ++ post.
Proof.
  assert (Hl : length (enc ((fl, k), v)) = (length v + 13)%nat) by (rewrite enc_length; reflexivity).
  rewrite firstn_app_2. rewrite firstn_app. replace (4 - length (enc ((fl, k), v)))%nat with 0%nat by lia.
  rewrite firstn_O, app_nil_r.
  rewrite skipn_app. rewrite (skipn_all2 (n := length pre + 13) pre) by lia.
  replace (length pre + 13 - length pre)%nat with 13%nat by lia. cbn [app].
  rewrite skipn_app. replace (13 - length (enc ((fl, k), v)))%nat with 0%nat by lia. rewrite skipn_O.
  rewrite (enc_flag fl k v). rewrite <- !app_assoc. reflexivity.
Qed.

Definition del_bytes (d : bytes) (recs : list (ikey * Z)) (key : N) : bytes :=
  let off := match afind ik_eqb recs (false, key) with Some o => Z.to_nat o | None => 0%nat end in
  firstn (off + 4) d ++ (1%N :: le 8 key) ++ skipn (off + 13) d.

Lemma start_update rs i j r r' : nth_error rs i = Some r -> length (enc r') = length (enc r) ->
  start (update rs i r') j = start rs j.
Proof.
  intros Hi He. unfold start, encs. revert i j Hi; induction rs as [|a rs IH]; intros i j Hi; [destruct i; discriminate|].
  destruct i as [|i].
  - cbn [nth_error] in Hi. injection Hi as ->. change (update (r :: rs) 0 r') with (r' :: rs).
    destruct j as [|j]; [reflexivity|]. cbn [firstn map concat]. rewrite !app_length, He. reflexivity.
  - change (update (a :: rs) (S i) r') with (a :: update rs i r'). destruct j as [|j]; [reflexivity|].
    cbn [firstn map concat]. rewrite !app_length. f_equal. now apply IH.
Qed.

Lemma block_inv_del d recs rs key off : block_inv d recs rs -> afind ik_eqb recs (false, key) = Some off ->
  exists rs', block_inv (del_bytes d recs key) (adel ik_eqb recs (false, key)) rs' /\ length rs' = length rs /\
    (forall k, k <> key -> bval (del_bytes d recs key) (adel ik_eqb recs (false, key)) k = bval d recs k) /\
    (forall j, (j <= length rs)%nat -> start rs' j = start rs j).
Proof.
  intros H E. pose proof H as [Hd Ho Hr]. destruct (Hr _ _ E) as (i & v & Hi & Hoff).
  pose proof (nth_error_lt _ _ _ Hi) as Hlt.
  assert (Hok : item_ok key v) by (apply (proj1 (Forall_forall _ _) Ho ((false, key), v)); eapply nth_error_In, Hi).
  exists (update rs i ((true, key), v)).
  assert (Hb : del_bytes d recs key = encs (update rs i ((true, key), v))).
  { unfold del_bytes. rewrite E, Hoff, Nat2Z.id, Hd. rewrite (encs_split _ _ _ Hi). unfold start.
    rewrite flag_bytes. rewrite (split_at _ _ _ Hi) at 3. rewrite update_app by (rewrite firstn_length; lia).
    now rewrite encs_app, encs_cons. }
  assert (Hst : forall j, start (update rs i ((true, key), v)) j = start rs j).
  { intros j. apply start_update with (r := ((false, key), v)); [exact Hi|]. now rewrite !enc_length. }
  assert (I : block_inv (del_bytes d recs key) (adel ik_eqb recs (false, key)) (update rs i ((true, key), v))).
  { split.
    - exact Hb.
    - apply Forall_forall. intros x Hx. apply In_nth_error in Hx as [j Hj].
      rewrite nth_error_update in Hj by exact Hlt. destruct (Nat.eqb j i).
      + injection Hj as <-. exact Hok.
      + apply (proj1 (Forall_forall _ _) Ho). eapply nth_error_In, Hj.
    - intros k o Ek. destruct (ik_eqb (false, key) k) eqn:Eb.
      + apply ik_eqb_iff in Eb. subst k. rewrite afind_adel_same in Ek. discriminate.
      + rewrite afind_adel_other in Ek by (first [exact ik_eqb_iff | intros <-; rewrite (eqb_same _ ik_eqb_iff) in Eb; discriminate]).
        destruct (Hr _ _ Ek) as (j & w & Hj & ->). exists j, w. rewrite nth_error_update by exact Hlt.
        destruct (Nat.eqb_spec j i) as [->|]; [|rewrite Hst; auto].
        rewrite Hi in Hj. injection Hj as Hk _. rewrite <- Hk, (eqb_same _ ik_eqb_iff) in Eb. discriminate. }
  split; [exact I|]. split; [apply update_length|]. split; [|intros j _; apply Hst].
  intros k Hk. unfold bval.
  rewrite afind_adel_other by (first [exact ik_eqb_iff | intros [= ->]; congruence]).
  destruct (afind ik_eqb recs (false, k)) as [o|] eqn:Ek; [|reflexivity].
  destruct (Hr _ _ Ek) as (j & w & Hj & ->). rewrite Hd at 2. rewrite (buf_get_enc _ _ _ Ho Hj).
  rewrite Hb, <- (Hst j). erewrite buf_get_enc; [|destruct I as [_ IO _]; exact IO|].
  2:{ rewrite nth_error_update by exact Hlt. destruct (Nat.eqb_spec j i) as [->|]; [|exact Hj].
      rewrite Hi in Hj. injection Hj as Hk' _. congruence. }
  reflexivity.
Qed.

(** Number of keys that are not deleted. *)
Definition nkeys (recs : list (ikey * Z)) : nat := length (filter (fun e => negb (fst (fst e))) recs).

Lemma nkeys_aset recs k off : (nkeys (aset ik_eqb recs k off) <= nkeys recs + (if fst k then 0 else 1))%nat.
Proof.
  unfold nkeys, aset. cbn [filter fst].
  assert (H : (length (filter (fun e : ikey * Z => negb (fst (fst e))) (adel ik_eqb recs k))
              <= length (filter (fun e : ikey * Z => negb (fst (fst e))) recs))%nat).
  { unfold adel. induction recs as [|[[f x] o] recs IH]; [cbn; lia|]. cbn [filter fst].
    destruct (negb (ik_eqb (f, x) k)); cbn [filter fst]; destruct f; cbn [negb length]; lia. }
  destruct (fst k); cbn [negb length]; lia.
Qed.
Lemma nkeys_adel recs k off : afind ik_eqb recs (false, k) = Some off ->
  (nkeys (adel ik_eqb recs (false, k)) + 1 <= nkeys recs)%nat.
Proof.
  unfold nkeys, adel. induction recs as [|[[f x] o] recs IH]; [discriminate|].
  cbn [afind filter fst]. destruct (ik_eqb (f, x) (false, k)) eqn:E; cbn [negb].
  - intros _. apply ik_eqb_iff in E. injection E as -> ->. cbn [negb length].
    assert (H : (length (filter (fun e : ikey * Z => negb (fst (fst e))) (filter (fun e => negb (ik_eqb (fst e) (false, k))) recs))
              <= length (filter (fun e : ikey * Z => negb (fst (fst e))) recs))%nat).
    { clear. induction recs as [|[[f x] o] recs IH]; [cbn; lia|]. cbn [filter fst].
      destruct (negb (ik_eqb (f, x) (false, k))); cbn [filter fst]; destruct f; cbn [negb length]; lia. }
    lia.
  - intros H. cbn [filter fst]. destruct f; cbn [negb length]; specialize (IH H); lia.
Qed.
Lemma nkeys_zero recs k : nkeys recs = 0%nat -> afind ik_eqb recs (false, k) = None.
Proof.
  unfold nkeys. induction recs as [|[[f x] o] recs IH]; [reflexivity|]. cbn [filter fst afind].
  destruct f; cbn [negb length]; [|discriminate]. intros H.
  rewrite (eqb_diff _ ik_eqb_iff) by discriminate. now apply IH.
Qed.
