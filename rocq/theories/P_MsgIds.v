(** Lemmas about [M_MsgIds]. *)
From Verif Require Import M_Bytes P_Bytes M_MsgIds M_Subs S_Server.
From Coq Require Import Lia ZifyNat.
Open Scope Z_scope.

Lemma i32_small z : - 2 ^ 31 <= z < 2 ^ 31 -> i32 z = z.
Proof. intros H. unfold i32. apply to_signed_unsigned; [reflexivity|]. exact H. Qed.

Lemma run_app m a b : mids_run m (a ++ b) =
  let '(m1, x) := mids_run m a in let '(m2, y) := mids_run m1 b in (m2, x ++ y).
Proof.
  revert m. induction a as [|o a IH]; intros m; cbn.
  - destruct (mids_run m b). reflexivity.
  - destruct (mids_step m o) as [m1 x]. rewrite IH. destruct (mids_run m1 a) as [m2 y].
    destruct (mids_run m2 b). reflexivity.
Qed.
Lemma run_length m ops : length (snd (mids_run m ops)) = length ops.
Proof.
  revert m. induction ops as [|o ops IH]; intros m; [reflexivity|]. cbn.
  destruct (mids_step m o) as [m1 x]. specialize (IH m1). destruct (mids_run m1 ops). cbn in *. lia.
Qed.
Lemma nexts_snoc ops o : nexts (ops ++ [o]) = (nexts ops + if is_next o then 1 else 0)%nat.
Proof.
  unfold nexts. rewrite filter_app, app_length. cbn. destruct (is_next o); cbn; lia.
Qed.
Lemma in_use_app ops : forall res ops' res' acc, length res = length ops ->
  in_use (ops ++ ops') (res ++ res') acc = in_use ops' res' (in_use ops res acc).
Proof.
  induction ops as [|o ops IH]; intros [|r res] ops' res' acc H; try discriminate; [reflexivity|].
  cbn in H. injection H as H. destruct o, r; cbn; apply IH, H.
Qed.

Definition good (ops : list mop) (m : mids) (res : list (option Z)) : Prop :=
  m_hung m = false /\ m_id m = Z.of_nat (nexts ops) /\
  (forall id, zmem id (m_resume m) = true <-> resumed ops id) /\
  (forall id, In id (in_use ops res []) -> 1 <= id <= Z.of_nat (nexts ops)).

Lemma zmem_in x l : zmem x l = true <-> In x l.
Proof.
  unfold zmem. rewrite existsb_exists. split; [intros (y & H & E)|intros H; exists x].
  - apply Z.eqb_eq in E. congruence.
  - split; [exact H|apply Z.eqb_refl].
Qed.

Lemma run_good ops : no_reset ops -> Z.of_nat (nexts ops) < 2 ^ 31 ->
  (forall id, resumed ops id -> ~ 1 <= id <= Z.of_nat (nexts ops)) ->
  good ops (fst (mids_run mids_new ops)) (snd (mids_run mids_new ops)).
Proof.
  induction ops as [|o ops IH] using rev_ind; intros NR HB HR.
  - split; [reflexivity|]. split; [reflexivity|]. split; cbn; [split; [discriminate|tauto]|tauto].
  - rewrite nexts_snoc in HB, HR.
    assert (NR' : no_reset ops) by (intros H; apply NR, in_or_app; left; exact H).
    assert (G : good ops (fst (mids_run mids_new ops)) (snd (mids_run mids_new ops))).
    { apply IH; [exact NR'|destruct (is_next o); lia|]. intros id Hi. specialize (HR id).
      assert (resumed (ops ++ [o]) id) by (apply in_or_app; left; exact Hi). specialize (HR H). lia. }
    unfold good in *. rewrite run_app. pose proof (run_length mids_new ops) as RL.
    destruct (mids_run mids_new ops) as [m x]. cbn [fst snd] in *.
    destruct G as (G1 & G2 & G3 & G4). cbn [mids_run].
    assert (RS : forall id, resumed (ops ++ [o]) id <-> resumed ops id \/ o = MResume id).
    { intros id. unfold resumed. rewrite in_app_iff. cbn. tauto. }
    unfold mids_step. rewrite G1. destruct o as [ty|id|id|].
    + assert (Hid : i32 (m_id m + 1) = Z.of_nat (nexts ops) + 1).
      { rewrite G2. apply i32_small. cbn [is_next] in HB. lia. }
      rewrite Hid. destruct (zmem (Z.of_nat (nexts ops) + 1) (m_resume m)) eqn:E.
      { apply G3 in E. exfalso. apply (HR (Z.of_nat (nexts ops) + 1)).
        - apply RS. left. exact E.
        - cbn [is_next]. lia. }
      cbn [fst snd m_hung m_id m_resume]. split; [reflexivity|]. rewrite nexts_snoc. cbn [is_next]. split; [lia|]. split.
      * intros id. rewrite RS, G3. split; [tauto|]. intros [H|H]; [exact H|discriminate].
      * intros id. rewrite in_use_app by exact RL. cbn. intros [<-|H]; [lia|]. apply G4 in H. lia.
    + cbn [fst snd m_hung m_id m_resume]. split; [reflexivity|]. rewrite nexts_snoc. cbn [is_next]. split; [lia|]. split.
      * intros i. rewrite RS, G3. split; [tauto|]. intros [H|H]; [exact H|discriminate].
      * intros i. rewrite in_use_app by exact RL. cbn. rewrite filter_In. intros [H _]. apply G4 in H. lia.
    + cbn [fst snd m_hung m_id m_resume]. split; [reflexivity|]. rewrite nexts_snoc. cbn [is_next]. split; [lia|]. split.
      * intros i. rewrite RS, <- G3, !zmem_in. cbn. split; intros [H|H]; try tauto; [right; congruence|left; congruence].
      * intros i. rewrite in_use_app by exact RL. cbn. intros H. apply G4 in H. lia.
    + exfalso. apply NR, in_or_app. right. left. reflexivity.
Qed.

Lemma next_fresh ops ty : no_reset ops -> Z.of_nat (nexts ops) + 1 < 2 ^ 31 ->
  (forall id, resumed ops id -> ~ 1 <= id <= Z.of_nat (nexts ops) + 1) ->
  exists id m', mids_step (fst (mids_run mids_new ops)) (MNext ty) = (m', Some id) /\
    id = Z.of_nat (nexts ops) + 1 /\
    ~ In id (in_use ops (snd (mids_run mids_new ops)) []) /\ ~ resumed ops id /\ getType m' id = Some ty.
Proof.
  intros NR HB HR. destruct (run_good ops NR) as (G1 & G2 & G3 & G4); [lia|intros id H; specialize (HR id H); lia|].
  destruct (mids_run mids_new ops) as [m x]. cbn [fst snd] in *. unfold mids_step. rewrite G1.
  assert (Hid : i32 (m_id m + 1) = Z.of_nat (nexts ops) + 1) by (rewrite G2; apply i32_small; lia).
  rewrite Hid. destruct (zmem (Z.of_nat (nexts ops) + 1) (m_resume m)) eqn:E.
  { apply G3, HR in E. lia. }
  eexists. eexists. split; [reflexivity|]. split; [reflexivity|]. split; [|split].
  - intros H. apply G4 in H. lia.
  - intros H. apply HR in H. lia.
  - unfold getType. cbn [m_index idx_put find fst snd]. rewrite Z.eqb_refl. reflexivity.
Qed.

Lemma next_wire_fresh ops ty : no_reset ops -> Z.of_nat (nexts ops) + 1 < 2 ^ 16 ->
  (forall id, resumed ops id -> ~ 1 <= id <= Z.of_nat (nexts ops) + 1) ->
  exists id m', mids_step (fst (mids_run mids_new ops)) (MNext ty) = (m', Some id) /\
    ~ In (wire_id id) (map wire_id (in_use ops (snd (mids_run mids_new ops)) [])) /\ wire_id id <> 0.
Proof.
  intros NR HB HR. destruct (next_fresh ops ty NR) as (id & m' & E & Ei & N1 & _); [lia|exact HR|].
  exists id, m'. split; [exact E|].
  destruct (run_good ops NR) as (_ & _ & _ & G4); [lia|intros i H; specialize (HR i H); lia|].
  assert (W : forall z, 1 <= z < 2 ^ 16 -> wire_id z = z) by (intros z Hz; apply Z.mod_small; lia).
  rewrite (W id) by lia. split; [|lia]. intros H. apply in_map_iff in H. destruct H as (y & Ey & Hy).
  pose proof (G4 y Hy). rewrite W in Ey by lia. subst y. contradiction.
Qed.

(** Whatever happens in between, an id marked for resumption is not given out. *)
Lemma step_resume m o id : zmem id (m_resume m) = true -> zmem id (m_resume (fst (mids_step m o))) = true.
Proof.
  intros H. unfold mids_step. destruct (m_hung m); [exact H|]. destruct o as [ty|i|i|]; cbn [fst m_resume]; try exact H.
  - destruct (zmem (i32 (m_id m + 1)) _); exact H.
  - unfold zmem in *. cbn [existsb]. rewrite H. apply orb_true_r.
Qed.
Lemma run_resume ops : forall m id, (zmem id (m_resume m) = true \/ (resumed ops id /\ m_hung (fst (mids_run m ops)) = false)) -> zmem id (m_resume (fst (mids_run m ops))) = true.
Proof.
  induction ops as [|o ops IH]; intros m id H; cbn [mids_run].
  - destruct H as [H|[[] _]]. exact H.
  - destruct (mids_step m o) as [m1 x] eqn:E. specialize (IH m1 id). cbn [mids_run] in H. rewrite E in H. destruct (mids_run m1 ops) as [m2 xs] eqn:E2. cbn [fst] in *.
    apply IH. destruct H as [H|[[->|H] Hh]]; [left| |right; split; assumption].
    + replace m1 with (fst (mids_step m o)) by now rewrite E. now apply step_resume.
    + unfold mids_step in E. destruct (m_hung m) eqn:Em.
      * injection E as <- <-. exfalso. enough (forall l m, m_hung m = true -> m_hung (fst (mids_run m l)) = true) as X by (specialize (X ops m Em); rewrite E2 in X; cbn in X; congruence).
        clear. induction l as [|o l IH]; intros m H; [exact H|]. cbn. unfold mids_step. rewrite H. specialize (IH m H). destruct (mids_run m l). exact IH.
      * injection E as <- <-. left. cbn [m_resume]. unfold zmem. cbn [existsb]. now rewrite Z.eqb_refl.
Qed.
Lemma hung_none l : forall m, m_hung m = true -> Forall (fun r => r = None) (snd (mids_run m l)).
Proof.
  induction l as [|o l IH]; intros m0 H0; [constructor|]. cbn. unfold mids_step. rewrite H0.
  specialize (IH m0 H0). destruct (mids_run m0 l). cbn in *. constructor; [reflexivity|exact IH].
Qed.
Lemma resumed_kept a b id i ty : resumed a id -> nth_error b i = Some (MNext ty) -> nth_error (snd (mids_run (fst (mids_run mids_new a)) b)) i <> Some (Some id).
Proof.
  intros Ha. destruct (m_hung (fst (mids_run mids_new a))) eqn:Eh.
  - intros _ Hx. pose proof (hung_none b _ Eh) as F. rewrite Forall_forall in F. apply nth_error_In in Hx. specialize (F _ Hx). discriminate.
  - assert (Hz : zmem id (m_resume (fst (mids_run mids_new a))) = true) by (apply run_resume; auto). revert i Hz. generalize (fst (mids_run mids_new a)). clear.
    induction b as [|o b IH]; intros m i Hz Hi; [destruct i; discriminate|]. cbn [mids_run]. pose proof (step_resume m o id Hz) as Hz'.
    destruct (mids_step m o) as [m1 x] eqn:E. cbn [fst] in Hz'. specialize (IH m1). destruct (mids_run m1 b) as [m2 xs] eqn:E2. cbn [snd] in *.
    destruct i as [|i]; cbn [nth_error] in *; [|now apply IH]. injection Hi as ->. unfold mids_step in E. destruct (m_hung m); [injection E as <- <-; discriminate|].
    destruct (zmem (i32 (m_id m + 1)) (m_resume m)) eqn:Ez; injection E as <- <-; [discriminate|]. intros [= <-]. congruence.
Qed.

(** A resumed id: the next request never returns. *)
Lemma resumed_hangs ops ty : no_reset ops -> Z.of_nat (nexts ops) + 1 < 2 ^ 31 ->
  (forall id, resumed ops id -> ~ 1 <= id <= Z.of_nat (nexts ops)) ->
  resumed ops (Z.of_nat (nexts ops) + 1) ->
  forall more, Forall (fun r => r = None) (snd (mids_run (fst (mids_run mids_new ops)) (MNext ty :: more))).
Proof.
  intros NR HB HR Hr more. destruct (run_good ops NR) as (G1 & G2 & G3 & G4); [lia|exact HR|].
  destruct (mids_run mids_new ops) as [m x]. cbn [fst snd] in *. cbn [mids_run]. unfold mids_step at 1. rewrite G1.
  assert (Hid : i32 (m_id m + 1) = Z.of_nat (nexts ops) + 1) by (rewrite G2; apply i32_small; lia).
  rewrite Hid. rewrite (proj2 (G3 _) Hr).
  assert (HH : forall l m, m_hung m = true -> Forall (fun r => r = None) (snd (mids_run m l))).
  { induction l as [|o l IH]; intros m0 H0; [constructor|]. cbn. unfold mids_step. rewrite H0.
    specialize (IH m0 H0). destruct (mids_run m0 l). cbn in *. constructor; [reflexivity|exact IH]. }
  pose proof (HH more (mkMids (Z.of_nat (nexts ops) + 1) (m_resume m) (m_index m) true) eq_refl) as F.
  destruct (mids_run _ more) as [m2 y]. cbn in *. constructor; [reflexivity|exact F].
Qed.

(** 65536 requests later the id on the wire is the same again. *)
Lemma wire_repeats n : (0 < n)%nat -> wire_id (Z.of_nat n) = wire_id (Z.of_nat n + 2 ^ 16).
Proof. intros _. unfold wire_id. rewrite <- (Z.mul_1_l (2 ^ 16)) at 2. rewrite Z.mod_add by lia. reflexivity. Qed.

Lemma all_next_run ty n : Z.of_nat n < 2 ^ 31 ->
  forall k, (k < n)%nat -> nth_error (snd (mids_run mids_new (repeat (MNext ty) n))) k = Some (Some (Z.of_nat k + 1)).
Proof.
  intros Hn k Hk.
  replace n with (k + (1 + (n - k - 1)))%nat by lia. rewrite repeat_app. cbn [repeat plus].
  rewrite run_app. assert (NX : nexts (repeat (MNext ty) k) = k).
  { clear. induction k; [reflexivity|]. unfold nexts in *. cbn. lia. }
  assert (NRS : forall o, In o (repeat (MNext ty) k) -> o = MNext ty) by (intros o; apply repeat_spec).
  destruct (next_fresh (repeat (MNext ty) k) ty) as (id & m' & E & Ei & _).
  - intros H. apply NRS in H. discriminate.
  - rewrite NX. lia.
  - intros i H. apply NRS in H. discriminate.
  - pose proof (run_length mids_new (repeat (MNext ty) k)) as RL. rewrite repeat_length in RL.
    destruct (mids_run mids_new (repeat (MNext ty) k)) as [m x]. cbn [fst snd] in *.
    cbn [mids_run]. rewrite E. destruct (mids_run m' _) as [m2 y]. cbn [snd].
    rewrite nth_error_app2 by lia. rewrite RL, Nat.sub_diag. cbn. rewrite Ei, NX. reflexivity.
Qed.

Lemma wire_repeat ty : exists a b,
  nth_error (snd (mids_run mids_new (repeat (MNext ty) (N.to_nat 65537)))) 0 = Some (Some a) /\
  nth_error (snd (mids_run mids_new (repeat (MNext ty) (N.to_nat 65537)))) (N.to_nat 65536) = Some (Some b) /\
  a <> b /\ wire_id a = wire_id b.
Proof.
  exists 1, 65537. rewrite !all_next_run by lia. split; [reflexivity|].
  split; [repeat f_equal; lia|]. split; [lia|reflexivity].
Qed.

(** * Types *)
Lemma getType_put l id ty k : match find (fun e => fst e =? k) (idx_put l id ty) with Some e => Some (snd e) | None => None end =
  if Z.eqb id k then Some ty else match find (fun e : Z * N => fst e =? k) l with Some e => Some (snd e) | None => None end.
Proof.
  unfold idx_put. cbn [find fst snd]. destruct (Z.eqb_spec id k) as [->|Hn]; [reflexivity|].
  induction l as [|[a v] l IH]; [reflexivity|]. cbn [filter find fst]. destruct (Z.eqb_spec a id) as [->|Ha]; cbn [negb].
  - destruct (Z.eqb_spec id k); [congruence|exact IH].
  - cbn [find fst]. destruct (a =? k); [reflexivity|exact IH].
Qed.
Lemma getType_del l id k : match find (fun e => fst e =? k) (filter (fun e : Z * N => negb (fst e =? id)) l) with Some e => Some (snd e) | None => None end =
  if Z.eqb id k then None else match find (fun e : Z * N => fst e =? k) l with Some e => Some (snd e) | None => None end.
Proof.
  induction l as [|[a v] l IH]; [now destruct (id =? k)|]. cbn [filter find fst]. destruct (Z.eqb_spec a id) as [->|Ha]; cbn [negb].
  - rewrite IH. now destruct (id =? k).
  - cbn [find fst]. destruct (Z.eqb_spec a k) as [->|]; [|exact IH]. destruct (Z.eqb_spec id k); [congruence|reflexivity].
Qed.
Lemma type_run ops id : forall m, getType (fst (mids_run m ops)) id = type_of ops (snd (mids_run m ops)) id (getType m id).
Proof.
  induction ops as [|o ops IH]; intros m; cbn [mids_run]; [reflexivity|].
  destruct (mids_step m o) as [m1 x] eqn:E. specialize (IH m1). destruct (mids_run m1 ops) as [m2 xs]. cbn [fst snd] in *. rewrite IH. clear IH.
  unfold mids_step in E. destruct (m_hung m).
  - injection E as <- <-. destruct o; reflexivity.
  - destruct o as [ty|i|i|]; try (injection E as <- <-; cbn [type_of]; f_equal).
    + cbv zeta in E. destruct (zmem _ _); injection E as <- <-; cbn [type_of]; f_equal. unfold getType; cbn [m_index]. apply getType_put.
    + unfold getType; cbn [m_index]. apply getType_del.
Qed.
Lemma type_exact ops id : getType (fst (mids_run mids_new ops)) id = type_of ops (snd (mids_run mids_new ops)) id None.
Proof. exact (type_run ops id mids_new). Qed.
