From Verif Require Import M_Bytes M_File M_Fsync S_Fsync.
From Coq Require Import ZArith List Lia.
Import ListNotations.
Open Scope Z_scope.

Definition not_fsync (o : fop) : Prop := match o with OFsync _ => False | _ => True end.

Lemma writes_nf : forall f l, Forall not_fsync (writes f l).
Proof. intros f l. induction l; constructor; [exact I | assumption]. Qed.

Lemma sync_map_nil : forall b, Forall not_fsync (sync_block the_db b).
Proof.
  intros b. unfold sync_block, db_fsync, write_info, fs_sync. cbn [fd_fs the_db the_fileset fs_map map].
  repeat (apply Forall_app; split); try apply writes_nf.
  - destruct (sb_extend b); repeat constructor.
  - repeat constructor.
  - repeat constructor.
  - constructor.
Qed.

Lemma log_del_nf : forall l, Forall not_fsync (log_del l).
Proof. induction l; constructor; [exact I | assumption]. Qed.

Lemma blocks_nf : forall bs,
  Forall not_fsync (flat_map (fun b => sync_block the_db b ++ log_del (sb_free b)) bs).
Proof.
  induction bs as [|b bs IH]; cbn [flat_map]; [constructor|].
  apply Forall_app; split; [|exact IH].
  apply Forall_app; split; [apply sync_map_nil | apply log_del_nf].
Qed.

Lemma ops_nf : forall c, Forall not_fsync (f_ops the_db c).
Proof.
  intros [fresh| | |id h d|info|bs|[[w i] d] wl il|bs|info lease]; cbn [f_ops].
  - apply Forall_app; split; [repeat constructor|destruct fresh; repeat constructor].
  - constructor.
  - constructor.
  - repeat constructor.
  - constructor.
  - apply blocks_nf.
  - repeat (apply Forall_app; split); try apply writes_nf; repeat constructor.
  - apply blocks_nf.
  - repeat constructor.
Qed.

Lemma calls_nf : forall cs, Forall not_fsync (f_calls the_db cs).
Proof.
  induction cs as [|c cs IH]; cbn [f_calls flat_map]; [constructor|].
  apply Forall_app; split; [apply ops_nf | exact IH].
Qed.

Lemma firstn_nf : forall n l, Forall not_fsync l -> Forall not_fsync (firstn n l).
Proof.
  induction n as [|n IH]; intros l H; [constructor|].
  destruct H; [constructor|]. cbn. constructor; auto.
Qed.

Lemma nf_in : forall l f, Forall not_fsync l -> ~ In (OFsync f) l.
Proof. intros l f H I. rewrite Forall_forall in H. exact (H _ I). Qed.

Lemma some_kept : forall l l', Forall not_fsync l -> some_of l l' -> kept l l'.
Proof.
  intros l l' H S. revert H. induction S as [|o l l' S IH|o l l' S IH]; intros H.
  - constructor.
  - inversion H; subst. constructor. auto.
  - inversion H; subst. constructor; [auto|]. intros f _. apply nf_in. assumption.
Qed.

Lemma any_missing : forall D cs n l',
  some_of (firstn n (f_calls the_db cs)) l' ->
  after_power D (firstn n (f_calls the_db cs)) (f_run D l').
Proof.
  intros D cs n l' S. exists l'. split; [|reflexivity].
  apply some_kept; [|exact S]. apply firstn_nf, calls_nf.
Qed.

Lemma some_none : forall l, some_of l [].
Proof. induction l; constructor; assumption. Qed.

Lemma all_missing : forall D cs n, after_power D (firstn n (f_calls the_db cs)) D.
Proof. intros D cs n. exact (any_missing D cs n [] (some_none _)). Qed.

(** A file that is flushed is as it was. *)
Lemma fset_other : forall D f g c, g <> f -> fset D f c g = D g.
Proof. intros D f g c N. unfold fset. destruct (fname_eq_dec g f); [contradiction|reflexivity]. Qed.

Lemma fset_same : forall D f c, fset D f c f = c.
Proof. intros. unfold fset. destruct (fname_eq_dec f f); [reflexivity|contradiction]. Qed.

Lemma untouched : forall o D f, ~ touches o f -> f_apply D o f = D f.
Proof.
  intros o D f N. destruct o as [g|g|g n|g off d|g|g h|g]; cbn [touches f_apply] in *.
  - destruct (D g); [reflexivity|]. apply fset_other. congruence.
  - apply fset_other. congruence.
  - destruct (D g); [|reflexivity]. apply fset_other. congruence.
  - destruct (D g) as [c|]; [|reflexivity].
    destruct (write_at c off d); [|reflexivity]. apply fset_other. congruence.
  - reflexivity.
  - destruct (D g); [|reflexivity].
    rewrite fset_other by (intros ->; apply N; right; reflexivity).
    apply fset_other. intros ->; apply N; left; reflexivity.
  - apply fset_other. congruence.
Qed.

Lemma apply_same : forall o D E f, no_rename f o -> D f = E f -> f_apply D o f = f_apply E o f.
Proof.
  intros o D E f R H.
  destruct o as [g|g|g n|g off d|g|g h|g]; cbn [no_rename] in R;
    try (destruct (fname_eq_dec g f) as [->|N];
         [cbn [f_apply]; rewrite <- ?H;
          repeat match goal with
                 | |- context [match D f with _ => _ end] => destruct (D f) eqn:?
                 | |- context [match write_at ?c ?o ?d with _ => _ end] => destruct (write_at c o d)
                 end; rewrite ?fset_same; congruence
         | rewrite !untouched by (cbn; congruence); exact H]).
  rewrite !untouched by (cbn; intuition congruence). exact H.
Qed.

Lemma touches_dec : forall o f, {touches o f} + {~ touches o f}.
Proof.
  intros o f. destruct o as [g|g|g n|g off d|g|g h|g]; cbn [touches]; try apply fname_eq_dec.
  destruct (fname_eq_dec g f) as [->|]; [left; left; reflexivity|].
  destruct (fname_eq_dec h f) as [->|]; [left; right; reflexivity|].
  right. tauto.
Qed.

Lemma kept_same : forall f r, In (OFsync f) r -> (forall o, In o r -> ~ touches o f \/ o = OFsync f) ->
  forall l m, Forall (no_rename f) l -> kept (l ++ r) m ->
  forall D E, D f = E f -> f_run D (l ++ r) f = f_run E m f.
Proof.
  intros f r I R.
  assert (Tail: forall r', (forall o, In o r' -> In o r) ->
           forall m, kept r' m -> forall D E, D f = E f -> f_run D r' f = f_run E m f).
  { induction r' as [|o r' IH]; intros Hr m K D E H.
    - inversion K; subst. exact H.
    - assert (A: forall D, f_apply D o f = D f).
      { intros D0. destruct (R o (Hr o (or_introl eq_refl))) as [N| ->];
          [apply untouched; exact N | reflexivity]. }
      assert (Hr': forall o', In o' r' -> In o' r) by (intros; apply Hr; right; assumption).
      inversion K; subst; cbn [f_run fold_left].
      + apply IH; [exact Hr'|assumption|rewrite !A; exact H].
      + apply IH; [exact Hr'|assumption|rewrite A; exact H]. }
  induction l as [|o l IH]; intros m F K D E H.
  - apply (Tail r); auto.
  - inversion F; subst. cbn [app] in K. inversion K; subst; cbn [app f_run fold_left].
    + apply IH; try assumption. apply apply_same; assumption.
    + apply IH; try assumption. rewrite untouched; [exact H|].
      intros T. match goal with N : forall f, touches o f -> _ |- _ => apply (N f T) end.
      apply in_or_app. right. exact I.
Qed.

Lemma set_flushed : forall D l t n i, (i < n)%nat ->
  Forall (no_rename (FFile t i)) l ->
  flushed D (l ++ fs_sync (new_file t n)) (FFile t i).
Proof.
  intros D l t n i L F D' (m & K & E). rewrite E. symmetry.
  apply (kept_same (FFile t i) (fs_sync (new_file t n))); try assumption; try reflexivity.
  - unfold fs_sync, new_file. cbn [fs_map]. rewrite map_map. apply in_map_iff.
    exists i. split; [reflexivity|]. apply in_seq. lia.
  - unfold fs_sync, new_file. cbn [fs_map]. rewrite map_map. intros o I.
    apply in_map_iff in I. destruct I as (j & <- & _). cbn [snd touches].
    destruct (fname_eq_dec (FFile t j) (FFile t i)) as [->|N]; [right; reflexivity|left; exact N].
Qed.

(** [getFile] *)
Lemma ftype_eqb_spec : forall a b, ftype_eqb a b = true <-> a = b.
Proof. intros a b. destruct a, b; cbn; split; congruence. Qed.

Lemma find_seq : forall t n k i, (k <= i < k + n)%nat ->
  find (fun p => Nat.eqb (fst p) i) (map (fun j => (j, FFile t j)) (seq k n)) = Some (i, FFile t i).
Proof.
  intros t n. induction n as [|n IH]; intros k i L; [lia|].
  cbn [seq map find fst]. destruct (Nat.eqb_spec k i) as [->|N]; [reflexivity|]. apply IH. lia.
Qed.

Lemma get_found : forall m c ts n t i, In t ts -> (i < n)%nat ->
  get_file (FileSet m (map (fun t => new_file t n) ts) c) t i = Some (FFile t i).
Proof.
  intros m c ts n t i I L. unfold get_file. cbn [fs_list].
  induction ts as [|u ts IH]; [destruct I|].
  cbn [map get_file_in new_file fs_cur fs_map].
  destruct (ftype_eqb u t) eqn:E.
  - apply ftype_eqb_spec in E. subst u.
    destruct (Nat.eqb_spec (pred n) i) as [<-|N]; [reflexivity|].
    rewrite find_seq by lia. reflexivity.
  - apply IH. destruct I as [->|I]; [|exact I].
    assert (ftype_eqb t t = true) by (apply ftype_eqb_spec; reflexivity). congruence.
Qed.

Lemma get_missing : forall m c ts n t i, ~ In t ts \/ (n <= i)%nat -> (0 < n)%nat ->
  get_file (FileSet m (map (fun t => new_file t n) ts) c) t i = None.
Proof.
  intros m c ts n t i O P. unfold get_file. cbn [fs_list].
  induction ts as [|u ts IH]; [reflexivity|].
  assert (IH' : get_file_in (map (fun t => new_file t n) ts) t i = None).
  { apply IH. destruct O as [O|O]; [left; intros X; apply O; right; exact X|right; exact O]. }
  cbn [map get_file_in new_file fs_cur fs_map].
  destruct (ftype_eqb u t) eqn:E; [|exact IH'].
  apply ftype_eqb_spec in E. subst u.
  destruct O as [O|O]; [destruct O; left; reflexivity|].
  destruct (Nat.eqb_spec (pred n) i) as [X|N]; [lia|].
  destruct (find _ _) as [p|] eqn:F; [|exact IH'].
  apply find_some in F. destruct F as [F G]. apply in_map_iff in F.
  destruct F as (j & <- & J). apply in_seq in J. cbn [fst] in G.
  apply Nat.eqb_eq in G. lia.
Qed.

Lemma get_both : forall m c ts n t i, (0 < n)%nat ->
  (In t ts -> (i < n)%nat ->
   get_file (FileSet m (map (fun t => new_file t n) ts) c) t i = Some (FFile t i)) /\
  (~ In t ts \/ (n <= i)%nat ->
   get_file (FileSet m (map (fun t => new_file t n) ts) c) t i = None).
Proof.
  intros m c ts n t i P. split; [apply get_found | intros O; apply get_missing; assumption].
Qed.

(** [FileSize] *)
Lemma size_map : forall D t n,
  fs_size (new_file t n) D = sum_files D t n.
Proof.
  intros D t n. unfold fs_size, new_file. cbn [fs_map].
  induction n as [|n IH]; [reflexivity|].
  rewrite seq_S, map_app, fold_left_app, IH. reflexivity.
Qed.

Lemma size_zero : forall D, file_size the_db D = 0.
Proof. reflexivity. Qed.

(** A log that was on the disk, and a Sync *)
Definition rec0 : bytes := [5; 6; 7]%N.
Definition sb0 : sblock :=
  {| sb_leased := []; sb_extend := Some 16%nat; sb_win := [(0, [9]%N)]; sb_end := 0; sb_data := rec0;
     sb_index := [(0, [8]%N)]; sb_info := [1; 1]%N; sb_free := [7] |}.
Definition D_log : fdisk := fun f =>
  match f with
  | FLog 7 => Some (1 :: rec0)%N
  | FLog _ | FTmp _ => None
  | FFile TInfo 0 => Some [1; 0]%N
  | FFile _ 0 => Some []
  | FFile _ _ => None
  end.

Lemma log_lost :
  let l := f_calls the_db [FSync [sb0]] in
  f_run D_log l (FFile TData 0) = Some rec0 /\
  exists D', after_power D_log l D' /\
    D' (FLog 7) = None /\ D' (FFile TData 0) = Some [] /\
    forall f, D' f = D_log f \/ f = FLog 7.
Proof.
  cbv zeta. split; [vm_compute; reflexivity|].
  exists (f_run D_log [ORemove (FLog 7)]). split; [|split; [|split]].
  - rewrite <- (firstn_all (f_calls the_db [FSync [sb0]])). apply any_missing.
    rewrite firstn_all. cbn. do 5 apply some_lose. apply some_keep. apply some_nil.
  - vm_compute. reflexivity.
  - vm_compute. reflexivity.
  - intros f. cbn [f_run fold_left f_apply]. destruct (fname_eq_dec f (FLog 7)) as [->|N]; [right; reflexivity|].
    left. apply fset_other. exact N.
Qed.

Definition D_none : fdisk := fun _ => None.
Definition cs0 : list fcall :=
  [FOpen (Some [1; 0]%N); FPut; FLogWrite 7 [1]%N rec0; FSync [sb0]].

Lemma size_refuted :
  (forall D cs, file_size the_db (f_run D (f_calls the_db cs)) = 0) /\
  total_size (f_run D_none (f_calls the_db cs0)) = 22.
Proof. split; [reflexivity | vm_compute; reflexivity]. Qed.
