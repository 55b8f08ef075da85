(** C106: what [Sync] has written survives a power failure.  C107: [FileSize]. *)
From Verif Require Import M_Bytes M_File M_Fsync S_Fsync P_Fsync.
From Coq Require Import ZArith List.
Import ListNotations.
Open Scope Z_scope.

(** [sync] of a file set as [newFile] makes it flushes all its files. *)
Theorem C106_partial : forall D l t n i, (i < n)%nat ->
  Forall (no_rename (FFile t i)) l ->
  flushed D (l ++ fs_sync (new_file t n)) (FFile t i).
Proof. exact set_flushed. Qed.
Print Assumptions C106_partial.

(** [getFile] gives the file of its type and number, and only if there is one. *)
Theorem C106_file : forall m c ts n t i, (0 < n)%nat ->
  (In t ts -> (i < n)%nat ->
   get_file (FileSet m (map (fun t => new_file t n) ts) c) t i = Some (FFile t i)) /\
  (~ In t ts \/ (n <= i)%nat ->
   get_file (FileSet m (map (fun t => new_file t n) ts) c) t i = None).
Proof. exact get_both. Qed.
Print Assumptions C106_file.

(** But the map of the file set of the database is empty: after any calls (and at
    any point inside them), a power failure may leave the disk as it was before. *)
Theorem C106_refuted : forall D cs n, after_power D (firstn n (f_calls the_db cs)) D.
Proof. exact all_missing. Qed.
Print Assumptions C106_refuted.

(** Any of the operations may be missing, whatever else is there. *)
Theorem C106_any_refuted : forall D cs n l',
  some_of (firstn n (f_calls the_db cs)) l' ->
  after_power D (firstn n (f_calls the_db cs)) (f_run D l').
Proof. exact any_missing. Qed.
Print Assumptions C106_any_refuted.

(** So [Sync] can lose a message whose log was on the disk before. *)
Theorem C106_log_refuted :
  let l := f_calls the_db [FSync [sb0]] in
  f_run D_log l (FFile TData 0) = Some rec0 /\
  exists D', after_power D_log l D' /\
    D' (FLog 7) = None /\ D' (FFile TData 0) = Some [] /\
    forall f, D' f = D_log f \/ f = FLog 7.
Proof. exact log_lost. Qed.
Print Assumptions C106_log_refuted.

Example C106_files :
  map (fun t => get_file the_fileset t 0) open_types = map (fun t => Some (FFile t 0)) open_types /\
  get_file the_fileset TData 1 = None.
Proof. split; reflexivity. Qed.

(** With the files in the map, the loss above is impossible. *)
Example C106_flush_example : forall D' m,
  kept (f_calls the_db [FSync [sb0]] ++ fs_sync (new_file TData 1)) m ->
  D' = f_run D_log m -> D' (FFile TData 0) = Some rec0.
Proof.
  intros D' m K ->.
  rewrite (set_flushed D_log (f_calls the_db [FSync [sb0]]) TData 1 0 (le_n 1)
             ltac:(repeat constructor) (f_run D_log m)).
  - vm_compute. reflexivity.
  - exists m. split; [exact K | reflexivity].
Qed.

(** The size of a file set as [newFile] makes it *)
Theorem C107_partial : forall D t n, fs_size (new_file t n) D = sum_files D t n.
Proof. exact size_map. Qed.
Print Assumptions C107_partial.

(** [FileSize] is 0 whatever the calls; here the files hold 22 bytes. *)
Theorem C107_refuted :
  (forall D cs, file_size the_db (f_run D (f_calls the_db cs)) = 0) /\
  total_size (f_run D_none (f_calls the_db cs0)) = 22.
Proof. exact size_refuted. Qed.
Print Assumptions C107_refuted.

Example C107_example : fs_size (new_file TIndex 1) (f_run D_none (f_calls the_db cs0)) = 16.
Proof. vm_compute. reflexivity. Qed.
