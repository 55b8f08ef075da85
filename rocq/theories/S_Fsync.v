(** What a power failure leaves, and the size of a database. *)
From Verif Require Import M_Bytes M_File M_Fsync.
From Coq Require Import ZArith List.
Import ListNotations.
Open Scope Z_scope.

Definition touches (o : fop) (f : fname) : Prop :=
  match o with
  | OOpen g | OCreate g | OTrunc g _ | OWrite g _ _ | OFsync g | ORemove g => g = f
  | ORename g h => g = f \/ h = f
  end.

(** [kept l l']: of the operations [l] the ones in [l'] reached the disk.  An
    operation may be missing unless a file it touches was flushed later. *)
Inductive kept : list fop -> list fop -> Prop :=
| kept_nil : kept [] []
| kept_keep : forall o l l', kept l l' -> kept (o :: l) (o :: l')
| kept_lose : forall o l l',
    kept l l' ->
    (forall f, touches o f -> ~ In (OFsync f) l) ->
    kept (o :: l) l'.

(** [D'] is what may be found when the power is back. *)
Definition after_power (D : fdisk) (l : list fop) (D' : fdisk) : Prop :=
  exists l', kept l l' /\ forall f, D' f = f_run D l' f.

(** The claim on [Sync] (and on a message acknowledged, with the log): a power
    failure leaves the files as they are. *)
Definition flushed (D : fdisk) (l : list fop) (f : fname) : Prop :=
  forall D', after_power D l D' -> D' f = f_run D l f.

(** Sum of the lengths of the files of the database. *)
Definition total_size (D : fdisk) : Z :=
  file_len D (FFile TInfo 0) + file_len D (FFile TWin 0) + file_len D (FFile TIndex 0) +
  file_len D (FFile TData 0) + file_len D (FFile TLease 0) + file_len D (FFile TFilter 0).

(** No call renames a file to [f]. *)
Definition no_rename (f : fname) (o : fop) : Prop :=
  match o with ORename g h => g <> f /\ h <> f | _ => True end.

(** Some of the operations, in their order *)
Inductive some_of : list fop -> list fop -> Prop :=
| some_nil : some_of [] []
| some_keep : forall o l l', some_of l l' -> some_of (o :: l) (o :: l')
| some_lose : forall o l l', some_of l l' -> some_of (o :: l) l'.

(** Sum of the lengths of files 0 to [n]-1 of one type *)
Fixpoint sum_files (D : fdisk) (t : ftype) (n : nat) : Z :=
  match n with
  | O => 0
  | S k => sum_files D t k + file_len D (FFile t k)
  end.
