(** What is said about batched delivery. *)
From Coq Require Import ZArith List Bool.
From Verif Require Import M_Batch.
Import ListNotations.
Open Scope Z_scope.

(** The messages given to [add] in a run, in order. *)
Fixpoint added (o : bopts) (ps : list bop) : list bmsg :=
  match ps with
  | [] => []
  | BAdd now delay id size :: r => mkBM (timeID o now delay) id size :: added o r
  | _ :: r => added o r
  end.

(** The messages handed to the connection, in order. *)
Definition delivered (s : bstate) : list bmsg := concat (bs_out s).
(** Those on their way. *)
Definition on_way (s : bstate) : list bmsg := concat (bs_send s) ++ concat (bs_queue s).
(** Those that wait for time [t]. *)
Definition held (s : bstate) (t : Z) : list bmsg :=
  match g_find (bs_group s) t with Some b => bs_heap s b | None => [] end.
(** The messages of time [t] of a list *)
Definition at_time (t : Z) (l : list bmsg) : list bmsg := filter (fun m => bm_time m =? t) l.

(** Runs in which the publish loop gets the lock at once, the pool is never full
    and the connection never times out. *)
Fixpoint smooth (o : bopts) (s : bstate) (ps : list bop) : Prop :=
  match ps with
  | [] => True
  | p :: r =>
      match p with
      | BPick _ _ => match r with BCommit :: _ => True | _ => False end
      | BDispatch => (length (bs_send s) < defaultPoolCapacity)%nat
      | BPublish ok => ok = true
      | _ => True
      end /\
      match bstep o s p with Some s' => smooth o s' r | None => False end
  end.
