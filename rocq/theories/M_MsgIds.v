(** Model of server/internal/message/messageids.go. *)
From Verif Require Import M_Bytes.
Open Scope Z_scope.

(** int32 arithmetic: messageids.go:26 [MID] *)
Definition i32 (z : Z) : Z := to_signed 32 (to_unsigned 32 z).

(** messageids.go:28-33 [MessageIds]; maps as lists of keys.  [m_hung] says a
    goroutine holds the lock forever. *)
Record mids := mkMids { m_id : Z; m_resume : list Z; m_index : list (Z * N); m_hung : bool }.
(** messageids.go:35-40 *)
Definition mids_new : mids := mkMids 0 [] [] false.

Inductive mop := MNext (ty : N) | MFree (id : Z) | MResume (id : Z) | MReset.

Definition zmem (x : Z) (l : list Z) : bool := existsb (Z.eqb x) l.
Definition idx_put (l : list (Z * N)) (k : Z) (v : N) : list (Z * N) :=
  (k, v) :: filter (fun e => negb (fst e =? k)) l.

(** messageids.go:42-69.  [MNext] returns the id; [None] means the call does
    not return: line 65 calls [NextID] while line 61 holds the lock, and the
    lock of package sync is not reentrant.  Calls made after that block too. *)
Definition mids_step (m : mids) (o : mop) : mids * option Z :=
  if m_hung m then (m, None)
  else match o with
       | MReset => (mkMids 0 (m_resume m) (m_index m) false, Some 0)
       | MResume id => (mkMids (m_id m) (id :: m_resume m) (m_index m) false, Some 0)
       | MFree id => (mkMids (m_id m) (m_resume m) (filter (fun e => negb (fst e =? id)) (m_index m)) false, Some 0)
       | MNext ty =>
           let id := i32 (m_id m + 1) in
           if zmem id (m_resume m) then (mkMids id (m_resume m) (m_index m) true, None)
           else (mkMids id (m_resume m) (idx_put (m_index m) id ty) false, Some id)
       end.

Fixpoint mids_run (m : mids) (ops : list mop) : mids * list (option Z) :=
  match ops with
  | [] => (m, [])
  | o :: r => let '(m1, x) := mids_step m o in
              let '(m2, xs) := mids_run m1 r in (m2, x :: xs)
  end.

(** messageids.go:71-75 [GetType] *)
Definition getType (m : mids) (id : Z) : option N :=
  match find (fun e => fst e =? id) (m_index m) with Some e => Some (snd e) | None => None end.

(** batch.go:186, conn.go:276: the callers narrow the id to uint16. *)
Definition wire_id (id : Z) : Z := id mod 2 ^ 16.
