(** Histories of a database with background expiry. *)
From Verif Require Import M_Bytes M_Entry M_IndexBlock M_Topic M_Query M_Lease S_Lease M_BlockStore M_WinBlock M_MemDB M_Window M_DB S_DB M_Expiry.
Open Scope Z_scope.

(** * Runs of a database with the expirer

    An Open begins with an empty bucket; only Get adds to it. *)
Inductive xop := XDo (o : dop) | XExpire (now : Z).
Definition xstep (c : dcfg) (find : N -> nat) (w : world) (b : expiry) (o : xop) : world * expiry * dout :=
  match o with
  | XDo o =>
      let b := match w, o with
               | Up s, DoGet now g q => fold_left (add_expiry find) (get_dead c s now g q) b
               | _, DoOpen _ _ _ _ _ => newExpiry (x_on b)
               | _, _ => b
               end in
      let (w, x) := dstep c w o in (w, b, x)
  | XExpire now =>
      match w with
      | Up s => match expire_entries (c_def c) now s b with
                | Some (s, b) => (Up s, b, ODone)
                | None => (Down (on_disk s), b, ORes DPanic)
                end
      | Down f => (Down f, b, ONone)
      end
  end.
Fixpoint xrun (c : dcfg) (find : N -> nat) (w : world) (b : expiry) (ops : list xop) : world * expiry * list dout :=
  match ops with
  | [] => (w, b, [])
  | o :: r =>
      let '(w, b, x) := xstep c find w b o in
      let '(w, b, xs) := xrun c find w b r in (w, b, x :: xs)
  end.


(** * The bucket alone: Gets meet expired entries, the job takes some. *)
Inductive bop := BMeet (es : list wentry) | BTake (now : Z).
Fixpoint brun (find : N -> nat) (max : Z) (b : expiry) (ops : list bop) : expiry * list wentry :=
  match ops with
  | [] => (b, [])
  | BMeet es :: r => brun find max (fold_left (add_expiry find) es b) r
  | BTake now :: r =>
      let (b, es) := get_expired now max b in
      let (b, rest) := brun find max b r in (b, es ++ rest)
  end.
(** All that was met expired a minute ago or more. *)
Definition met_before (now : Z) (ops : list bop) : Prop :=
  forall es e, In (BMeet es) ops -> In e es -> Z.of_N (w_expiresAt e) + 60 <= unix now.

(** * The space of the entries a job releases: up to the first that cannot be read. *)
Fixpoint read_ranges (s : db) (es : list wentry) : list range :=
  match es with
  | [] => []
  | e :: r => match readEntry (d_index s) (w_seq e) with
              | Some (RFound x) => (x_msgOffset x, mSize x) :: read_ranges s r
              | _ => []
              end
  end.

(** * Where an entry was met

    [e] is met, expired, by a Get at time [t] of the run [ops]. *)
Definition met_in (c : dcfg) (find : N -> nat) (w : world) (b : expiry) (ops : list xop) (e : wentry) : Prop :=
  exists ops1 t g q ops2 s, ops = ops1 ++ XDo (DoGet t g q) :: ops2 /\
    fst (fst (xrun c find w b ops1)) = Up s /\ In e (get_dead c s t g q) /\
    w_expiresAt e <> 0%N /\ (w_expiresAt e <= u32z (unix t))%N.
