(** Consistent hashing (hash/consistent.go, hash/rand.go, hash/modulo.go). *)
From Verif Require Import M_Bytes.
Open Scope N_scope.

Definition wrap16 (x : N) : N := x mod 2 ^ 16.
Definition wrap32 (x : N) : N := x mod 2 ^ 32.

(** hash/modulo.go:5 *)
Definition fastMod (x m : N) : N := wrap32 (((x * m) mod 2 ^ 64) / 2 ^ 32).

(** bits.RotateLeft32, for 0 < k < 32. *)
Definition rotl32 (x k : N) : N := wrap32 (N.lor (N.shiftl x k) (N.shiftr x (32 - k))).

(** hash/rand.go:5-10 *)
Definition fleaSeed : N := 4058668781.
Definition fleaRot1 : N := 27.
Definition fleaRot2 : N := 17.

Record flea := mkFlea { fl_a : N; fl_b : N; fl_c : N; fl_d : N }.
(** hash/rand.go:37-44, also the body of the loop at 22-31. *)
Definition fleaRound (s : flea) : flea :=
  let e := wrap32 (fl_a s + 2 ^ 32 - rotl32 (fl_b s) fleaRot1) in
  let a := N.lxor (fl_b s) (rotl32 (fl_c s) fleaRot2) in
  let b := wrap32 (fl_c s + fl_d s) in
  let c := wrap32 (fl_d s + e) in
  let d := wrap32 (e + a) in
  mkFlea a b c d.
(** hash/rand.go:17-35 *)
Definition fleaInit (key : N) : flea :=
  let seed := wrap32 (N.lxor (key / 2 ^ 32) key) in
  fleaRound (fleaRound (fleaRound (mkFlea fleaSeed seed seed seed))).

(** hash/consistent.go:7-26 *)
Record anchor := mkAnchor { an_A : list N; an_K : list N; an_W : list N; an_L : list N; an_R : list N; an_N : N }.

(** Slices; None: index out of range. *)
Definition idx (l : list N) (i : N) : option N := nth_error l (N.to_nat i).
Fixpoint set_nth (l : list N) (i : nat) (v : N) : option (list N) :=
  match l, i with
  | [], _ => None
  | _ :: r, O => Some (v :: r)
  | x :: r, S i' => match set_nth r i' v with None => None | Some r' => Some (x :: r') end
  end.
Definition upd (l : list N) (i v : N) : option (list N) := set_nth l (N.to_nat i) v.

(** 0, 1, ..., n-1 *)
Definition count_up (n : nat) : list N := map N.of_nat (seq 0 n).

(** InitConsistent (hash/consistent.go:37-54); None: panic.  The loops count in
    uint16.  If uint16(used) is 0 the second one does not end before R is out of
    range; with used > blocks make panics.  The entries of K, W and L of the
    unused blocks stay 0. *)
Definition initConsistent (blocks used : N) : option anchor :=
  let u := wrap16 used in
  let top := wrap16 (blocks + 65535) in
  let loops := if u <=? top then top - u + 1 else 0 in
  if (u =? 0) || (blocks <? used) || (blocks - used <? loops) then None else
    let first := count_up (N.to_nat u) ++ repeat 0 (N.to_nat (blocks - u)) in
    let rest := map (fun i => u + N.of_nat i) (seq 0 (N.to_nat loops)) in
    Some (mkAnchor (repeat 0 (N.to_nat u) ++ rest ++ repeat 0 (N.to_nat (blocks - u - loops))) first first first
                   (rev rest ++ repeat 0 (N.to_nat (blocks - used - loops))) u).

(** Found: the answer; Panics: index out of range; More: still looping after
    that many rounds. *)
Inductive lookup := Found (b : N) | Panics | More.

(** The inner loop, hash/consistent.go:80-82. *)
Fixpoint chain (A K : list N) (lim h : N) (fuel : nat) : lookup :=
  match idx A h with
  | None => Panics
  | Some v =>
      if lim <=? v then
        match fuel, idx K h with
        | O, _ => More
        | S f, None => Panics
        | S f, Some h' => chain A K lim h' f
        end
      else Found h
  end.
(** The outer loop, hash/consistent.go:77-84. *)
Fixpoint walk (A K : list N) (s : flea) (b : N) (fuel : nat) : lookup :=
  match idx A b with
  | None => Panics
  | Some v =>
      if v =? 0 then Found b else
      match fuel with
      | O => More
      | S f =>
          let s' := fleaRound s in
          match chain A K v (wrap16 (fastMod (fl_d s') v)) fuel with
          | Found h => walk A K s' h f
          | x => x
          end
      end
  end.
Definition start (A : list N) (key : N) : N := wrap16 (fastMod (fl_d (fleaInit key)) (N.of_nat (length A))).
(** FindBlock (hash/consistent.go:73-86). *)
Definition findBlock (c : anchor) (key : N) (fuel : nat) : lookup :=
  walk (an_A c) (an_K c) (fleaInit key) (start (an_A c) key) fuel.

(** FindPreviousBlock (hash/consistent.go:89-107): it writes to A and K. *)
Definition findPrevious (c : anchor) (key : N) (fuel : nat) : option (anchor * lookup) :=
  let n := wrap16 (an_N c + 65535) in
  match an_R c, idx (an_W c) n with
  | [], _ | _, None => None
  | _, Some w =>
      let cb := last (an_R c) 0 in
      match upd (an_A c) cb n, upd (an_K c) cb w with
      | Some A, Some K =>
          let c' := mkAnchor A K (an_W c) (an_L c) (an_R c) (an_N c) in
          Some (c', findBlock c' key fuel)
      | _, _ => None
      end
  end.

(** AddBlock (hash/consistent.go:156-165); None: panic. *)
Definition addBlock (c : anchor) : option (anchor * N) :=
  match an_R c with
  | [] => None
  | _ :: _ =>
      let b := last (an_R c) 0 in
      let R := removelast (an_R c) in
      match upd (an_A c) b 0, idx (an_W c) (an_N c) with
      | Some A, Some w =>
          match upd (an_L c) w (an_N c) with
          | None => None
          | Some L =>
              match idx L b with
              | None => None
              | Some l =>
                  match upd (an_W c) l b, upd (an_K c) b b with
                  | Some W, Some K => Some (mkAnchor A K W L R (wrap16 (an_N c + 1)), b)
                  | _, _ => None
                  end
              end
          end
      | _, _ => None
      end
  end.

(** RemoveBlock (hash/consistent.go:176-186); None: panic. *)
Definition removeBlock (c : anchor) (b : N) : option anchor :=
  match idx (an_A c) b with
  | None => None
  | Some v =>
      if negb (v =? 0) then Some c else
      let n := wrap16 (an_N c + 65535) in
      match upd (an_A c) b n, idx (an_W c) n, idx (an_L c) b with
      | Some A, Some w, Some l =>
          match upd (an_W c) l w, upd (an_K c) b w with
          | Some W, Some K =>
              (** hash/consistent.go:185 reads W[N] and L[b] after the assignments. *)
              match idx W n with
              | None => None
              | Some w' =>
                  match upd (an_L c) w' l with
                  | None => None
                  | Some L => Some (mkAnchor A K W L (an_R c ++ [b]) n)
                  end
              end
          | _, _ => None
          end
      | _, _, _ => None
      end
  end.
