(** Specifications for the server parts. *)
From Verif Require Import M_Bytes M_Subs M_MsgIds M_Wire.

(** Subscriptions of one key: how many requests are open and the identifier
    and topic of the request that opened it. *)
Definition open_step (k : bytes) (a : option (nat * (bytes * bytes))) (o : sop) :=
  match o with
  | SSub k' t f _ => if list_eq_dec N.eq_dec k' k
                     then match a with None => Some (1, (f, t)) | Some (n, x) => Some (S n, x) end
                     else a
  | SUnsub k' => if list_eq_dec N.eq_dec k' k
                 then match a with Some (S (S n), x) => Some (S n, x) | _ => None end
                 else a
  end%nat.
Definition opened (ops : list sop) (k : bytes) : option (nat * (bytes * bytes)) :=
  fold_left (open_step k) ops None.

Definition fresh_ids (ops : list sop) : list bytes :=
  flat_map (fun o => match o with SSub _ _ f _ => [f] | _ => [] end) ops.
(** Requests that name a key. *)
Definition named (o : sop) : Prop := match o with SSub k _ _ _ => k <> [] | SUnsub k => k <> [] end.
(** Requests that name a key and for which the store works. *)
Definition keyed (o : sop) : Prop :=
  match o with SSub k _ _ ok => k <> [] /\ ok = true | SUnsub k => k <> [] end.

(** Message ids: requests in a history, ids marked for resumption. *)
Definition is_next (o : mop) : bool := match o with MNext _ => true | _ => false end.
Definition nexts (ops : list mop) : nat := length (filter is_next ops).
Definition no_reset (ops : list mop) : Prop := ~ In MReset ops.
Definition resumed (ops : list mop) (id : Z) : Prop := In (MResume id) ops.
(** The answers to the id requests of a history. *)
Definition answers (ops : list mop) : list (option Z) :=
  map snd (filter (fun p => is_next (fst p)) (combine ops (snd (mids_run mids_new ops)))).
(** The type given with the last request that was answered with [id], if it was
    not given back since. *)
Fixpoint type_of (ops : list mop) (res : list (option Z)) (id : Z) (acc : option N) : option N :=
  match ops, res with
  | MNext ty :: ops, Some i :: res => type_of ops res id (if Z.eqb i id then Some ty else acc)
  | MFree i :: ops, Some _ :: res => type_of ops res id (if Z.eqb i id then None else acc)
  | _ :: ops, _ :: res => type_of ops res id acc
  | _, _ => acc
  end.
(** Ids handed out and not given back. *)
Fixpoint in_use (ops : list mop) (res : list (option Z)) (acc : list Z) : list Z :=
  match ops, res with
  | MNext _ :: ops, Some id :: res => in_use ops res (id :: acc)
  | MFree id :: ops, _ :: res => in_use ops res (filter (fun x => negb (Z.eqb x id)) acc)
  | _ :: ops, _ :: res => in_use ops res acc
  | _, _ => acc
  end.

Open Scope N_scope.
(** Messages the framing is meant for: pings and disconnects have no body, and
    there is no answer of a type above DISCONNECT. *)
Definition sendable (ty flow : N) (body : bytes) : Prop :=
  0 < ty < 2 ^ 8 /\ flow < 2 ^ 8 /\ N.of_nat (length body) < 2 ^ 31 /\
  (ty = PINGREQ \/ ty = DISCONNECT -> body = []) /\ (flow = 0 -> ty <= DISCONNECT).
(** All messages of a stream. *)
Fixpoint read_all (C : hcodec) (fuel : nat) (r : bytes) : list (N * N * bytes) * bytes :=
  match fuel with
  | O => ([], r)
  | S k => match msg_read C r with
           | RdMsg ty fl b rest => let '(l, e) := read_all C k rest in ((ty, fl, b) :: l, e)
           | _ => ([], r)
           end
  end.
Definition encode_all (C : hcodec) (ms : list (N * N * bytes)) : bytes :=
  flat_map (fun m => match m with (ty, fl, b) => msg_encode C ty fl b end) ms.
