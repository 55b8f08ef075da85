(** What a Get may give at most.  Histories of puts, deletions and reads with any
    topics whatsoever. *)
From Verif Require Import M_Bytes M_MsgId M_MemDB M_Window M_DB S_MemDB S_DB S_Session.
From Coq Require Import Permutation.
Open Scope Z_scope.

(** A message that was accepted, with the identifier it was given, if any. *)
Record omsg := mkO { o_id : option bytes; o_owner : N; o_expires : N; o_payload : bytes }.

(** An entry that was put before keeps its contract (C57). *)
Definition put_owner (e : uentry) : N := match u_hash e with Some _ => u_contract e | None => owner (u_contract e) end.

(** ** The histories considered: no batches, no Sync; identifiers come from
    NewID and are used for one Put; time does not go back.  [ids] are the
    identifiers not used so far. *)
Record entry_fits (ids : list bytes) (e : uentry) : Prop := {
  ef_contract : (put_owner e < 2 ^ 32)%N;
  ef_expires : (u_expires e < 2 ^ 32)%N;
  ef_payload : Forall is_byte (u_payload e);
  ef_hash : forall h, u_hash e = Some h -> (h < 2 ^ 64)%N;
  ef_tsize : u_tsize e = 0%N;
  ef_id : forall id, u_id e = Some id -> In id ids
}.
Definition spend (ids : list bytes) (i : option bytes) : list bytes :=
  match i with Some id => filter (fun x => negb (beq x id)) ids | None => ids end.
Definition real_time (t now : Z) : Prop := t <= now < 2 ^ 32 * 1000000000.
Fixpoint quiet (t : Z) (ids : list bytes) (ops : list dop) (outs : list dout) : Prop :=
  match ops, outs with
  | o :: ops, x :: outs =>
      match o with
      | DoPut now e => real_time t now /\ entry_fits ids e /\ quiet now (spend ids (u_id e)) ops outs
      | DoDelete e => (forall id, u_id e = Some id -> Forall is_byte id) /\ quiet t ids ops outs
      | DoGet now g q => real_time t now /\ (q_contract q < 2 ^ 32)%N /\ (forall l, Permutation (g_walk g l) l) /\
          Forall (fun n => (n < 2 ^ 64)%N) (q_win q) /\ quiet now ids ops outs
      | DoNewID now => real_time t now /\ quiet now (ids ++ match x with OId id => [id] | _ => [] end) ops outs
      | DoTick now pick => real_time t now /\ pick = None /\ quiet now ids ops outs
      | DoCount | DoCommit => quiet t ids ops outs
      | _ => False
      end
  | _, _ => True
  end.

(** ** What may be seen: payloads of messages that were put under the contract
    that is asked for, not deleted, and not expired unless the query object was
    used before (C56). *)
Definition same_id (a b : option bytes) : bool :=
  match a, b with Some x, Some y => beq x y | _, _ => false end.
Definition allowed_item (now : Z) (q : query) (l : list omsg) (p : bytes) : Prop :=
  exists m, In m l /\ o_payload m = p /\ o_owner m = owner (q_contract q) /\
    (q_win q = [] -> o_expires m = 0%N \/ now / 1000000000 < Z.of_N (o_expires m)).
Fixpoint only (l : list omsg) (ops : list dop) (outs : list dout) : Prop :=
  match ops, outs with
  | o :: ops, x :: outs =>
      match o, x with
      | DoPut now e, ORes DOk => only (l ++ [mkO (u_id e) (put_owner e) (u_expires e) (u_payload e)]) ops outs
      | DoDelete e, ORes DOk => only (filter (fun m => negb (same_id (o_id m) (u_id e))) l) ops outs
      | DoGet now g q, OGot r =>
          match r with QItems items | QErr items _ => Forall (allowed_item now q l) items | _ => True end /\ only l ops outs
      | _, _ => only l ops outs
      end
  | _, _ => True
  end.

(** What a Get gave. *)
Definition gives (r : qres) (p : bytes) : Prop := match r with QItems l | QErr l _ => In p l | _ => False end.
(** [p] was given by some Get. *)
Definition given (p : bytes) (ops : list dop) (outs : list dout) : Prop :=
  exists now g q r, In (DoGet now g q, OGot r) (combine ops outs) /\ gives r p.
