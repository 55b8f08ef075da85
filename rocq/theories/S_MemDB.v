(** Histories of the in-memory store and what they should leave in it. *)
From Verif Require Import M_Bytes M_Bloom M_Wal M_MemDB.
Open Scope Z_scope.

(** What callers and the background tasks do.  Aborting a batch is a series of
    [OFree]. *)
Inductive mop :=
| OPut (key : N) (data : bytes)
| ODelete (key : N)
| OGet (key : N)
| OFree (t : Z)
| OTick (now : Z) (pick : option nat)
| OCommit
| ODrop
| OBatchNew (now : Z) (pick : option nat)
| OBatchPut (t : Z) (key : N) (data : bytes)
| OBatchWrite (t now : Z) (pick : option nat)
| OBatchCommit (group : list Z).

Inductive mout := ORes (r : mres) | OVal (g : gres) | ODone.

Definition mstep (c : mcfg) (s : mdb) (o : mop) : mdb * mout :=
  match o with
  | OPut k v => let (s', r) := mem_put c s k v in (s', ORes r)
  | ODelete k => let (s', r) := mem_delete c s k in (s', ORes r)
  | OGet k => let (s', g) := mem_get c s k in (s', OVal g)
  | OFree t => let (s', r) := mem_free s t in (s', ORes r)
  | OTick now pick => (mem_tick c s now pick, ODone)
  | OCommit => (mem_commit s, ODone)
  | ODrop => (mem_drop s, ODone)
  | OBatchNew now pick => (batch_new s now pick, ODone)
  | OBatchPut t k v => let (s', r) := batch_put c s t k v in (s', ORes r)
  | OBatchWrite t now pick => (batch_write s t now pick, ODone)
  | OBatchCommit g => (batch_commit s g, ODone)
  end.

(** A history: operations with what they answered. *)
Inductive mrun (c : mcfg) : mdb -> list (mop * mout) -> mdb -> Prop :=
| mr_nil s : mrun c s [] s
| mr_step s o s' out h s'' : mstep c s o = (s', out) -> mrun c s' h s'' -> mrun c s ((o, out) :: h) s''.

(** Filters as the store makes them: 160000 bits, seven random 64 bit keys;
    27 of them, and every key has one. *)
Definition gen_ok (g : bloom) : Prop :=
  exists ks, newFilter bloomBits ks = Some g /\ length ks = 7%nat /\ Forall (fun k => (k < 2 ^ 64)%N) ks.
Definition cfg_ok (c : mcfg) (gens : list bloom) : Prop :=
  Forall gen_ok gens /\ (forall k, (c_bkey c k < length gens)%nat).
(** Records as the store can hold them. *)
Definition item_ok (k : N) (v : bytes) : Prop :=
  (k < 2 ^ 64)%N /\ (N.of_nat (length v) + 13 < 2 ^ 32)%N /\ Forall (fun b => (b < 256)%N) v.
Definition op_ok (o : mop) : Prop :=
  match o with
  | OPut k v | OBatchPut _ k v => item_ok k v
  | ODelete k | OGet k => (k < 2 ^ 64)%N
  | _ => True
  end.

(** ** Lookup in one time block

    What each time block holds, read off a history: the current time follows
    the ticks, successful puts go to the current block, batch puts to their
    own, a delete takes the key out of the newest block that has it, or is
    refused, and freeing a block empties it. *)
Definition contents := Z -> N -> option bytes.
Definition upd (A : contents) (t : Z) (k : N) (v : option bytes) : contents :=
  fun t' k' => if ((t' =? t) && (k' =? k)%N)%bool then v else A t' k'.
Definition clear (A : contents) (t : Z) : contents := fun t' k => if t' =? t then None else A t' k.

Inductive acts (c : mcfg) : Z -> contents -> mop -> mout -> Z -> contents -> Prop :=
| ac_put cur A k v : acts c cur A (OPut k v) (ORes MOk) cur (upd A cur k (Some v))
| ac_put_no cur A k v r : r <> MOk -> acts c cur A (OPut k v) (ORes r) cur A
| ac_bput cur A t k v : acts c cur A (OBatchPut t k v) (ORes MOk) cur (upd A t k (Some v))
| ac_bput_no cur A t k v r : r <> MOk -> acts c cur A (OBatchPut t k v) (ORes r) cur A
| ac_del cur A k t r : A t k <> None -> (forall t', t < t' -> A t' k = None) -> r = MOk \/ r = MForbidden ->
    acts c cur A (ODelete k) (ORes r) cur (upd A t k None)
| ac_del_no cur A k : acts c cur A (ODelete k) (ORes MNotExist) cur A
| ac_get cur A k g : acts c cur A (OGet k) (OVal g) cur A
| ac_free cur A t : acts c cur A (OFree t) (ORes MOk) cur (clear A t)
| ac_free_no cur A t r : r <> MOk -> acts c cur A (OFree t) (ORes r) cur A
| ac_tick cur A now pick : acts c cur A (OTick now pick) ODone (trunc now (c_dur c)) A
| ac_commit cur A : acts c cur A OCommit ODone cur A
| ac_drop cur A : acts c cur A ODrop ODone cur A
| ac_bnew cur A now pick : acts c cur A (OBatchNew now pick) ODone cur A
| ac_bwrite cur A t now pick : acts c cur A (OBatchWrite t now pick) ODone cur A
| ac_bcommit cur A g : acts c cur A (OBatchCommit g) ODone cur A.

Inductive acts_all (c : mcfg) : Z -> contents -> list (mop * mout) -> Z -> contents -> Prop :=
| aa_nil cur A : acts_all c cur A [] cur A
| aa_step cur A o out cur' A' h cur'' A'' : acts c cur A o out cur' A' -> acts_all c cur' A' h cur'' A'' ->
    acts_all c cur A ((o, out) :: h) cur'' A''.

(** ** Get over all time blocks

    Where a key is: nowhere, in the block of a time with a value, or in a
    block that was freed. *)
Inductive slot := Absent | Held (t : Z) (v : bytes) | Freed.
(** [g_open]: the current block is there, and was not freed. *)
Record gstate := mkG { g_cur : Z; g_open : bool; g_slot : N -> slot }.
Definition gset (g : gstate) (k : N) (x : slot) : gstate :=
  mkG (g_cur g) (g_open g) (fun k' => if (k' =? k)%N then x else g_slot g k').
Definition gfree (g : gstate) (t : Z) : gstate :=
  mkG (g_cur g) (g_open g && negb (t =? g_cur g))%bool
      (fun k => match g_slot g k with Held t' v => if t' =? t then Freed else Held t' v | x => x end).

(** The histories considered: no batches, the pool does not hand out buffers
    that were given back, time does not go back, and a key is put again only
    while it is in the current block or after it was deleted. *)
Inductive gacts (c : mcfg) : gstate -> mop -> mout -> gstate -> Prop :=
| ga_put g k v : (g_slot g k = Absent \/ exists w, g_slot g k = Held (g_cur g) w) -> g_open g = true ->
    gacts c g (OPut k v) (ORes MOk) (gset g k (Held (g_cur g) v))
| ga_put_no g k v : g_open g = false -> gacts c g (OPut k v) (ORes MForbidden) g
| ga_del g k t v r : g_slot g k = Held t v -> r = MOk \/ (r = MForbidden /\ g_open g = false) ->
    gacts c g (ODelete k) (ORes r) (gset g k Absent)
| ga_del_no g k : (forall t v, g_slot g k <> Held t v) -> gacts c g (ODelete k) (ORes MNotExist) g
| ga_get g k t v : g_slot g k = Held t v -> gacts c g (OGet k) (OVal (GOk v)) g
| ga_get_no g k : g_slot g k = Absent -> gacts c g (OGet k) (OVal GNotExist) g
| ga_get_freed g k r : g_slot g k = Freed -> r = GNotExist \/ r = GErr -> gacts c g (OGet k) (OVal r) g
| ga_free g t : (t = g_cur g -> g_open g = true) -> gacts c g (OFree t) (ORes MOk) (gfree g t)
| ga_free_no g t : (t = g_cur g -> g_open g = false) -> (forall k v, g_slot g k <> Held t v) ->
    gacts c g (OFree t) (ORes MNotExist) g
| ga_tick g now : g_cur g <= trunc now (c_dur c) ->
    gacts c g (OTick now None) ODone (mkG (trunc now (c_dur c)) true (g_slot g))
| ga_commit g : gacts c g OCommit ODone g
| ga_drop g : gacts c g ODrop ODone g.

Inductive gacts_all (c : mcfg) : gstate -> list (mop * mout) -> gstate -> Prop :=
| gl_nil g : gacts_all c g [] g
| gl_step g o out g' h g'' : gacts c g o out g' -> gacts_all c g' h g'' -> gacts_all c g ((o, out) :: h) g''.

(** The operations of a history, with the side conditions above but whatever
    was answered. *)
Definition allowed (c : mcfg) (g : gstate) (o : mop) : Prop :=
  match o with
  | OPut k _ => g_slot g k = Absent \/ exists w, g_slot g k = Held (g_cur g) w
  | ODelete _ | OGet _ | OFree _ | OCommit | ODrop => True
  | OTick now pick => pick = None /\ g_cur g <= trunc now (c_dur c)
  | _ => False
  end.
Definition gstart (c : mcfg) (now : Z) : gstate := mkG (trunc now (c_dur c)) true (fun _ => Absent).

(** ** What the logs say

    A log file is a sequence of records: a key with its value, or a tombstone,
    which names the key and the time block it was in.  Read in order, the last
    record of a key counts. *)
Definition log_bytes (rs : list (ikey * bytes)) : bytes := concat (map (fun r => mrecord (fst r) (snd r)) rs).
Notation logrec := (Z * (ikey * bytes))%type.
Definition flat (logs : list (Z * list (ikey * bytes))) : list logrec :=
  flat_map (fun l => map (pair (fst l)) (snd l)) logs.
Fixpoint final (k : N) (l : list logrec) (x : option (Z * bytes)) : option (Z * bytes) :=
  match l with
  | [] => x
  | (id, ((fl, k'), v)) :: r => final k r (if (k' =? k)%N then (if fl then None else Some (id, v)) else x)
  end.
Definition tomb_time (v : bytes) : Z := to_signed 64 (unle (firstn 8 v)).

(** The logs considered: later logs are for the same or later blocks, a key is
    in one time block only, tombstones name that block, and a key is not put
    again after its tombstone. *)
Record logs_ok (c : mcfg) (logs : list (Z * list (ikey * bytes))) : Prop := {
  lo_order : forall l1 a l2 b l3, logs = l1 ++ a :: l2 ++ b :: l3 ->
    trunc (fst a) (c_logint c) <= trunc (fst b) (c_logint c);
  lo_item : forall id k v, In (id, (k, v)) (flat logs) -> item_ok (snd k) v;
  lo_block : forall id1 id2 k v1 v2, In (id1, ((false, k), v1)) (flat logs) ->
    In (id2, ((false, k), v2)) (flat logs) -> trunc id1 (c_logint c) = trunc id2 (c_logint c);
  lo_tomb : forall id k w, In (id, ((true, k), w)) (flat logs) -> (8 <= length w)%nat /\
    forall id2 v, In (id2, ((false, k), v)) (flat logs) -> tomb_time w = trunc id2 (c_logint c);
  lo_last : forall l1 l2 id1 id2 k w v, flat logs = l1 ++ (id1, ((true, k), w)) :: l2 ->
    ~ In (id2, ((false, k), v)) l2
}.

(** What is in the store after replaying such logs. *)
Definition recovered (c : mcfg) (logs : list (Z * list (ikey * bytes))) (now : Z) : gstate :=
  mkG (trunc now (c_dur c)) true
      (fun k => match final k (flat logs) None with
                | Some (id, v) => Held (trunc id (c_logint c)) v
                | None => Absent
                end).

(** ** What users expect of Get: the value of the last put of the key that
    succeeded, unless the key was deleted since. *)
Definition expect1 (k : N) (x : option bytes) (e : mop * mout) : option bytes :=
  match e with
  | (OPut k' v, ORes MOk) | (OBatchPut _ k' v, ORes MOk) => if (k' =? k)%N then Some v else x
  | (ODelete k', ORes MOk) => if (k' =? k)%N then None else x
  | _ => x
  end.
Definition expected (h : list (mop * mout)) (k : N) : option bytes := fold_left (expect1 k) h None.
