(** Histories of a database. *)
From Verif Require Import M_Bytes M_Bloom M_Entry M_MsgId M_MemDB M_Window M_DB.
Open Scope Z_scope.

(** A database that is open, or its files. *)
Inductive world := Up (s : db) | Down (f : files).

(** What callers do, what the background tasks do, and what happens to the
    process.  [DoTick] queues the current log, [DoCommit] writes the oldest
    queued one (M_MemDB). *)
Inductive dop :=
| DoPut (now : Z) (e : uentry)
| DoDelete (e : uentry)
| DoGet (now : Z) (g : gchoice) (q : query)
| DoNewID (now : Z)
| DoCount
| DoBatch (now : Z) (pick : option nat) (l : list bop) (fails : bool) (now1 now2 : Z) (p1 p2 : option nat)
| DoSync (now : Z) (ord : morder)
| DoTick (now : Z) (pick : option nat)
| DoCommit
| DoClose
| DoCrash
| DoOpen (gens : list bloom) (now : Z) (ord : morder) (immut enc : bool).

Inductive dout := ORes (r : dres) | OGot (r : qres) | OId (id : bytes) | OCount (n : N) | ODone | OOpened (ok : bool) | ONone.

(** A panic ends the process. *)
Definition alive (s : db) (r : dres) : world := match r with DPanic => Down (on_disk s) | _ => Up s end.
Definition alive_q (s : db) (r : qres) : world := match r with QPanic | QLoop => Down (on_disk s) | _ => Up s end.

Definition dstep (c : dcfg) (w : world) (o : dop) : world * dout :=
  match w, o with
  | Up s, DoPut now e => let '(s', _, r) := put_entry c s now e in (alive s' r, ORes r)
  | Up s, DoDelete e => let (s', r) := delete_entry c s e in (alive s' r, ORes r)
  | Up s, DoGet now g q => let '(s', _, r) := db_get c s now g q in (alive_q s' r, OGot r)
  | Up s, DoNewID now => let (s', id) := db_new_id s now in (Up s', OId id)
  | Up s, DoCount => (Up s, OCount (d_count s))
  | Up s, DoBatch now pick l fails now1 now2 p1 p2 =>
      match db_batch_run c s now pick l fails now1 now2 p1 p2 with
      | None => let (s0, b) := db_batch s now pick in (Down (on_disk (batch_left c s0 b l)), ORes DPanic)
      | Some s' => (Up s', ORes DOk)
      end
  | Up s, DoSync now ord => let (s', r) := db_sync now ord s in (alive s' r, ORes r)
  | Up s, DoTick now pick => (Up (set_mem s (mem_tick (c_mem c) (d_mem s) now pick)), ODone)
  | Up s, DoCommit => (Up (set_mem s (mem_commit (d_mem s))), ODone)
  | Up s, DoClose => let (s', r) := db_close s in (Down (on_disk s'), ORes r)
  | Up s, DoCrash => (Down (on_disk s), ODone)
  | Down f, DoOpen gens now ord immut enc =>
      match db_open c gens now ord immut enc f with
      | Opened s => (Up s, OOpened true)
      | _ => (Down f, OOpened false)
      end
  | w, _ => (w, ONone)
  end.

Fixpoint drun (c : dcfg) (w : world) (ops : list dop) : world * list dout :=
  match ops with
  | [] => (w, [])
  | o :: r => let (w', x) := dstep c w o in let (w'', xs) := drun c w' r in (w'', x :: xs)
  end.

(** The sequence numbers handed out by a step: to an identifier, or to a
    message that brings none. *)
Fixpoint handed_batch (c : dcfg) (s : db) (b : batch) (l : list bop) : list N :=
  match l with
  | [] => []
  | o :: r =>
      match o with
      | BPut now e =>
          match u_id e, check_put e, batch_put_entry c s b now e with
          | None, None, (s', _, _, DOk) => [d_seq s']
          | _, _, _ => []
          end
      | _ => []
      end ++ match batch_step c s b o with None => [] | Some (s', b') => handed_batch c s' b' r end
  end.
Definition handed (c : dcfg) (w : world) (o : dop) : list N :=
  match w, o with
  | Up s, DoNewID now => [id_sequence (snd (db_new_id s now))]
  | Up s, DoPut now e =>
      match u_id e, d_closed s, check_put e, set_entry c s now e with
      | None, false, None, SOk _ _ x _ => [e_seq x]
      | _, _, _, _ => []
      end
  | Up s, DoBatch now pick l _ _ _ _ _ => let (s', b) := db_batch s now pick in handed_batch c s' b l
  | _, _ => []
  end.
Fixpoint handed_all (c : dcfg) (w : world) (ops : list dop) : list N :=
  match ops with
  | [] => []
  | o :: r => handed c w o ++ handed_all c (fst (dstep c w o)) r
  end.

(** How many numbers a step can ask for. *)
Definition asks (o : dop) : N := match o with DoBatch _ _ l _ _ _ _ _ => N.of_nat (length l) | _ => 1 end.
Definition asks_all (ops : list dop) : N := fold_right (fun o n => (asks o + n)%N) 0%N ops.

(** Histories in which the process does not die. *)
Definition survives (o : dop) (x : dout) : Prop :=
  o <> DoCrash /\ x <> ORes DPanic /\ x <> OGot QPanic /\ x <> OGot QLoop.

(** Any number of writers asking for numbers at the same time: [nextSeq] is one
    atomic addition, so a schedule is the order in which they get their turn. *)
Fixpoint turns (n : N) (schedule : list nat) : list (nat * N) :=
  match schedule with
  | [] => []
  | i :: r => (i, u64 (n + 1)) :: turns (u64 (n + 1)) r
  end.
