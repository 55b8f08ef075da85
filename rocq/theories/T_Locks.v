(* C99, C100: goroutines that contend for the locks get through. *)

From Coq Require Import List Arith Bool Lia.
Import ListNotations.
From Verif Require Import M_Locks S_Locks P_Locks P_LocksEx.

(* C99.  Any number of goroutines call the in-memory store, with its write loop
   and its commit loop among them, none of them Keys or Size: however they are
   scheduled, no run is longer than two steps per lock operation, and none ends
   before all the calls have returned.  (Keys and Size: see below.) *)
Theorem C99_partial : forall cs,
  Forall (fun c => counts c = false) cs -> all_return (map mem_locks cs).
Proof. exact mem_all_return. Qed.
Print Assumptions C99_partial.

(* Size and a Put that adds the first key of a time to a filter can wait for each
   other for ever: Size holds the lock of the store and waits for the block, Put
   holds the block and waits for the lock of the store. *)
Theorem C99_size_refuted : exists is ts,
  run (goroutines [mem_locks (MPut 0 (Some (0, 0, true))); mem_locks (MSize [0])]) is = Some ts /\
  stuck ts /\ Forall (fun t => th_prog t <> []) ts.
Proof. exact size_waits. Qed.
Print Assumptions C99_size_refuted.

(* The same for Keys. *)
Theorem C99_keys_refuted : exists is ts,
  run (goroutines [mem_locks (MPut 0 (Some (0, 0, true))); mem_locks (MKeys [0])]) is = Some ts /\
  stuck ts /\ Forall (fun t => th_prog t <> []) ts.
Proof. exact keys_waits. Qed.
Print Assumptions C99_keys_refuted.

(* A case of C99_partial: a Put has the block locked, and the commit of a log has
   to wait for it; the goroutines get through. *)
Example C99_case :
  let cs := [MPut 0 (Some (0, 0, true)); MCommit 0 0 (Some (0, true)) false] in
  Forall (fun c => counts c = false) cs /\
  (exists is ts, run (goroutines (map mem_locks cs)) is = Some ts /\ step ts 1 = None /\
                 Forall (fun t => th_prog t <> []) ts) /\
  exists is ts, run (goroutines (map mem_locks cs)) is = Some ts /\ Forall returned ts.
Proof.
  split; [repeat constructor|]. split.
  - exists (repeat 0 8 ++ repeat 1 11).
    eexists. split; [vm_compute; reflexivity|]. split; [reflexivity|].
    repeat constructor; discriminate.
  - exists (repeat 0 8 ++ repeat 1 11 ++ repeat 0 14 ++ repeat 1 21).
    eexists. split; [vm_compute; reflexivity|]. repeat constructor.
Qed.

(* C100.  Any number of goroutines call Put, Get, Delete, Sync and the batches of
   the database, with the expirer and the loops of the in-memory store among
   them, and none of them Close (or Keys and Size of the in-memory store, which
   the database does not call): however they are scheduled, all the calls
   return. *)
Theorem C100_partial : forall cs,
  Forall (fun c => db_counts c = false /\ closes c = false) cs -> all_return (map db_locks cs).
Proof. exact db_all_return. Qed.
Print Assumptions C100_partial.

(* With Close among the calls: when no goroutine can go on, a call that has not
   returned is a Sync, an expirer or a second Close that waits for the lock of
   Sync and holds nothing. *)
Theorem C100_close_partial : forall cs, Forall (fun c => db_counts c = false) cs ->
  forall is ts, run (goroutines (map db_locks cs)) is = Some ts -> stuck ts ->
  Forall2 (fun c t => th_prog t = [] \/ syncs c = true /\ waits_for Sync t) cs ts.
Proof. exact db_close_waits. Qed.
Print Assumptions C100_close_partial.

(* A Sync called after Close never returns: Close has taken the lock of Sync and
   does not give it back, and Sync does not ask whether the database is closed. *)
Theorem C100_close_refuted : forall work, exists is ts t,
  run (goroutines [db_locks DClose; db_locks (DSync work)]) is = Some ts /\
  stuck ts /\ nth_error ts 0 = Some (Th [] [(Sync, W)] false) /\
  nth_error ts 1 = Some t /\ waits_for Sync t.
Proof. exact sync_waits. Qed.
Print Assumptions C100_close_refuted.

(* A case: a Get, a Put of a new topic and a Sync of one block; the Get and the
   Sync are waiting for the Put when it has locked the trie. *)
Example C100_case :
  let cs := [DPut 0 (Some (0, 0, true)) 0 (Some (0, Some [true])); DGet 0 [(0, [1], Some [])] [];
             DSync (Some (0, 1, [SB (Some 0) 1 [0] 1 [0] 1]))] in
  Forall (fun c => db_counts c = false /\ closes c = false) cs /\
  (exists is ts, run (goroutines (map db_locks cs)) is = Some ts /\ step ts 1 = None /\
                 step ts 2 = None /\ Forall (fun t => th_prog t <> []) ts).
Proof.
  split; [repeat constructor|].
  exists (repeat 2 30 ++ [1] ++ repeat 0 37).
  vm_compute. eexists. split; [reflexivity|]. split; [reflexivity|]. split; [reflexivity|].
  repeat constructor; discriminate.
Qed.
