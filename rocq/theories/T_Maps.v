(* C105: maps are not used by two goroutines at the same time. *)

From Coq Require Import List Arith Bool.
Import ListNotations.
From Verif Require Import M_Locks S_Locks M_Maps S_Maps P_Maps P_MapsGuard P_MapsEx.

(* The lists of operations of M_Maps are those of M_Locks with the uses of maps. *)
Theorem C105_locks : forall c, erase (db_maps c) = db_locks c.
Proof. exact locks_same. Qed.
Print Assumptions C105_locks.

(* C105.  Any number of goroutines make any calls, with the loops of the in-memory
   store among them: however they are scheduled, no goroutine writes a map while
   another one uses it, for every map but those of the query manager of memdb, the
   caches of free blocks and the summary of the trie (for these see below). *)
Theorem C105_partial : forall cs m,
  of_query m = false -> of_lease m = false -> m <> SM -> never_race m cs.
Proof. exact guarded_maps. Qed.
Print Assumptions C105_partial.

(* The maps of the query manager, when only one of the calls is a Get. *)
Theorem C105_query_partial : forall cs m,
  of_query m = true -> length (filter gets cs) <= 1 -> never_race m cs.
Proof. exact query_maps. Qed.
Print Assumptions C105_query_partial.

(* The caches of free blocks, when the database is not closed meanwhile. *)
Theorem C105_lease_partial : forall cs m,
  of_lease m = true -> forallb (fun c => negb (closes c)) cs = true -> never_race m cs.
Proof. exact lease_maps. Qed.
Print Assumptions C105_lease_partial.

(* The summary of the trie, when the topics that may be new all have the same shard of
   the locks of the trie. *)
Theorem C105_summary_partial : forall cs k,
  (forall c, In c cs -> topic_shard k c) -> never_race SM cs.
Proof. exact summary_map. Qed.
Print Assumptions C105_summary_partial.

(* Two Gets write the map of blocks of the query manager at the same time. *)
Theorem C105_get_refuted : may_race QB [get_call; get_call].
Proof. exact gets_race. Qed.
Print Assumptions C105_get_refuted.

(* So do a Get that has to look for its message and one that does not. *)
Theorem C105_again_refuted : may_race QB [get_call; again_call].
Proof. exact get_again_race. Qed.
Print Assumptions C105_again_refuted.

(* Two Puts of new topics: one writes the summary of the trie while the other one
   reads it. *)
Theorem C105_put_refuted : may_race SM [put_call 0; put_call 1].
Proof. exact puts_race. Qed.
Print Assumptions C105_put_refuted.

(* Close and a Delete that has begun before. *)
Theorem C105_close_refuted : may_race (FC 7) [DClose; delete_call].
Proof. exact close_race. Qed.
Print Assumptions C105_close_refuted.

(* A case of C105_partial: a Put is about to write the records of a block that a Sync
   wants to read, and the Sync waits. *)
Example C105_case :
  let cs := [put_call 0; DSync (Some (0, 0, [SB (Some 5) 0 [] 0 [] 0]))] in
  never_race (BR 5) cs /\
  exists is ts t,
    grun (map (fun c => gstart (db_maps c)) cs) is = Some ts /\
    (exists p, nth_error ts 0 = Some t /\ gt_prog t = Wr (BR 5) :: p) /\
    gstep ts 1 = None /\
    (exists t1 p, nth_error ts 1 = Some t1 /\ gt_prog t1 = L (Acq (Block 5) R) :: Rd (BR 5) :: p).
Proof. split; [apply C105_partial; [reflexivity..|discriminate] | exact put_sync_case]. Qed.

(* Cases of the other three: a Get with a Put and a Sync; a Delete with a Sync; two
   Puts of new topics of one shard. *)
Example C105_query_case :
  never_race QB [get_call; put_call 0; DSync (Some (0, 0, [SB (Some 5) 1 [] 1 [] 0]))].
Proof. apply C105_query_partial; [reflexivity | repeat constructor]. Qed.

Example C105_lease_case :
  never_race (FC 7) [delete_call; delete_call; DSync (Some (0, 0, [SB (Some 5) 1 [7] 1 [] 0]))].
Proof. apply C105_lease_partial; reflexivity. Qed.

Example C105_summary_case : never_race SM [put_call 3; put_call 3; get_call].
Proof.
  apply (C105_summary_partial _ 3). intros c [<-|[<-|[<-|[]]]]; cbn; [reflexivity|reflexivity|exact I].
Qed.
