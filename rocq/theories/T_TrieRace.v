(* Theorems about topics added to the trie at the same time. *)

From Coq Require Import List Arith Bool.
Import ListNotations.
From Verif Require Import M_TrieRace S_TrieRace P_TrieRace P_TrieRaceEx.

(* C102: in every run of any number of calls of add, a topic whose call has returned
   is found by lookup, or a goroutine has replaced a node on its path by a new one. *)
Theorem C102_partial : forall shard parts es k h, added (trun shard parts tstart es) k h ->
  found (trun shard parts tstart es) h (parts h) \/
  exists path rest, parts h = path ++ rest /\ replaced shard parts es path.
Proof. exact added_found. Qed.
Print Assumptions C102_partial.

(* With one mutex for all topics, it is always found. *)
Theorem C102_serial_partial : forall shard parts es k h, (forall h h', shard h = shard h') ->
  added (trun shard parts tstart es) k h -> found (trun shard parts tstart es) h (parts h).
Proof. exact serial_found. Qed.
Print Assumptions C102_serial_partial.

(* The mutex is one per shard of hashes, so that a node can be replaced: two topics
   with a common first part are added, both calls return, and one of the topics is
   never found again, whatever is added later (itself included). *)
Theorem C102_refuted : exists shard parts es, added (trun shard parts tstart es) 0 1 /\
  added (trun shard parts tstart es) 1 2 /\ found (trun shard parts tstart es) 2 (parts 2) /\
  forall es', ~ found (trun shard parts (trun shard parts tstart es) es') 1 (parts 1).
Proof. exact (ex_intro _ own_shard (ex_intro _ two_parts (ex_intro _ lost_adds lost_add))). Qed.
Print Assumptions C102_refuted.

(* The same calls, the second one waiting for the first. *)
Example C102_case : added (trun (fun _ => 0) two_parts tstart serial_adds) 0 1 /\
  added (trun (fun _ => 0) two_parts tstart serial_adds) 1 2.
Proof. split; vm_compute; reflexivity. Qed.
