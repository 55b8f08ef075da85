(* Runs in which two goroutines use a map at the same time. *)

From Coq Require Import List Arith Bool Lia.
Import ListNotations.
From Verif Require Import M_Locks S_Locks M_Maps S_Maps.

(* A Get of one topic with one message, found in block 5. *)
Definition get_call : dbcall := DGet 0 [(3, [], None)] [[(Some (4, [(Some 5, true)]), Some (5, true), [])]].

(* A Get that looks for its message in the block where the query manager has it. *)
Definition again_call : dbcall := DGet 0 [(3, [], None)] [[(None, Some (5, true), [])]].

(* Puts of two new topics, of different shards. *)
Definition put_call (shard : nat) : dbcall := DPut 0 (Some (5, 4, false)) 2 (Some (shard, Some [true])).

(* A Delete of a message that is in the files. *)
Definition delete_call : dbcall := DDelete 4 0 [] None (Some 7) false.

Ltac race i j := eexists; split;
  [vm_compute; reflexivity
  | exists i, j; eexists; eexists; split; [discriminate|]; split; [reflexivity|]; split; [reflexivity|];
    split; [eexists; reflexivity | eexists; solve [left; reflexivity | right; reflexivity]]].

Lemma gets_race : may_race QB [get_call; get_call].
Proof. exists (repeat 0 29 ++ repeat 1 29). race 0 1. Qed.

Lemma get_again_race : may_race QB [get_call; again_call].
Proof. exists (repeat 0 29 ++ repeat 1 13). race 0 1. Qed.

Lemma puts_race : may_race SM [put_call 0; put_call 1].
Proof. exists (repeat 1 35 ++ repeat 0 45). race 0 1. Qed.

Lemma close_race : may_race (FC 7) [DClose; delete_call].
Proof. exists (repeat 0 9 ++ repeat 1 18). race 0 1. Qed.

(* A Put is about to write the records of a block that a Sync would read; the Sync
   waits. *)
Lemma put_sync_case :
  exists is ts t,
    grun (map (fun c => gstart (db_maps c))
            [put_call 0; DSync (Some (0, 0, [SB (Some 5) 0 [] 0 [] 0]))]) is = Some ts /\
    (exists p, nth_error ts 0 = Some t /\ gt_prog t = Wr (BR 5) :: p) /\
    gstep ts 1 = None /\
    (exists t1 p, nth_error ts 1 = Some t1 /\ gt_prog t1 = L (Acq (Block 5) R) :: Rd (BR 5) :: p).
Proof.
  exists (repeat 0 12 ++ repeat 1 27). eexists; eexists; split; [vm_compute; reflexivity|].
  split; [eexists; split; reflexivity|]. split; [reflexivity|].
  eexists; eexists; split; reflexivity.
Qed.
