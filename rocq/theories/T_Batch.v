(** Batched delivery: C47. *)
From Coq Require Import ZArith List Bool Permutation.
From Verif Require Import M_Batch S_Batch P_Batch.
Import ListNotations.
Open Scope Z_scope.

(** C47: for each time, the messages delivered, on their way and waiting are those
    added, in order, if the publish loop gets the lock at once, the pool is never
    full and the connection never times out. *)
Theorem C47_order_partial : forall o now ps s, smooth o (binit o now) ps -> brun o (binit o now) ps = Some s -> bs_panic s = false ->
  forall t, at_time t (delivered s ++ on_way s) ++ held s t = at_time t (added o ps).
Proof. exact delivery. Qed.
Print Assumptions C47_order_partial.
(** When nothing is left to do each message has been delivered once. *)
Theorem C47_all_partial : forall o now ps s, smooth o (binit o now) ps -> brun o (binit o now) ps = Some s -> bs_panic s = false ->
  bs_send s = [] -> bs_queue s = [] -> (forall t, held s t = []) -> Permutation (delivered s) (added o ps).
Proof. exact all_delivered. Qed.
Print Assumptions C47_all_partial.
Example C47_example : exists s, smooth o9 (binit o9 T) run_ok /\ brun o9 (binit o9 T) run_ok = Some s /\ bs_panic s = false /\
  bs_send s = [] /\ bs_queue s = [] /\ bs_group s = [] /\ map (map bm_id) (bs_out s) = [[1; 2]; [3]]%nat.
Proof.
  eexists. split; [vm_compute; repeat split; repeat constructor|]. split; [vm_compute; reflexivity|].
  repeat split; vm_compute; reflexivity.
Qed.

(** In all runs: no batch has more messages than the threshold and one. *)
Theorem C47_batch_size : forall o now ps s, brun o (binit o now) ps = Some s -> bs_panic s = false ->
  forall c, In c (bs_out s) -> Z.of_nat (length c) <= Z.max 0 (bo_count o) + 1.
Proof. exact batch_bound. Qed.
Print Assumptions C47_batch_size.

(** False in general: a message delivered twice, *)
Theorem C47_twice_refuted : exists o now ps s, brun o (binit o now) ps = Some s /\ bs_panic s = false /\
  NoDup (map bm_id (added o ps)) /\ map bm_id (delivered s) = [1; 2; 3; 3]%nat.
Proof.
  exists o0, T, run_twice. eexists. split; [vm_compute; reflexivity|]. split; [reflexivity|].
  split; [|vm_compute; reflexivity]. vm_compute. repeat constructor; cbn; intuition discriminate.
Qed.
Print Assumptions C47_twice_refuted.
(** a message lost because 27 batches wait, *)
Theorem C47_full_refuted : exists o now ps s, brun o (binit o now) ps = Some s /\ bs_panic s = false /\
  bs_send s = [] /\ bs_queue s = [] /\ (forall t, held s t = []) /\ length (delivered s) = 27%nat /\ length (added o ps) = 28%nat.
Proof.
  exists o0, T, run_full. eexists. split; [vm_compute; reflexivity|]. do 3 (split; [reflexivity|]).
  split; [|split; vm_compute; reflexivity]. intros t. unfold held. cbn [bs_group g_find]. destruct (_ =? t); reflexivity.
Qed.
Print Assumptions C47_full_refuted.
(** a message lost because the connection is closed, *)
Theorem C47_stop_refuted : exists o now ps s, brun o (binit o now) ps = Some s /\ length (added o ps) = 1%nat /\
  forall more s', brun o s more = Some s' -> delivered s' = [].
Proof.
  exists o9, T, run_stop. eexists. split; [vm_compute; reflexivity|]. split; [reflexivity|].
  intros more s' H. apply closed_run in H; [exact H|reflexivity..].
Qed.
Print Assumptions C47_stop_refuted.
(** a panic because a message comes after that. *)
Theorem C47_panic_refuted : exists o now ps s, brun o (binit o now) ps = Some s /\ bs_panic s = true.
Proof. exists o0, T, run_panic. eexists. split; vm_compute; reflexivity. Qed.
Print Assumptions C47_panic_refuted.
