(** Property theorems C15, C16, C17. *)
From Verif Require Import M_Bytes M_Lease S_Lease P_Lease.
From Coq Require Import Permutation.
Open Scope Z_scope.

(** C15: in every history of releases of used ranges, allocations and appends,
    free ranges and ranges in use never share a byte. *)
Theorem C15_disjoint : forall l live, history l live -> disjoint (ranges l ++ live).
Proof. exact (fun l live H => proj2 (proj2 (history_ok l live H))). Qed.
Print Assumptions C15_disjoint.

(** Releasing a used range never fails and makes exactly its bytes free. *)
Theorem C15_free_exact : forall l live1 off size live2,
  history l (live1 ++ (off, size) :: live2) ->
  exists l', freeBlock l off size = Some l' /\
    forall x, is_free (ranges l') x <-> is_free (ranges l) x \/ in_range x (off, size).
Proof. exact history_free. Qed.
Print Assumptions C15_free_exact.

(** An allocation returns a part of one free range and takes exactly it. *)
Theorem C15_allocate_exact : forall l live size, history l live -> (0 < size < 2 ^ 32)%N ->
  let (l', r) := allocate l size in
  match r with
  | APanic => False
  | ANone => l' = l
  | AOff off =>
      0 <= off /\
      (exists o n, In (o, n) (ranges l) /\ o <= off /\ off + Z.of_N size <= o + Z.of_N n) /\
      (forall x, in_range x (off, size) -> ~ is_free (ranges l') x) /\
      (forall x, is_free (ranges l) x <-> is_free (ranges l') x \/ in_range x (off, size))
  end.
Proof. exact history_alloc. Qed.
Print Assumptions C15_allocate_exact.

Example C15_example : history two_free [] /\
  exists l, allocate two_free 3 = (l, AOff 10) /\ ranges l = [(13, 2%N); (15, 5%N)].
Proof. split; [exact two_free_history|]. eexists; split; vm_compute; reflexivity. Qed.

(** C16, full statement: for every reachable free list l, the ranges of
    [defrag l] are disjoint and free exactly the bytes free in l.  The first
    half is false: merged blocks stay in the list behind the merged one. *)
Theorem C16_refuted : exists l, history l [] /\ ~ disjoint (ranges (defrag l)) /\
  exists l1 l2 l3, allocate (defrag l) 5 = (l1, AOff 10) /\
    allocate l1 5 = (l2, AOff 15) /\ allocate l2 5 = (l3, AOff 15).
Proof.
  exact (ex_intro _ two_free (conj two_free_history
    (conj defrag_not_disjoint (proj2 (proj2 defrag_overlaps))))).
Qed.
Print Assumptions C16_refuted.

(** The second half holds while the free bytes of a shard fit 32 bits, and no
    byte is covered more than twice. *)
Theorem C16_bytes_partial : forall l live x, history l live -> l_size l < 2 ^ 32 ->
  (is_free (ranges (defrag l)) x <-> is_free (ranges l) x) /\
  (cover (ranges (defrag l)) x <= 2)%nat.
Proof. exact history_defrag_bytes. Qed.
Print Assumptions C16_bytes_partial.

(** Without touching ranges in a shard nothing changes but the order. *)
Theorem C16_no_touch_partial : forall l,
  (forall s a b, In s (l_blocks l) -> In a (s_fb s) -> In b (s_fb s) ->
     fst a + Z.of_N (snd a) <> fst b) ->
  Permutation (ranges (defrag l)) (ranges l) /\ l_size (defrag l) = l_size l.
Proof. exact defrag_none. Qed.
Print Assumptions C16_no_touch_partial.

Example C16_example : history two_free [] /\ l_size two_free < 2 ^ 32 /\
  ranges (defrag two_free) = [(10, 10%N); (15, 5%N)].
Proof. split; [exact two_free_history|]. split; vm_compute; reflexivity. Qed.

(** C17, full statement: reading the file written from any reachable free list
    gives the same ranges.  False: a range at offset 0 is dropped. *)
Theorem C17_refuted : exists l, history l [] /\ ranges l = [(0, 9%N)] /\
  lease_read (newLease find0 0) (lease_write l) = RdOk (newLease find0 0).
Proof. exact (ex_intro _ zero_free (conj zero_free_history zero_free_lost)). Qed.
Print Assumptions C17_refuted.

(** Missing in the partial theorem: ranges at offset 0, and lists of more than
    2^32/12 ranges. *)
Theorem C17_roundtrip_partial : forall l live find min, history l live ->
  (forall k, (find k < nShards)%nat) ->
  Forall (fun r => 0 < fst r < 2 ^ 63) (ranges l) -> (12 * N.of_nat (length (ranges l)) < 2 ^ 32)%N ->
  exists l', lease_read (newLease find min) (lease_write l) = RdOk l' /\
    Permutation (ranges l') (ranges l) /\ l_size l' = l_size l.
Proof. exact history_file_roundtrip. Qed.
Print Assumptions C17_roundtrip_partial.

Example C17_example : history two_free [] /\ Forall (fun r => 0 < fst r < 2 ^ 63) (ranges two_free) /\
  lease_write two_free = [2;0;0;0; 10;0;0;0;0;0;0;0; 5;0;0;0; 15;0;0;0;0;0;0;0; 5;0;0;0]%N.
Proof.
  split; [exact two_free_history|]. split; [|reflexivity].
  repeat constructor; cbn; vm_compute; reflexivity.
Qed.
