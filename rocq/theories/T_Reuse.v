(** C122: free space of the data file is used again. *)
From Verif Require Import M_Consistent.
From Verif Require Import M_Bytes M_Lease S_Lease P_Lease P_Reuse.
From Coq Require Import Lia Sorted.
Open Scope Z_scope.

(** If the ranges of the part of the free list in which the size is looked for are
    in the order of their sizes, the smallest that is large enough is given. *)
Theorem C122_found_partial : forall l size s, get_shard l (l_find l size) = Some s -> (0 < size)%N -> l_min l <= l_size l ->
  StronglySorted (fun a b => (snd a <= snd b)%N) (s_fb s) ->
  (exists r, In r (s_fb s) /\ (size <= snd r)%N) ->
  exists off n, snd (allocate l size) = AOff off /\ In (off, n) (s_fb s) /\ (size <= n)%N /\
    forall r, In r (s_fb s) -> (size <= snd r)%N -> (n <= snd r)%N.
Proof. exact found_first. Qed.
Print Assumptions C122_found_partial.

(** So it is after a defragmentation, if no two ranges of that part touch. *)
Theorem C122_defrag_partial : forall l size s, get_shard l (l_find l size) = Some s -> (0 < size)%N -> l_min l <= l_size l ->
  (forall a b, In a (s_fb s) -> In b (s_fb s) -> fst a + Z.of_N (snd a) <> fst b) ->
  (exists r, In r (s_fb s) /\ (size <= snd r)%N) ->
  exists off n, snd (allocate (defrag l) size) = AOff off /\ In (off, n) (s_fb s) /\ (size <= n)%N /\
    forall r, In r (s_fb s) -> (size <= snd r)%N -> (n <= snd r)%N.
Proof. exact found_defrag. Qed.
Print Assumptions C122_defrag_partial.

(** Otherwise it is not found: a range is kept in the part of its offset and looked
    for in that of the size wanted; and a part is not kept in order. *)
Theorem C122_refuted :
  exists c find, initConsistent 27 27 = Some c /\ (forall key fuel, findBlock c key fuel = Found (N.of_nat (find key))) /\
  (exists l off size, history l [] /\ l_find l = find /\ l_min l = 134217728 /\ l_min l <= l_size l /\ (0 < size < 2 ^ 32)%N /\
     ranges l = [(off, size)] /\ snd (allocate l size) = ANone) /\
  (exists l off size s, history l [] /\ l_find l = find /\ l_min l = 134217728 /\ l_min l <= l_size l /\ (0 < size < 2 ^ 32)%N /\
     get_shard l (find size) = Some s /\ In (off, size) (s_fb s) /\ snd (allocate l size) = ANone).
Proof. exact not_found. Qed.
Print Assumptions C122_refuted.

(** Ranges of 30, 10 and 20 bytes, freed in this order: without defragmentation 25
    bytes are not found, after it they are, and 15 bytes come from the 20. *)
Example C122_example : get_shard three (l_find three 15) = Some (mkShard [(100, 30%N); (200, 10%N); (300, 20%N)] [300; 200; 100]) /\
  (forall a b, In a [(100, 30%N); (200, 10%N); (300, 20%N)] -> In b [(100, 30%N); (200, 10%N); (300, 20%N)] -> fst a + Z.of_N (snd a) <> fst b) /\
  snd (allocate three 25) = ANone /\ snd (allocate (defrag three) 25) = AOff 100 /\ snd (allocate (defrag three) 15) = AOff 300.
Proof.
  split; [reflexivity|]. split; [|repeat split].
  intros a b Ha Hb. repeat (destruct Ha as [<-|Ha]; [repeat (destruct Hb as [<-|Hb]; [vm_compute; discriminate|]); destruct Hb|]). destruct Ha.
Qed.
