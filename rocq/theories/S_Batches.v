(** Sessions with batches: what a program that also commits batches should see. *)
From Verif Require Import M_Bytes M_Hash M_Bloom M_Topic M_MemDB M_Trie M_Query M_DB S_Trie S_MemDB S_DB S_Session.
Open Scope Z_scope.

(** What the function handed to Batch does: put messages, call Write. *)
Inductive bitem :=
| IPut (now : Z) (contract : N) (p : pattern) (payload : bytes) (expires : N) (encrypt : bool)
| IWrite (now : Z).
Definition as_bop (i : bitem) : bop :=
  match i with
  | IPut now k p payload expires encrypt => BPut now (mkUE None (text p) payload expires k encrypt None 0)
  | IWrite now => BWrite now None
  end.
Definition item_sends (i : bitem) : list sent :=
  match i with IPut _ k p payload expires _ => [mkSent (owner k) p expires payload] | IWrite _ => [] end.

(** A batch begins at [now], its function does [items] and answers nil, and it is
    committed between [now1] and [now2]. *)
Inductive cop :=
| COne (o : sop)
| CBatch (now : Z) (items : list bitem) (now1 now2 : Z).
Definition as_dop_b (o : cop) : dop :=
  match o with
  | COne o => as_dop o
  | CBatch now items now1 now2 => DoBatch now None (map as_bop items) false now1 now2 None None
  end.
Definition sends_b (o : cop) : list sent :=
  match o with COne o => sends o | CBatch _ items _ _ => flat_map item_sends items end.

(** The clock does not go back, and what is put is as in S_Session. *)
Fixpoint items_ok (c : dcfg) (t : Z) (l : list sent) (items : list bitem) (stop : Z) : Prop :=
  match items with
  | [] => t <= stop
  | IPut now k p payload expires encrypt :: r =>
      t <= now /\ put_ok c l k p payload expires /\ items_ok c now (l ++ [mkSent (owner k) p expires payload]) r stop
  | IWrite now :: r => t <= now /\ items_ok c now l r stop
  end.

(** [slot] is when the current slot of memory began, [busy] when the last batch
    was committed.  A single put waits for a slot that begins after that (C60). *)
Definition slot_after (c : dcfg) (slot : Z) (o : sop) : Z :=
  match o with STick now => trunc now (c_dur (c_mem c)) | _ => slot end.
Fixpoint batches_ok (c : dcfg) (t slot busy : Z) (l : list sent) (ops : list cop) : Prop :=
  match ops with
  | [] => True
  | COne o :: r =>
      session_ok c t l [o] /\
      match o with SPut _ _ _ _ _ _ => busy <= slot | _ => True end /\
      batches_ok c (clock t o) (slot_after c slot o) busy (l ++ sends o) r
  | CBatch now items now1 now2 :: r =>
      t <= now /\ items_ok c now l items now1 /\ now1 <= now2 < 2 ^ 32 * 1000000000 /\
      batches_ok c now2 slot now2 (l ++ flat_map item_sends items) r
  end.

(** What the program should see. *)
Fixpoint answered_b (first : option (N * pattern)) (l : list sent) (ops : list cop) (outs : list dout) : Prop :=
  match ops, outs with
  | [], [] => True
  | o :: r, x :: xs =>
      match o with
      | COne o => answered first l [o] [x]
      | CBatch _ _ _ _ => x = S_DB.ORes DOk
      end /\ answered_b first (l ++ sends_b o) r xs
  | _, _ => False
  end.
Definition syncs_b (o : cop) : bool := match o with COne o => syncs o | CBatch _ _ _ _ => false end.

(** How much is done. *)
Definition steps_b (o : cop) : nat := match o with COne _ => 1 | CBatch _ items _ _ => length items end.
Definition all_steps (ops : list cop) : nat := list_sum (map steps_b ops).
