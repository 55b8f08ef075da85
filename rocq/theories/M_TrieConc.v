(** Model of trie.go [add] for several callers at once.  Nodes live in a heap
    as they are shared by pointer. *)
From Verif Require Import M_Bytes M_Hash M_Topic M_Trie.
Open Scope N_scope.

(** trie.go:58-64; a node is known by its index in the heap. *)
Record hnode := mkHN { hn_depth : N; hn_topics : list ttopic; hn_children : list (part * nat) }.
Notation heap := (list hnode).

(** Where a caller of [add] stands; trie.go:117-153.  The locks make each of
    these steps atomic but not their sequence; the mutex of lines 119-121 only
    keeps callers with the same hash apart. *)
Inductive caller :=
| CStart (top : ttopic) (ps : list part) (depth : N)             (* before line 122 *)
| CLook (cur : nat) (ps : list part) (top : ttopic) (depth : N)  (* before line 131 *)
| CMake (cur : nat) (p : part) (ps : list part) (top : ttopic) (depth : N) (* child was missing: before line 140 *)
| CDepth (cur : nat) (depth : N) (h : N)                         (* before line 151 *)
| CDone (h : N) (added : bool).

Record cstate := mkCS { cs_heap : heap; cs_summary : list (N * nat); cs_callers : list caller }.

Fixpoint hchild (ch : list (part * nat)) (p : part) : option nat :=
  match ch with
  | [] => None
  | (q, c) :: r => if part_eqb q p then Some c else hchild r p
  end.
Fixpoint hset (ch : list (part * nat)) (p : part) (c : nat) : list (part * nat) :=
  match ch with
  | [] => [(p, c)]
  | (q, d) :: r => if part_eqb q p then (q, c) :: r else (q, d) :: hset r p c
  end.
Fixpoint hsum (s : list (N * nat)) (h : N) : option nat :=
  match s with
  | [] => None
  | (k, i) :: r => if k =? h then Some i else hsum r h
  end.
Definition with_node (h : heap) (i : nat) (f : hnode -> hnode) : heap :=
  match nth_error h i with
  | Some n => update h i (f n)
  | None => h
  end.

(** One step of a caller. *)
Definition caller_step (h : heap) (s : list (N * nat)) (c : caller) : option (heap * list (N * nat) * caller) :=
  match c with
  | CStart top ps depth =>
      match hsum s (fst top) with
      | Some _ => Some (h, s, CDone (fst top) false)
      | None => Some (h, s, CLook 0 ps top depth)
      end
  | CLook cur [] top depth =>
      Some (with_node h cur (fun n => mkHN (hn_depth n) (addUnique (hn_topics n) top) (hn_children n)),
            (fst top, cur) :: s, CDepth cur depth (fst top))
  | CLook cur (p :: ps) top depth =>
      match nth_error h cur with
      | None => None
      | Some n => match hchild (hn_children n) p with
                  | Some c => Some (h, s, CLook c ps top depth)
                  | None => Some (h, s, CMake cur p ps top depth)
                  end
      end
  | CMake cur p ps top depth =>
      let i := length h in
      Some (with_node (h ++ [mkHN 0 [] []]) cur
              (fun n => mkHN (hn_depth n) (hn_topics n) (hset (hn_children n) p i)), s, CLook i ps top depth)
  | CDepth cur depth k =>
      Some (with_node h cur (fun n => mkHN depth (hn_topics n) (hn_children n)), s, CDone k true)
  | CDone _ _ => None
  end.

(** Any caller may move next. *)
Inductive cstep : cstate -> cstate -> Prop :=
| cstep_one h s cs i c h' s' c' : nth_error cs i = Some c -> caller_step h s c = Some (h', s', c') ->
    cstep (mkCS h s cs) (mkCS h' s' (update cs i c')).
Inductive csteps : cstate -> cstate -> Prop :=
| csteps_refl x : csteps x x
| csteps_step x y z : csteps x y -> cstep y z -> csteps x z.

(** The tree seen by readers: the nodes reachable from the root; [fuel] bounds
    the depth. *)
Fixpoint to_node (fuel : nat) (h : heap) (i : nat) : node :=
  match fuel with
  | O => node_empty
  | S f => match nth_error h i with
           | None => node_empty
           | Some n => Node (hn_depth n) (hn_topics n) (map (fun pc => (fst pc, to_node f h (snd pc))) (hn_children n))
           end
  end.

(** trie.go:190-201 [getOffset] *)
Definition hgetOffset (x : cstate) (k : N) : option Z :=
  match hsum (cs_summary x) k with
  | None => None
  | Some i => match nth_error (cs_heap x) i with
              | None => None
              | Some n => top_find (hn_topics n) k
              end
  end.

(** trie.go:84-107: the empty tree, and the callers at their start. *)
Definition cinit (jobs : list (ttopic * list part * N)) : cstate :=
  mkCS [mkHN 0 [] []] [] (map (fun j => match j with (t, ps, d) => CStart t ps d end) jobs).
