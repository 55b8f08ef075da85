(** Model of trie.go, for one caller at a time. *)
From Verif Require Import M_Bytes M_Topic.
Open Scope N_scope.

Definition part_eqb (a b : part) : bool := ((p_hash a =? p_hash b) && (p_wild a =? p_wild b))%bool.

(** trie.go:30-33 [_Topic]: hash and offset of the newest window block. *)
Notation ttopic := (N * Z)%type.

(** trie.go:41-51 [addUnique] *)
Fixpoint addUnique (l : list ttopic) (t : ttopic) : list ttopic :=
  match l with
  | [] => [t]
  | v :: r => if fst v =? fst t then t :: r else v :: addUnique r t
  end.

(** trie.go:58-64 [_Node]; [children] is a map, here a list of pairs, and
    [part] is the key under which the node is stored.  [orphan] is never
    called. *)
Inductive node := Node (n_depth : N) (n_topics : list ttopic) (n_children : list (part * node)).
Definition node_empty : node := Node 0 [] [].

Fixpoint child (ch : list (part * node)) (p : part) : option node :=
  match ch with
  | [] => None
  | (q, c) :: r => if part_eqb q p then Some c else child r p
  end.
Fixpoint set_child (ch : list (part * node)) (p : part) (c : node) : list (part * node) :=
  match ch with
  | [] => [(p, c)]
  | (q, d) :: r => if part_eqb q p then (q, c) :: r else (q, d) :: set_child r p c
  end.

(** trie.go:78-81 [_TopicTrie]; [summary] points to nodes, here by the path of
    the node. *)
Record trie := mkTrie { t_summary : list (N * list part); t_root : node }.
Definition newTrie : trie := mkTrie [] node_empty.

Fixpoint sum_find (s : list (N * list part)) (h : N) : option (list part) :=
  match s with
  | [] => None
  | (k, p) :: r => if k =? h then Some p else sum_find r h
  end.

(** trie.go:125-151: walk down, creating nodes, and store the topic. *)
Fixpoint node_add (n : node) (ps : list part) (t : ttopic) (depth : N) : node :=
  match n with
  | Node d ts ch =>
      match ps with
      | [] => Node depth (addUnique ts t) ch
      | p :: r => let c := match child ch p with Some c => c | None => node_empty end in
                  Node d ts (set_child ch p (node_add c r t depth))
      end
  end.

(** trie.go:117-153 [add] *)
Definition trie_add (t : trie) (top : ttopic) (ps : list part) (depth : N) : trie * bool :=
  match sum_find (t_summary t) (fst top) with
  | Some _ => (t, false)
  | None => (mkTrie ((fst top, ps) :: t_summary t) (node_add (t_root t) ps top depth), true)
  end.

(** trie.go:163-188 [ilookup].  [self] is the part of the node itself.  The
    order in which a Go map is walked is not fixed; here it is list order. *)
Fixpoint ilookup (static : bool) (depth : N) (n : node) (self : part) (query : list part)
         (acc : list ttopic) {struct n} : list ttopic :=
  match n with
  | Node d ts ch =>
      let acc := if ((d =? depth) || (static && (p_hash self =? Wildcard)))%bool
                 then fold_left addUnique ts acc else acc in
      match query with
      | [] => acc
      | q :: rest =>
          fold_left (fun acc pc =>
            match pc with
            | (p, c) =>
                if ((p_hash p =? p_hash q) && (p_wild q =? p_wild p))%bool
                then ilookup static depth c p rest acc
                else if ((p_hash p =? p_hash q) && (u8 (p_wild p + 1) <=? u8 (N.of_nat (length query))))%bool
                then ilookup static depth c p (skipn (N.to_nat (u8 (p_wild p + 1))) query) acc
                else if p_hash p =? Wildcard
                then ilookup static depth c p query acc
                else acc
            end) ch acc
      end
  end.

(** trie.go:156-161 [lookup]; the root has the zero part. *)
Definition trie_lookup (t : trie) (query : list part) (depth : N) (ty : ttype) : list ttopic :=
  ilookup (match ty with TStatic => true | _ => false end) depth (t_root t) (mkPart 0 0) query [].

Fixpoint node_at (n : node) (ps : list part) : option node :=
  match ps with
  | [] => Some n
  | p :: r => match n with Node _ _ ch => match child ch p with
                                          | Some c => node_at c r
                                          | None => None
                                          end end
  end.
Definition top_find (ts : list ttopic) (h : N) : option Z :=
  match find (fun t => fst t =? h) ts with Some t => Some (snd t) | None => None end.

(** trie.go:190-201 [getOffset]; [None] is ok = false. *)
Definition getOffset (t : trie) (h : N) : option Z :=
  match sum_find (t_summary t) h with
  | None => None
  | Some p => match node_at (t_root t) p with
              | None => None
              | Some (Node _ ts _) => top_find ts h
              end
  end.

Fixpoint node_set (n : node) (ps : list part) (t : ttopic) : node :=
  match n with
  | Node d ts ch =>
      match ps with
      | [] => Node d (addUnique ts t) ch
      | p :: r => match child ch p with
                  | Some c => Node d ts (set_child ch p (node_set c r t))
                  | None => n
                  end
      end
  end.
(** trie.go:203-211 [setOffset] *)
Definition setOffset (t : trie) (top : ttopic) : trie * bool :=
  match sum_find (t_summary t) (fst top) with
  | None => (t, false)
  | Some p => (mkTrie (t_summary t) (node_set (t_root t) p top), true)
  end.
