(** Specification of topics and their lookup. *)
From Verif Require Import M_Bytes M_Hash M_Topic M_Trie.
Open Scope N_scope.

(** A topic as users write it: levels, and whether "..." ends it. *)
Inductive level := Lit (name : bytes) | Star.
Record pattern := mkPattern { pt_levels : list level; pt_multi : bool }.

(** Level names: not empty, without the characters of the syntax. *)
Definition name_ok (n : bytes) : Prop :=
  n <> [] /\ Forall (fun c => c <> cDot /\ c <> cQuest /\ c <> cStar) n.
Definition level_ok (l : level) : Prop := match l with Lit n => name_ok n | Star => True end.

(** The text of a pattern: "a.*.b" or "a.b...". *)
Definition level_text (l : level) : bytes := match l with Lit n => n | Star => [cStar] end.
Fixpoint join (l : list bytes) : bytes :=
  match l with
  | [] => []
  | [x] => x
  | x :: r => x ++ cDot :: join r
  end.
Definition text (p : pattern) : bytes :=
  join (map level_text (pt_levels p)) ++ (if pt_multi p then [cDot; cDot; cDot] else []).
(** With options: "a.b?ttl=1h". *)
Definition spells (txt : bytes) (p : pattern) : Prop :=
  txt = text p \/ exists o, txt = text p ++ cQuest :: o.
Definition static (names : list bytes) : pattern := mkPattern (map Lit names) false.

(** What a pattern matches, given which names are taken for the same: "*"
    stands for one level, "..." for one level or more. *)
Fixpoint covers (same : bytes -> bytes -> Prop) (ls : list level) (multi : bool) (q : list bytes) : Prop :=
  match ls, q with
  | [], [] => multi = false
  | [], _ :: _ => multi = true
  | Star :: ls', _ :: q' => covers same ls' multi q'
  | Lit n :: ls', x :: q' => same n x /\ covers same ls' multi q'
  | _ :: _, [] => False
  end.

(** Names are compared by their hash with the contract as salt. *)
Definition same_hash (contract : N) (a b : bytes) : Prop := hash_salt a contract = hash_salt b contract.

(** Hash and parts under which the database files a pattern (db_internal.go:265-275). *)
Definition filed (contract : N) (text : bytes) : topic := add_contract contract (parse_topic contract text).

(** What the topic tree is given: the topic after it went through its stored
    form (db_internal.go:272-275, db.go:375-379, db_internal.go:175-187). *)
Definition stored (contract : N) (text : bytes) : option (list part * N) :=
  topic_unmarshal (topic_marshal (t_parts (filed contract text)) (t_depth (filed contract text))).

(** Tries that can arise; the ghost map gives for each filed hash its contract,
    text and newest offset. *)
Definition tghost := N -> option (N * bytes * Z).
Definition tput (m : tghost) (h : N) (v : N * bytes * Z) : tghost := fun k => if k =? h then Some v else m k.
Inductive tries : trie -> tghost -> Prop :=
| tr_new : tries newTrie (fun _ => None)
| tr_add t m contract txt off ps depth t' : tries t m ->
    stored contract txt = Some (ps, depth) ->
    trie_add t (get_hash contract (filed contract txt), off) ps depth = (t', true) ->
    tries t' (tput m (get_hash contract (filed contract txt)) (contract, txt, off))
| tr_old t m contract txt off ps depth t' : tries t m ->
    stored contract txt = Some (ps, depth) ->
    trie_add t (get_hash contract (filed contract txt), off) ps depth = (t', false) ->
    tries t' m
| tr_set t m h off t' c txt o : tries t m -> m h = Some (c, txt, o) ->
    setOffset t (h, off) = (t', true) -> tries t' (tput m h (c, txt, off)).

(** A query as query.go:90-106 hands it to the trie. *)
Definition find_topics (t : trie) (contract : N) (txt : bytes) : list ttopic :=
  let q := filed contract txt in trie_lookup t (t_parts q) (t_depth q) (t_type q).

(** Patterns for which lookup works as documented: the first level is not "*",
    fewer than 256 levels, no name hashes to the wildcard value. *)
Definition plain (contract : N) (p : pattern) : Prop :=
  contract < 2 ^ 32 /\ contract <> Wildcard /\
  Forall level_ok (pt_levels p) /\
  (match pt_levels p with Star :: _ => False | [] => pt_multi p = true | _ => True end) /\
  (length (pt_levels p) < 254)%nat /\
  (forall n, In (Lit n) (pt_levels p) -> hash_salt n contract <> Wildcard).

(** All stored texts are plain patterns. *)
Definition all_plain (m : tghost) : Prop :=
  forall h c txt o, m h = Some (c, txt, o) -> exists p, spells txt p /\ plain c p.
