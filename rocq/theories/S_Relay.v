(** What users of the server expect of relays: the stored messages of the last hour, or
    of any other span, again. *)
From Verif Require Import M_Bytes M_Bloom M_MemDB M_Window M_DB M_SubStore M_Relay S_Trie S_MemDB S_DB S_Session S_SubStore S_Since.
Open Scope N_scope.

(** Histories of a server: subscriptions, publications stored, background tasks, and
    relays. *)
Inductive relay_op :=
| VDo (o : sub_op)
| VRelay (now : Z) (g : gchoice) (k : N) (names : list bytes) (last : bytes).
Definition as_rel (o : relay_op) : rel_op :=
  match o with
  | VDo o => RStore (as_store o)
  | VRelay now g k names last => RRelay now g k (text (static names)) last
  end.
(** As operations of a database, of which S_Since says which are considered. *)
Definition as_lop (o : relay_op) : lop :=
  match o with
  | VDo o => LDo (as_sop o)
  | VRelay now g k names [] => LDo SCount
  | VRelay now g k names last => LLast now g k names 0 last
  end.
Definition rel_syncs (o : relay_op) : bool := match o with VDo o => psyncs o | _ => false end.
Definition rel_fits (o : relay_op) : Prop := match o with VDo o => sub_fits o | _ => True end.
(** No relay asks a contract that is another one with the bits of [connStoreId]. *)
Definition subs_of (o : relay_op) : list N := match o with VDo (PSub _ k _ _ _ _) => [k] | _ => [] end.
Definition relays_of (o : relay_op) : list N := match o with VRelay _ _ k _ _ => [k] | _ => [] end.
Definition relays_apart (ops : list relay_op) : Prop :=
  forall a b, In a (flat_map subs_of ops) -> In b (flat_map relays_of ops) -> owner (N.lxor a connStoreId) <> owner b.

(** The messages published and stored, with the time. *)
Definition published (o : relay_op) : list (Z * sent) :=
  match o with VDo (PMsg now k p payload expires) => [(now, mkSent (owner k) p expires payload)] | _ => [] end.

(** A relay sends, under the topic asked for, exactly the messages of its contract that
    match, have not expired and are of the span, the newest first; none if no span is
    given. *)
Fixpoint relays (c : dcfg) (first : option (N * pattern)) (l : list (Z * sent)) (ops : list relay_op) (outs : list rel_out) : Prop :=
  match ops, outs with
  | [], [] => True
  | o :: r, x :: xs =>
      match o with
      | VRelay now g k names [] => x = RSent []
      | VRelay now g k names last => exists items, x = RSent (map (pair (text (static names))) items) /\
          incl items (map (fun x => s_payload (snd x)) (filter (fun x => asked k names (snd x) && recent (back c now last) x)%bool l)) /\
          (spared first k names = false -> items = expect_since now k names (back c now last) l)
      | VDo _ => True
      end /\ relays c first (l ++ published o) r xs
  | _, _ => False
  end.
