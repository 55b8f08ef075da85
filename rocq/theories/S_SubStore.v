(** What users of the server expect of subscriptions kept in the database.  In terms
    of what was subscribed, published and unsubscribed, and whom a publication is
    sent to. *)
From Verif Require Import M_Bytes M_Bloom M_MemDB M_Window M_DB M_SubStore S_Trie S_MemDB S_DB S_Session S_Only.
From Coq Require Import Permutation.
Open Scope N_scope.

(** Those a publication was sent to. *)
Definition served (f : found) : list (N * N * N) := match f with FSent l | FDied l => l | FFailed => [] end.
Definition conn_of (x : N * N * N) : N := snd (fst x).

(** A subscription: contract, identifier, delivery mode, connection, delay. *)
Record subscriber := mkSb { b_contract : N; b_id : bytes; b_mode : N; b_conn : N; b_delay : N }.
Definition b_target (x : subscriber) : N * N * N := (b_mode x, b_conn x, b_delay x).

(** ** Histories of any topics, without Sync; time does not go back. *)
Fixpoint calm (t : Z) (ops : list store_op) : Prop :=
  match ops with
  | [] => True
  | TSub now k topic mode conn delay :: r =>
      real_time t now /\ k < 2 ^ 32 /\ mode < 2 ^ 8 /\ conn < 2 ^ 32 /\ delay < 2 ^ 32 /\ calm now r
  | TUnsub k id topic :: r => Forall is_byte id /\ calm t r
  | TFind now g k topic :: r | TRelay now g k topic :: r => real_time t now /\ k < 2 ^ 32 /\ (forall l, Permutation (g_walk g l) l) /\ calm now r
  | TMsg now k topic payload expires :: r => real_time t now /\ k < 2 ^ 32 /\ expires < 2 ^ 32 /\ Forall is_byte payload /\ calm now r
  | TTick now :: r => real_time t now /\ calm now r
  | TCommit :: r => calm t r
  | TSync _ _ :: _ | TRestart _ _ _ :: _ => False
  end.

(** The contracts that subscribe or look for subscribers, and those that store
    messages. *)
Definition sub_side (o : store_op) : list N := match o with TSub _ k _ _ _ _ | TFind _ _ k _ => [k] | _ => [] end.
Definition msg_side (o : store_op) : list N := match o with TMsg _ k _ _ _ => [k] | _ => [] end.
(** No message is stored where the subscriptions of some contract are, and no
    contract is [connStoreId]. *)
Definition apart (ops : list store_op) : Prop :=
  (forall a b, In a (flat_map sub_side ops) -> In b (flat_map msg_side ops) -> N.lxor a connStoreId <> owner b) /\
  ~ In connStoreId (flat_map sub_side ops).

(** A publication of contract [k] is sent only to subscribers of [k] that have not
    unsubscribed. *)
Fixpoint reaches_only (l : list subscriber) (ops : list store_op) (outs : list store_out) : Prop :=
  match ops, outs with
  | o :: ops, x :: outs =>
      match o, x with
      | TSub now k topic mode conn delay, TSubbed id (ORes DOk) => reaches_only (l ++ [mkSb k id mode conn delay]) ops outs
      | TUnsub k id topic, TDone (ORes DOk) => reaches_only (filter (fun y => negb (beq (b_id y) id)) l) ops outs
      | TFind now g k topic, TFound f =>
          (forall y, In y (served f) -> exists b, In b l /\ b_contract b = k /\ b_target b = y) /\ reaches_only l ops outs
      | _, _ => reaches_only l ops outs
      end
  | _, _ => True
  end.

(** [conn] was sent a publication. *)
Definition conn_served (conn : N) (ops : list store_op) (outs : list store_out) : Prop :=
  exists now g k topic f, In (TFind now g k topic, TFound f) (combine ops outs) /\ In conn (map conn_of (served f)).

(** ** Histories of topics as users write them, also with Sync, but without
    unsubscribing. *)
Inductive sub_op :=
| PSub (now : Z) (k : N) (p : pattern) (mode conn delay : N)
| PFind (now : Z) (g : gchoice) (k : N) (names : list bytes)
| PMsg (now : Z) (k : N) (p : pattern) (payload : bytes) (expires : N)
| PTick (now : Z)
| PCommit
| PSync (now : Z) (ord : morder).
Definition as_store (o : sub_op) : store_op :=
  match o with
  | PSub now k p mode conn delay => TSub now k (text p) mode conn delay
  | PFind now g k names => TFind now g k (text (static names))
  | PMsg now k p payload expires => TMsg now k (text p) payload expires
  | PTick now => TTick now
  | PCommit => TCommit
  | PSync now ord => TSync now ord
  end.
(** As operations of a database, of which S_Session says which are considered. *)
Definition as_sop (o : sub_op) : sop :=
  match o with
  | PSub now k p mode conn delay => SPut now (N.lxor k connStoreId) p (mode :: le 4 conn ++ le 4 delay) 0 false
  | PFind now g k names => SGet now g (N.lxor k connStoreId) names 0
  | PMsg now k p payload expires => SPut now k p payload expires false
  | PTick now => STick now
  | PCommit => SCommit
  | PSync now ord => SSync now ord
  end.
Definition psyncs (o : sub_op) : bool := match o with PSync _ _ => true | _ => false end.
Definition sub_fits (o : sub_op) : Prop :=
  match o with PSub _ k _ mode conn delay => k < 2 ^ 32 /\ mode < 2 ^ 8 /\ conn < 2 ^ 32 /\ delay < 2 ^ 32 | PFind _ _ k _ => k < 2 ^ 32 | _ => True end.

(** A subscription with its topic. *)
Record wish := mkWish { h_contract : N; h_pattern : pattern; h_mode : N; h_conn : N; h_delay : N }.
Definition wishes (o : sub_op) : list wish := match o with PSub _ k p mode conn delay => [mkWish k p mode conn delay] | _ => [] end.
Definition wanted (k : N) (names : list bytes) (h : wish) : bool :=
  ((h_contract h =? k) && matches (pt_levels (h_pattern h)) (pt_multi (h_pattern h)) names)%bool.
Definition h_target (h : wish) : N * N * N := (h_mode h, h_conn h, h_delay h).

(** Every publication is sent to exactly the subscribers of its contract whose topic
    matches, the newest first; [first] is the topic that may have lost some
    (C32). *)
Fixpoint reaches (first : option (N * pattern)) (l : list wish) (ops : list sub_op) (outs : list store_out) : Prop :=
  match ops, outs with
  | [], [] => True
  | o :: r, x :: xs =>
      match o with
      | PSub _ _ _ _ _ _ => exists id, x = TSubbed id (ORes DOk)
      | PFind now g k names => exists ts, x = TFound (FSent ts) /\
          incl ts (map h_target (filter (wanted k names) l)) /\
          (spared first (N.lxor k connStoreId) names = false -> ts = rev (map h_target (filter (wanted k names) l)))
      | _ => True
      end /\ reaches first (l ++ wishes o) r xs
  | _, _ => False
  end.
