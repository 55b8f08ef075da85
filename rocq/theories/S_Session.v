(** Sessions: what a program that puts, reads and syncs should see.  Stated
    over messages and topics only, without sequence numbers, files or blocks. *)
From Verif Require Import M_Bytes M_Hash M_Bloom M_MsgId M_Mac M_Topic M_MemDB M_Trie M_Query M_Window M_DB S_Trie S_MemDB S_DB.
From Coq Require Import Permutation.
Open Scope Z_scope.

(** What the program does, and what the background tasks do meanwhile. *)
Inductive sop :=
| SPut (now : Z) (contract : N) (p : pattern) (payload : bytes) (expires : N) (encrypt : bool)
| SGet (now : Z) (g : gchoice) (contract : N) (names : list bytes) (limit : Z)
| STick (now : Z)
| SCommit
| SSync (now : Z) (ord : morder)
| SNewID (now : Z)
| SCount.

Definition as_dop (o : sop) : dop :=
  match o with
  | SPut now k p payload expires encrypt => DoPut now (mkUE None (text p) payload expires k encrypt None 0)
  | SGet now g k names limit => DoGet now g (mkQ (text (static names)) k limit 0 [])
  | STick now => DoTick now None
  | SCommit => DoCommit
  | SSync now ord => DoSync now ord
  | SNewID now => DoNewID now
  | SCount => DoCount
  end.

(** Contract 0 stands for the default one. *)
Definition owner (k : N) : N := if (k =? 0)%N then MasterContract else k.

(** A message that was sent. *)
Record sent := mkSent { s_owner : N; s_pattern : pattern; s_expires : N; s_payload : bytes }.
Definition sends (o : sop) : list sent :=
  match o with
  | SPut _ k p payload expires _ => [mkSent (owner k) p expires payload]
  | _ => []
  end.

(** "*" stands for one level, "..." for one level or more. *)
Definition beq (a b : bytes) : bool := if list_eq_dec N.eq_dec a b then true else false.
Fixpoint matches (ls : list level) (multi : bool) (q : list bytes) : bool :=
  match ls, q with
  | [], [] => negb multi
  | [], _ :: _ => multi
  | Star :: ls', _ :: q' => matches ls' multi q'
  | Lit n :: ls', x :: q' => (beq n x && matches ls' multi q')%bool
  | _ :: _, [] => false
  end.
Definition asked (k : N) (names : list bytes) (m : sent) : bool :=
  ((s_owner m =? owner k)%N && matches (pt_levels (s_pattern m)) (pt_multi (s_pattern m)) names)%bool.
(** Expiry is in seconds, 0 means never. *)
Definition in_time (now : Z) (m : sent) : bool :=
  ((s_expires m =? 0)%N || (now / 1000000000 <? Z.of_N (s_expires m)))%bool.


(** What a Get should give: newest first. *)
Definition expect (now : Z) (k : N) (names : list bytes) (l : list sent) : list bytes :=
  rev (map s_payload (filter (fun m => (asked k names m && in_time now m)%bool) l)).

(** ** The sessions considered *)

(** What is taken for granted about snappy, the cipher, the consistent hash and
    the options. *)
Definition is_byte (b : N) : Prop := (b < 256)%N.
Record setting_ok (c : dcfg) (gens : list bloom) : Prop := {
  so_mem : cfg_ok (c_mem c) gens;
  so_dur : 0 < c_dur (c_mem c);
  so_unsnap : forall p, c_unsnap c (c_snap c p) = Some p;
  so_snap : forall p, Forall is_byte p -> Forall is_byte (c_snap c p);
  so_snaplen : forall p, (N.of_nat (length p) <= maxValueLength -> N.of_nat (length (c_snap c p)) < 2 ^ 31)%N;
  so_aead : aead_ok (m_parent (c_mac c));
  so_seal : forall n p, Forall is_byte p -> Forall is_byte (seal (m_parent (c_mac c)) n p);
  so_find : forall k, (c_find c k < M_Lease.nShards)%nat
}.

(** The 64 bit number under which a topic is filed. *)
Definition number (m : sent) : N := get_hash (s_owner m) (filed (s_owner m) (text (s_pattern m))).

(** Topics the database takes, payloads that snappy makes at least four bytes
    of (C55), and no other topic with the same number. *)
Record put_ok (c : dcfg) (l : list sent) (k : N) (p : pattern) (payload : bytes) (expires : N) : Prop := {
  po_contract : (k < 2 ^ 32)%N;
  po_plain : plain (owner k) p;
  po_topic : (N.of_nat (length (text p)) <= maxTopicLength)%N;
  po_payload : payload <> [] /\ (N.of_nat (length payload) <= maxValueLength)%N /\ Forall is_byte payload;
  po_four : (4 <= length (c_snap c payload))%nat;
  po_expires : (expires < 2 ^ 32)%N;
  po_clash : forall m, In m l -> number m = number (mkSent (owner k) p expires payload) -> s_owner m = owner k /\ s_pattern m = p
}.

(** Topics without wildcards, a limit that is not exceeded, no two level names
    that are taken for the same; whatever order Go chooses. *)
Record get_ok (c : dcfg) (l : list sent) (g : gchoice) (k : N) (names : list bytes) (limit : Z) : Prop := {
  go_contract : (k < 2 ^ 32)%N;
  go_names : names <> [] /\ Forall name_ok names /\ (length names < 256)%nat;
  go_topic : (N.of_nat (length (text (static names))) <= maxTopicLength)%N;
  go_limit : Z.of_nat (length (filter (asked k names) l)) <= (if limit =? 0 then c_def c else limit);
  go_clash : forall m, In m l -> s_owner m = owner k ->
    covers (same_hash (owner k)) (pt_levels (s_pattern m)) (pt_multi (s_pattern m)) names -> asked k names m = true;
  go_topics : forall x, Permutation (g_topics g x) x;
  go_walk : forall x, Permutation (g_walk g x) x;
  go_cap : forall x, Z.of_nat (length x) <= g_cap g x
}.

Definition clock (t : Z) (o : sop) : Z :=
  match o with
  | SPut now _ _ _ _ _ | SGet now _ _ _ _ | STick now | SSync now _ | SNewID now => now
  | _ => t
  end.

(** The clock does not go back and stays before the year 2106. *)
Fixpoint session_ok (c : dcfg) (t : Z) (l : list sent) (ops : list sop) : Prop :=
  match ops with
  | [] => True
  | o :: r =>
      t <= clock t o < 2 ^ 32 * 1000000000 /\
      match o with
      | SPut _ k p payload expires _ => put_ok c l k p payload expires
      | SGet _ g k names limit => get_ok c l g k names limit
      | SSync _ ord => forall m, Permutation (ord m) m
      | _ => True
      end /\
      session_ok c (clock t o) (l ++ sends o) r
  end.

(** ** What the program should see

    [first] is the one topic that may have lost messages (C32). *)
Definition spared (first : option (N * pattern)) (k : N) (names : list bytes) : bool :=
  match first with
  | Some (o, p) => ((o =? owner k)%N && matches (pt_levels p) (pt_multi p) names)%bool
  | None => false
  end.
Fixpoint answered (first : option (N * pattern)) (l : list sent) (ops : list sop) (outs : list dout) : Prop :=
  match ops, outs with
  | [], [] => True
  | o :: r, x :: xs =>
      match o with
      | SPut _ _ _ _ _ _ | SSync _ _ => x = S_DB.ORes DOk
      | SGet now _ k names _ => exists items, x = OGot (QItems items) /\
          incl items (map s_payload (filter (asked k names) l)) /\
          (spared first k names = false -> items = expect now k names l)
      | _ => True
      end /\ answered first (l ++ sends o) r xs
  | _, _ => False
  end.
Definition syncs (o : sop) : bool := match o with SSync _ _ => true | _ => false end.
