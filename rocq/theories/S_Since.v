(** Sessions in which a Get may ask for the messages of the last hour, or of any
    other span of time.  Stated over messages, topics and the times at which they
    were put. *)
From Verif Require Import M_Bytes M_MsgId M_Topic M_Query M_MemDB M_Window M_DB S_Trie S_MemDB S_DB S_Session.
From Coq Require Import Permutation.
Open Scope Z_scope.

(** [LLast]: NewQuery(topic).WithContract(k).WithLimit(limit).WithLast(txt) and at
    once Get; [LOpt]: Get with the topic "topic?last=txt". *)
Inductive lop :=
| LDo (o : sop)
| LLast (now : Z) (g : gchoice) (k : N) (names : list bytes) (limit : Z) (txt : bytes)
| LOpt (now : Z) (g : gchoice) (k : N) (names : list bytes) (limit : Z) (txt : bytes).

Definition last_topic (names : list bytes) (txt : bytes) : bytes :=
  text (static names) ++ [63; 108; 97; 115; 116; 61]%N ++ txt.
(** query.go:71-87: WithLast knows only the limits that NewQuery gives
    (options.go:168-175). *)
Definition last_query (c : dcfg) (now : Z) (k : N) (names : list bytes) (limit : Z) (txt : bytes) : query :=
  let (l, cutoff) := with_last (c_pd c) now defaultQueryLimit maxQueryLimit txt limit 0 in
  mkQ (text (static names)) k l cutoff [].
Definition as_ldop (c : dcfg) (o : lop) : dop :=
  match o with
  | LDo o => as_dop o
  | LLast now g k names limit txt => DoGet now g (last_query c now k names limit txt)
  | LOpt now g k names limit txt => DoGet now g (mkQ (last_topic names txt) k limit 0 [])
  end.

(** A message with the time it was put, in nanoseconds. *)
Notation stamped := (Z * sent)%type (only parsing).
Definition lclock (t : Z) (o : lop) : Z :=
  match o with LDo o => clock t o | LLast now _ _ _ _ _ | LOpt now _ _ _ _ _ => now end.
Definition stamps (o : lop) : list (Z * sent) :=
  match o with LDo o => map (pair (clock 0 o)) (sends o) | _ => [] end.

(** Not from an earlier second than [from]; all messages if there is no [from]. *)
Definition recent (from : option Z) (x : Z * sent) : bool :=
  match from with Some b => b / 1000000000 <=? fst x / 1000000000 | None => true end.
Definition expect_since (now : Z) (k : N) (names : list bytes) (from : option Z) (l : list (Z * sent)) : list bytes :=
  rev (map (fun x => s_payload (snd x)) (filter (fun x => asked k names (snd x) && in_time now (snd x) && recent from x)%bool l)).
(** The span a text stands for, counted back from now. *)
Definition back (c : dcfg) (now : Z) (txt : bytes) : option Z :=
  match c_pd c txt with Some d => Some (now - d) | None => None end.

(** ** The sessions considered: as in S_Session; messages are put after April
    2019, when the clock of the identifiers begins. *)
Definition at_most (def max limit : Z) : Z := if limit =? 0 then def else Z.min limit max.
Definition no_sign (b : N) : Prop := b <> cQuest /\ b <> cAmp /\ b <> cEq.
Fixpoint span_ok (c : dcfg) (t : Z) (l : list (Z * sent)) (ops : list lop) : Prop :=
  match ops with
  | [] => True
  | o :: r =>
      t <= lclock t o < 2 ^ 32 * 1000000000 /\
      match o with
      | LDo (SPut now k p payload expires _) => Offset * 1000000000 <= now /\ put_ok c (map snd l) k p payload expires
      | LDo (SGet _ g k names limit) => get_ok c (map snd l) g k names limit
      | LDo (SSync _ ord) => forall m, Permutation (ord m) m
      | LDo _ => True
      | LLast _ g k names limit txt =>
          get_ok c (map snd l) g k names (match c_pd c txt with Some _ => at_most defaultQueryLimit maxQueryLimit limit | None => limit end)
      | LOpt _ g k names limit txt =>
          get_ok c (map snd l) g k names (at_most (c_def c) (c_max c) limit) /\
          (N.of_nat (length (last_topic names txt)) <= maxTopicLength)%N /\
          txt <> [] /\ Forall no_sign txt /\ parse_int txt = None /\ c_pd c txt <> None
      end /\
      span_ok c (lclock t o) (l ++ stamps o) r
  end.

(** ** What the program should see; [first] as in S_Session. *)
Definition given (first : option (N * pattern)) (now : Z) (k : N) (names : list bytes) (from : option Z) (l : list (Z * sent)) (x : dout) : Prop :=
  exists items, x = OGot (QItems items) /\
    incl items (map (fun x => s_payload (snd x)) (filter (fun x => asked k names (snd x) && recent from x)%bool l)) /\
    (spared first k names = false -> items = expect_since now k names from l).
Fixpoint spanned (c : dcfg) (first : option (N * pattern)) (l : list (Z * sent)) (ops : list lop) (outs : list dout) : Prop :=
  match ops, outs with
  | [], [] => True
  | o :: r, x :: xs =>
      match o with
      | LDo (SPut _ _ _ _ _ _) | LDo (SSync _ _) => x = S_DB.ORes DOk
      | LDo (SGet now _ k names _) => given first now k names None l x
      | LDo _ => True
      | LLast now _ k names _ txt | LOpt now _ k names _ txt => given first now k names (back c now txt) l x
      end /\ spanned c first (l ++ stamps o) r xs
  | _, _ => False
  end.
Definition lsyncs (o : lop) : bool := match o with LDo o => syncs o | _ => false end.
