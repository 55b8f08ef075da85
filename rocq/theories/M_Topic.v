(** Model of message/topic.go. *)
From Verif Require Import M_Bytes M_Hash.
Open Scope N_scope.

(** message/topic.go:52-55 [Part]: uint32 hash, uint8 number of single level
    wildcards that follow. *)
Record part := mkPart { p_hash : N; p_wild : N }.

(** message/topic.go:32-42.  '*', '.', '?', '&', '='. *)
Definition cStar : N := 42.
Definition cDot : N := 46.
Definition cQuest : N := 63.
Definition cAmp : N := 38.
Definition cEq : N := 61.
Definition Wildcard : N := 857445537.
Inductive ttype := TInvalid | TStatic | TWildcard.

(** message/topic.go:58-65 [Topic]; the options as pairs of byte strings. *)
Record topic := mkTopic {
  t_parts : list part;
  t_depth : N;                       (* uint8 *)
  t_options : list (bytes * bytes);
  t_type : ttype
}.

(** bytes.FieldsFunc with a predicate that holds for one ASCII character: the
    maximal non-empty runs without it.  In UTF-8 that character only occurs as
    itself, so runes and bytes agree.  [cur] is the current run reversed. *)
Fixpoint fields_loop (sep : N) (cur : bytes) (l : bytes) : list bytes :=
  match l with
  | [] => match cur with [] => [] | _ => [rev cur] end
  | c :: r => if c =? sep
              then match cur with
                   | [] => fields_loop sep [] r
                   | _ => rev cur :: fields_loop sep [] r
                   end
              else fields_loop sep (c :: cur) r
  end.
Definition fields (sep : N) (l : bytes) : list bytes := fields_loop sep [] l.

(** bytes.HasSuffix and bytes.TrimRight with the cut set ".". *)
Definition has_suffix (l s : bytes) : bool :=
  if list_eq_dec N.eq_dec (skipn (length l - length s) l) s
  then Nat.leb (length s) (length l) else false.
Fixpoint drop_dots (l : bytes) : bytes :=
  match l with
  | c :: r => if c =? cDot then drop_dots r else l
  | [] => []
  end.
Definition trim_right_dots (l : bytes) : bytes := rev (drop_dots (rev l)).

(** message/topic.go:148-166 [parseOptions]; it always succeeds. *)
Definition parse_options (text : bytes) : list (bytes * bytes) :=
  flat_map (fun o => match fields cEq o with
                     | k :: v :: _ => [(k, v)]
                     | _ => []
                     end) (fields cAmp text).

(** message/topic.go:178-192 [ParseKey]: topic text and options text. *)
Definition parse_key (text : bytes) : bytes * bytes :=
  match fields cQuest text with
  | [] => ([], [])
  | [t] => (t, [])
  | t :: o :: _ => (t, o)
  end.

(** The loop of message/topic.go:262-283.  [lp_idx] is idx. *)
Record lstate := mkLS {
  lp_idx : nat;
  lp_parts : list part;
  lp_wild : N;               (* wildchars, uint8 *)
  lp_count : nat;            (* wildcharcount *)
  lp_depth : N;              (* depth, uint8 *)
  lp_star : bool             (* TopicType set to TopicWildcard in the loop *)
}.
Definition set_wild (ps : list part) (i : nat) (w : N) : list part :=
  match nth_error ps i with
  | Some p => update ps i (mkPart (p_hash p) w)
  | None => ps               (* index out of range: not reached *)
  end.
Definition loop_step (contract : N) (s : lstate) (p : bytes) : lstate :=
  let depth := u8 (lp_depth s + 1) in
  if has_suffix p [cStar]
  then mkLS (S (lp_idx s))
            (if Nat.eqb (lp_idx s) 0 then lp_parts s ++ [mkPart (hash_salt p contract) 0] else lp_parts s)
            (u8 (lp_wild s + 1)) (S (lp_count s)) depth true
  else
    let parts := lp_parts s ++ [mkPart (hash_salt p contract) 0] in
    if lp_wild s =? 0
    then mkLS (S (lp_idx s)) parts 0 (lp_count s) depth (lp_star s)
    else let at_ := if Nat.leb (lp_count s + 1) (lp_idx s) then (lp_idx s - lp_count s - 1)%nat else 0%nat in
         mkLS (S (lp_idx s)) (set_wild parts at_ (lp_wild s)) 0 (lp_count s) depth (lp_star s).

(** message/topic.go:233-296 [parseWildcardTopic]; it is what both puts and
    queries use.  The type set by [ParseKey] for a text without a key is
    overwritten here. *)
Definition parse_topic (contract : N) (text : bytes) : topic :=
  let (name, opts) := parse_key text in
  let multi := has_suffix name [cDot; cDot; cDot] in
  let name := if multi then trim_right_dots name else name in
  let s0 := mkLS 0 [] 0 0 (if multi then 1 else 0) false in
  let s := fold_left (loop_step contract) (fields cDot name) s0 in
  let parts := if lp_wild s =? 0 then lp_parts s
               else set_wild (lp_parts s) (length (lp_parts s) - 1) (lp_wild s) in
  let parts := if multi then parts ++ [mkPart Wildcard 0] else parts in
  mkTopic parts (lp_depth s) (parse_options opts)
          (if (multi || lp_star s)%bool then TWildcard else TStatic).

(** message/topic.go:68-75 [AddContract] *)
Definition add_contract (contract : N) (t : topic) : topic :=
  mkTopic (mkPart contract 0 :: t_parts t) (t_depth t) (t_options t) (t_type t).

(** message/topic.go:78-87 [GetHash] of a topic with its contract part. *)
Definition get_hash (contract : N) (t : topic) : N :=
  match t_parts t with
  | [_] | [] => contract
  | p :: ps =>
      let h := fold_left (fun h q => N.lxor h (p_hash q)) ps (p_hash p) in
      u64 (N.shiftl h 32 + N.lor (u32 (N.shiftl contract 8)) (t_depth t))
  end.

(** message/topic.go:299-321 [Marshal] *)
Definition part_marshal (p : part) : bytes := u8 (p_wild p) :: le 4 (p_hash p).
Definition topic_marshal (ps : list part) (depth : N) : bytes :=
  depth :: concat (map part_marshal ps).

(** message/topic.go:324-341 [Unmarshal]; [None] is a panic on short data. *)
Fixpoint parts_unmarshal (n : nat) (d : bytes) : option (list part) :=
  match n, d with
  | O, _ => Some []
  | _, [] => Some []
  | S n', w :: r =>
      if Nat.ltb (length r) 4 then None
      else match parts_unmarshal n' (skipn 4 r) with
           | None => None
           | Some ps => Some (mkPart (unle (firstn 4 r)) w :: ps)
           end
  end.
Definition topic_unmarshal (data : bytes) : option (list part * N) :=
  match data with
  | [] => None
  | depth :: d => match parts_unmarshal (S (N.to_nat depth)) d with
                  | None => None
                  | Some ps => Some (ps, depth)
                  end
  end.
