(** Model of server/internal/net/listener/patricia.go. *)
From Verif Require Import M_Bytes.
Open Scope N_scope.

(** patricia.go:60-64 [ptNode]; the map [next] as a list of pairs. *)
Inductive ptnode := PT (prefix : bytes) (next : list (N * ptnode)) (terminal : bool).

(** patricia.go:113-140: the loop of [splitPrefix] over i, where [first] is the
    rest of bss[0] from i on; it ends at the latest at the end of bss[0]. *)
Fixpoint common (first : bytes) (i : nat) (bss : list bytes) : bytes :=
  match first with
  | [] => []
  | cur :: r =>
      if forallb (fun b => match nth_error b i with Some x => x =? cur | None => false end) bss
      then cur :: common r (S i) bss else []
  end.
(** patricia.go:103-148 [splitPrefix] *)
Definition splitPrefix (bss : list bytes) : bytes * list bytes :=
  match bss with
  | [] => ([], bss)
  | [] :: _ => ([], bss)
  | [b] => (b, [[]])
  | b :: _ => let p := common b 0 bss in (p, map (skipn (length p)) bss)
  end.

(** patricia.go:87-94: strings by their first byte, in order of arrival. *)
Fixpoint grp_add (g : list (N * list bytes)) (c : N) (r : bytes) : list (N * list bytes) :=
  match g with
  | [] => [(c, [r])]
  | (d, l) :: g' => if d =? c then (d, l ++ [r]) :: g' else (d, l) :: grp_add g' c r
  end.
Fixpoint grp (strs : list bytes) (g : list (N * list bytes)) : list (N * list bytes) :=
  match strs with
  | [] => g
  | [] :: r => grp r g
  | (c :: s) :: r => grp r (grp_add g c s)
  end.
Definition is_nil (s : bytes) : bool := match s with [] => true | _ => false end.

(** patricia.go:66-101 [newNode]; the recursion is on strings that lost their
    first byte, [fuel] bounds its depth. *)
Fixpoint newNode (fuel : nat) (strs : list bytes) : ptnode :=
  match fuel with
  | O => PT [] [] false
  | S k =>
      match strs with
      | [] => PT [] [] true
      | [s] => PT s [] true
      | _ => let '(p, strs) := splitPrefix strs in
             PT p (map (fun e => (fst e, newNode k (snd e))) (grp strs [])) (existsb is_nil strs)
      end
  end.

Definition total (strs : list bytes) : nat := fold_right (fun s n => (length s + n)%nat) O strs.
Definition max_len (strs : list bytes) : nat := fold_right (fun s n => Nat.max (length s) n) O strs.

(** patricia.go:25-28, 30-41 [newPatriciaTree] *)
Record ptree := mkPT { pt_root : ptnode; pt_maxDepth : nat }.
Definition newPatriciaTree (bs : list bytes) : ptree :=
  mkPT (newNode (S (total bs)) bs) (S (max_len bs)).

Definition bytes_eqb (a b : bytes) : bool := if list_eq_dec N.eq_dec a b then true else false.

(** patricia.go:150-181 [match] *)
Fixpoint node_match (n : ptnode) (b : bytes) (prefix : bool) {struct n} : bool :=
  match n with
  | PT p next terminal =>
      let l := Nat.min (length p) (length b) in
      if ((Nat.ltb 0 (length p)) && negb (bytes_eqb (firstn l b) p))%bool then false
      else if (terminal && (prefix || Nat.eqb (length p) (length b)))%bool then true
      else if Nat.leb (length b) l then false
      else (fix look (next : list (N * ptnode)) : bool :=
              match next with
              | [] => false
              | (c, nx) :: r => if c =? nth l b 0 then node_match nx (skipn (S l) b) prefix else look r
              end) next
  end.

(** patricia.go:51-61 [matchPrefix] and [match]: at most maxDepth bytes of the
    stream are looked at. *)
Definition matchPrefix (t : ptree) (r : bytes) : bool := node_match (pt_root t) (firstn (pt_maxDepth t) r) true.
Definition matchExact (t : ptree) (r : bytes) : bool := node_match (pt_root t) (firstn (pt_maxDepth t) r) false.
