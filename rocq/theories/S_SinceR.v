(** Sessions with restarts in which a Get may ask for a span of time: S_Restart and
    S_Since together. *)
From Verif Require Import M_Bytes M_MemDB M_WinBlock M_Window M_Get M_DB S_Trie S_MemDB S_Get S_DB S_Session S_Restart S_Since.
From Coq Require Import Permutation.
Open Scope Z_scope.

(** Work, or a restart: Close, and Open of the files at [now]. *)
Inductive rlop := LRDo (o : lop) | LRRestart (gens : list M_Bloom.bloom) (now : Z) (ord : morder) (immut enc : bool).
Definition as_ldops (c : dcfg) (o : rlop) : list dop :=
  match o with
  | LRDo o => [as_ldop c o]
  | LRRestart gens now ord immut enc => [DoClose; DoOpen gens now ord immut enc]
  end.

(** The runs considered: the conditions of S_Since on what is done, and those of
    S_Restart on ticks, commits and restarts. *)
Fixpoint rspan_ok (c : dcfg) (t : Z) (l : list (Z * sent)) (ops : list rlop) : Prop :=
  match ops with
  | [] => True
  | LRDo o :: r =>
      span_ok c t l [o] /\
      match o with
      | LDo (STick now) => t < now
      | LDo SCommit => (total c (map snd l) < 2 ^ 32 - 4)%N
      | _ => True
      end /\ rspan_ok c (lclock t o) (l ++ stamps o) r
  | LRRestart gens now ord _ _ :: r =>
      setting_ok c gens /\ t < now < 2 ^ 32 * 1000000000 /\
      c_logint (c_mem c) * (t / c_logint (c_mem c)) < c_dur (c_mem c) * (now / c_dur (c_mem c)) /\
      few (map snd l) /\ (total c (map snd l) < 2 ^ 32 - 4)%N /\ (forall m, Permutation (ord m) m) /\
      rspan_ok c now l r
  end.

(** What the program should see: the restarts change nothing. *)
Fixpoint rspanned (c : dcfg) (first : option (N * pattern)) (l : list (Z * sent)) (ops : list rlop) (outs : list dout) : Prop :=
  match ops with
  | [] => outs = []
  | LRDo o :: r => exists x xs, outs = x :: xs /\ spanned c first l [o] [x] /\ rspanned c first (l ++ stamps o) r xs
  | LRRestart _ _ _ _ _ :: r => exists xs, outs = S_DB.ORes DOk :: OOpened true :: xs /\ rspanned c first l r xs
  end.
