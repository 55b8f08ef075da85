(** Sessions with restarts: what the program does, and what it may rely on. *)
From Verif Require Import M_Bytes M_MemDB M_WinBlock M_Window M_Get M_DB S_Trie S_MemDB S_Get S_DB S_Session.
From Coq Require Import Permutation.
Open Scope Z_scope.

(** Work, or a restart: Close, and Open of the files at [now]. *)
Inductive rop := RDo (o : sop) | RRestart (gens : list M_Bloom.bloom) (now : Z) (ord : morder) (immut enc : bool).
Definition as_dops (o : rop) : list dop :=
  match o with
  | RDo o => [as_dop o]
  | RRestart gens now ord immut enc => [DoClose; DoOpen gens now ord immut enc]
  end.

(** More than what one message takes in the log. *)
Definition weight (c : dcfg) (m : sent) : N := N.of_nat (length (c_snap c (s_payload m))) + 2100.
Definition total (c : dcfg) (l : list sent) : N := fold_right (fun m n => weight c m + n)%N 0%N l.

(** ** The runs considered

    As sessions (S_Session), and: background ticks at later times than what went
    before; an Open falls into a later time slot than the last thing done before
    the Close; no topic has more than 335 messages at that time; no more than
    about 4 GB of messages. *)
Definition few (l : list sent) : Prop := forall m, In m l -> (length (filter (fun x => (number x =? number m)%N) l) <= 335)%nat.
Fixpoint restart_ok (c : dcfg) (t : Z) (l : list sent) (ops : list rop) : Prop :=
  match ops with
  | [] => True
  | RDo o :: r =>
      session_ok c t l [o] /\
      match o with
      | STick now => t < now
      | SCommit => (total c l < 2 ^ 32 - 4)%N
      | _ => True
      end /\ restart_ok c (clock t o) (l ++ sends o) r
  | RRestart gens now ord _ _ :: r =>
      setting_ok c gens /\ t < now < 2 ^ 32 * 1000000000 /\
      c_logint (c_mem c) * (t / c_logint (c_mem c)) < c_dur (c_mem c) * (now / c_dur (c_mem c)) /\
      few l /\ (total c l < 2 ^ 32 - 4)%N /\ (forall m, Permutation (ord m) m) /\
      restart_ok c now l r
  end.

(** ** What the program should see: Close and Open succeed, and nothing else
    changes. *)
Fixpoint ranswered (first : option (N * pattern)) (l : list sent) (ops : list rop) (outs : list dout) : Prop :=
  match ops with
  | [] => outs = []
  | RDo o :: r => exists x xs, outs = x :: xs /\ answered first l [o] [x] /\ ranswered first (l ++ sends o) r xs
  | RRestart _ _ _ _ _ :: r => exists xs, outs = ORes DOk :: OOpened true :: xs /\ ranswered first l r xs
  end.
