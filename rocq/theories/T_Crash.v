(** Properties of crashes in sessions with restarts: C119. *)
From Verif Require Import M_Bytes M_Bloom M_MemDB M_Window M_DB S_MemDB S_DB S_Session S_Restart S_Crash P_Crash3 P_MemEx P_DBEx P_SessionEx P_RestartEx P_CrashEx.
Open Scope Z_scope.

(** C119: sessions as in C63, with a crash after the last Close and Open instead
    of another Close. Every message sent before that Close is read afterwards,
    and of those sent since, all but the last few: at least those put before a
    tick of the log whose commit was done. All topics but one, as in C62. After
    the crash: queries only. *)
Theorem C119_crash_partial : forall c gens t ord immut enc ops1 g1 n1 o1 i1 e1 ops2 g2 n2 o2 i2 e2 gets, setting_ok c gens -> 0 < c_logint (c_mem c) ->
  0 <= t < 2 ^ 32 * 1000000000 -> c_dur (c_mem c) <= t ->
  restart_ok c t [] (ops1 ++ RRestart g1 n1 o1 i1 e1 :: map RDo ops2 ++ RRestart g2 n2 o2 i2 e2 :: map RDo gets) -> flat_map rsends ops1 <> [] -> Forall is_get gets ->
  (N.of_nat (length ops1 + length ops2) <= 129990)%N ->
  exists first outs outs2 kept lost,
    snd (drun c (Down no_files) (DoOpen gens t ord immut enc :: flat_map as_dops (ops1 ++ [RRestart g1 n1 o1 i1 e1]) ++ map as_dop ops2 ++ DoCrash :: DoOpen g2 n2 o2 i2 e2 :: map as_dop gets)) =
      OOpened true :: outs ++ ODone :: OOpened true :: outs2 /\
    ranswered first [] (ops1 ++ RRestart g1 n1 o1 i1 e1 :: map RDo ops2) outs /\ flat_map sends ops2 = kept ++ lost /\ (flushed [] 0 ops2 <= length kept)%nat /\
    answered first (flat_map rsends ops1 ++ kept) gets outs2.
Proof. exact crashed. Qed.
Print Assumptions C119_crash_partial.

(** Three messages after the restart, one of them in the log. *)
Example C119_example : setting_ok dx [ex_gen] /\ restart_ok dx T0 [] (csess1 ++ again (T0 + 10) :: map RDo csess2 ++ again (T0 + 40) :: map RDo cgets) /\
  flat_map rsends csess1 <> [] /\ Forall is_get cgets /\ length (flat_map sends csess2) = 3%nat /\ flushed [] 0 csess2 = 1%nat /\
  snd (drun dx (Down no_files) (open_x T0 :: flat_map as_dops (csess1 ++ [again (T0 + 10)]) ++ map as_dop csess2 ++ DoCrash :: open_x (T0 + 40) :: map as_dop cgets)) =
    [OOpened true; ORes DOk; ORes DOk; OOpened true; ORes DOk; ODone; ORes DOk; ODone; ODone; ORes DOk; got [3; 2; 1]%N; ODone; OOpened true; got [1]%N; got [9]%N].
Proof.
  split; [exact dx_ok|]. split; [exact csess_ok|]. split; [discriminate|]. split; [repeat constructor|]. split; [reflexivity|]. split; [reflexivity|]. exact csess_run.
Qed.

(** Why a Close is needed before: a crash of the first session loses also what is
    in the log. *)
Theorem C119_first_refuted : flushed [] 0 csess3 = 1%nat /\
  snd (drun dx (Down no_files) (open_x T0 :: map as_dop csess3 ++ [DoCrash; open_x (T0 + 40); as_dop (SGet (T0 + 41) gx 0 [nA; nB] 0)])) =
  [OOpened true; ORes DOk; ODone; ODone; ODone; OOpened true; got []].
Proof. exact first_lost. Qed.
Print Assumptions C119_first_refuted.

(** Why queries only: a message put after the crash takes the number of one that
    was recovered; that one is lost, and the new one is read twice. *)
Theorem C119_after_refuted :
  snd (drun dx (Down no_files) (open_x T0 :: flat_map as_dops (csess1 ++ [again (T0 + 10)]) ++ map as_dop csess4 ++ DoCrash :: open_x (T0 + 40) :: map as_dop cafter)) =
  [OOpened true; ORes DOk; ORes DOk; OOpened true; ORes DOk; ORes DOk; ODone; ODone; ODone; OOpened true; got [2; 1]%N; ORes DOk; got [2; 5; 5]%N].
Proof. exact after_lost. Qed.
Print Assumptions C119_after_refuted.
