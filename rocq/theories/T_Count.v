(** What Sync writes and what Count answers: C59, C28. *)
From Verif Require Import M_Bytes M_Bloom M_MemDB M_Window M_DB S_MemDB S_DB S_Session S_Count P_Count P_MemEx P_DBEx P_SessionEx.
From Coq Require Import Lia.
Open Scope Z_scope.

(** C28, in a session of puts, Gets and Syncs on a new database: Count answers
    the number of messages written by Sync, which are those put in a time slot
    that was over and whose log was committed. *)
Theorem C28_session_partial : forall c gens t ord immut enc ops, setting_ok c gens -> c_dur (c_mem c) <= t -> session_ok c t [] ops -> (N.of_nat (length ops) <= 130000)%N ->
  exists outs, snd (drun c (Down no_files) (DoOpen gens t ord immut enc :: map as_dop ops ++ [DoCount])) =
    outs ++ [OCount (N.of_nat (length (written_of (book_of (c_dur (c_mem c)) t ops))))].
Proof. exact count_session. Qed.
Print Assumptions C28_session_partial.

(** C59, in such a session: every message that Sync was to write is in the files,
    under a number of its own, and can be read back from them alone. *)
Theorem C59_files_partial : forall c gens t ord immut enc ops, setting_ok c gens -> c_dur (c_mem c) <= t -> session_ok c t [] ops -> (N.of_nat (length ops) <= 130000)%N ->
  exists s, fst (drun c (Down no_files) (DoOpen gens t ord immut enc :: map as_dop ops)) = Up s /\
    exists qs, NoDup qs /\ Forall2 (on_file c (on_disk s)) qs (written_of (book_of (c_dur (c_mem c)) t ops)).
Proof. exact files_session. Qed.
Print Assumptions C59_files_partial.

(** Four messages, of which the first Sync writes three; then all six. *)
Example C28_example : setting_ok dx [ex_gen] /\ c_dur (c_mem dx) <= T0 /\ session_ok dx T0 [] sess /\
  map s_payload (written_of (book_of (c_dur (c_mem dx)) T0 (firstn 8 sess))) = [pay 9; pay 1; pay 2] /\
  length (bk_all (book_of (c_dur (c_mem dx)) T0 (firstn 8 sess))) = 4%nat /\
  map s_payload (written_of (book_of (c_dur (c_mem dx)) T0 sess)) = [pay 9; pay 1; pay 2; pay 3; pay 4; pay 5].
Proof. split; [exact dx_ok|]. split; [vm_compute; congruence|]. split; [exact sess_ok|]. repeat split; vm_compute; reflexivity. Qed.
