(** Property theorems about the time window: C22, C24, C31, C32 (window part). *)
From Verif Require Import M_Bytes M_File M_Query M_WinBlock M_Window S_Window P_Window4 P_WindowEx.
Open Scope Z_scope.

(** C22: a lookup never gives an expired entry, whatever is in memory and in
    the file. *)
Theorem C22_lookup : forall now ls f h off cutoff limit r,
  tw_lookup now ls f h off cutoff limit = Some r ->
  Forall (fun e => is_expired (w_expiresAt e) now = false) r.
Proof. exact lookup_live. Qed.
Print Assumptions C22_lookup.

(** C22, C32: while the limit is not reached a lookup gives every entry that
    has not expired, those in memory before those in the file, each list newest
    first; after any history of appends, writes and reopened writers.
    Partial: not for the topic whose block is block 0, and not for the offsets
    that Open rebuilds (C32_refuted, C31_refuted). *)
Theorem C32_window_partial : forall w off H first T w' h now limit ls,
  win_run w off H first T -> ww_write w = Some w' -> first <> Some h ->
  Z.of_nat (total ls + length (H h)) <= limit ->
  tw_lookup now ls (ww_file w') h (off h) 0 limit = Some (live_lists now ls ++ live_desc now (H h)).
Proof. exact lookup_exact. Qed.
Print Assumptions C32_window_partial.

(** The same for any topic and any cutoff time: what is missing was appended
    before the cutoff or belongs to the first topic. *)
Theorem C32_cutoff_partial : forall w off H first T w' h now cutoff limit ls,
  win_run w off H first T -> ww_write w = Some w' -> Z.of_nat (total ls + length (H h)) <= limit ->
  exists lost old kept, H h = lost ++ old ++ kept /\ (lost = [] \/ first = Some h) /\
    Forall (fun x : wentry * Z => snd x < cutoff) old /\
    tw_lookup now ls (ww_file w') h (off h) cutoff limit = Some (live_lists now ls ++ live_desc now kept).
Proof. exact lookup_all. Qed.
Print Assumptions C32_cutoff_partial.

(** The histories go on: appends and writes succeed. *)
Theorem C32_progress : forall w off H first T, win_run w off H first T ->
  (exists w', ww_write w = Some w') /\
  (forall now h es, (h < 2 ^ 64)%N -> es <> [] -> Forall went_ok es -> T <= unix now < 2 ^ 63 ->
     ww_idx w + Z.of_nat (length es) < 524286 -> exists w' o, ww_append now w h (off h) es = AppOk w' o).
Proof. exact run_progress. Qed.
Print Assumptions C32_progress.

(** C32 is false: the topic appended first lies in block 0; its offset 0 means
    "no block", so the next sync begins a new block and the first one is lost. *)
Theorem C32_refuted : exists w1 o1 w2 w3 o2 w4,
  ww_append 0 (newWindowWriter []) 1 0 [ea] = AppOk w1 o1 /\ ww_write w1 = Some w2 /\
  tw_lookup 0 [] (ww_file w2) 1 o1 0 10 = Some [ea] /\
  ww_append 0 (ww_reset w2) 1 o1 [eb] = AppOk w3 o2 /\ ww_write w3 = Some w4 /\
  tw_lookup 0 [] (ww_file w4) 1 o2 0 10 = Some [eb].
Proof. exact first_loses. Qed.
Print Assumptions C32_refuted.

(** C31 is false: of a topic with more than 335 messages the iterator that Open
    uses hands on the oldest block only, from which no newer one is reached. *)
Theorem C31_refuted : forall n, 335 < Z.of_nat n < 500000 -> exists w off H w',
  win_run w off H (Some 1%N) 0 /\ ww_write w = Some w' /\ length (H 2%N) = n /\
  (forall now, tw_lookup now [] (ww_file w') 2 (off 2%N) 0 (Z.of_nat n) = Some (rev (map fst (H 2%N)))) /\
  (forall now s o r, In (s, 2%N, o) (blockIterator (ww_file w')) ->
     tw_lookup now [] (ww_file w') 2 o 0 (Z.of_nat n) = Some r -> (length r <= 335)%nat).
Proof. exact reopen_loses. Qed.
Print Assumptions C31_refuted.

(** C22, second half, is false: expired entries use up the limit, ... *)
Theorem C22_hidden_refuted :
  is_expired (w_expiresAt ex) later_now = true /\ is_expired (w_expiresAt ea) later_now = false /\
  forall h off, tw_lookup later_now [[ea; ex]] [] h off 0 1 = Some [].
Proof. exact expired_hides. Qed.
Print Assumptions C22_hidden_refuted.

(** ... or make other messages appear twice. *)
Theorem C22_repeated_refuted : exists w1 o1 w2,
  ww_append 0 (newWindowWriter []) 1 0 [ea; eb; ex] = AppOk w1 o1 /\ ww_write w1 = Some w2 /\
  is_expired (w_expiresAt ex) later_now = true /\
  tw_lookup later_now [] (ww_file w2) 1 o1 0 2 = Some [eb; eb; ea].
Proof. exact expired_repeats. Qed.
Print Assumptions C22_repeated_refuted.

(** C24: the newest ones, newest first, cut to the limit, if nothing has
    expired and the topic has at most one list in memory. *)
Theorem C24_window_partial : forall w off H first T w' h now cutoff limit es,
  win_run w off H first T -> ww_write w = Some w' -> 0 < limit ->
  Forall (fun e => we_live now e = true) es -> Forall (fun x : wentry * Z => we_live now (fst x) = true) (H h) ->
  exists lost old kept, H h = lost ++ old ++ kept /\ (lost = [] \/ first = Some h) /\
    Forall (fun x : wentry * Z => snd x < cutoff) old /\
    tw_lookup now [es] (ww_file w') h (off h) cutoff limit
    = Some (firstn (Z.to_nat limit) (rev es ++ rev (map fst kept))).
Proof. exact lookup_newest. Qed.
Print Assumptions C24_window_partial.

(** C24 is false with two lists in memory: the order of the map decides. *)
Theorem C24_lists_refuted : exists e1 e2 e3 e4 : wentry,
  (w_seq e1 < w_seq e2 < w_seq e3)%N /\ (w_seq e3 < w_seq e4)%N /\
  Forall (fun e => w_expiresAt e = 0%N) [e1; e2; e3; e4] /\
  tw_lookup 0 [[e1; e2]; [e3; e4]] [] 1 0 0 2 = Some [e2; e1] /\
  tw_lookup 0 [[e3; e4]; [e1; e2]] [] 1 0 0 2 = Some [e4; e3].
Proof. exact older_first. Qed.
Print Assumptions C24_lists_refuted.

(** A history as the theorems ask for: two topics, the second with 400 entries
    (two blocks). *)
Example run_example : exists w off H w', win_run w off H (Some 1%N) 0 /\ ww_write w = Some w' /\ map fst (H 2%N) = many 400.
Proof. apply two_topics. now split. Qed.
