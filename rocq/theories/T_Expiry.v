(** Properties C68, C69, C70: messages that have expired are removed in the background. *)
From Verif Require Import M_Consistent.
From Verif Require Import M_Bytes M_Query M_Lease S_Lease P_Lease M_WinBlock M_Window M_Get M_DB S_DB P_DBEx P_OnlyEx M_Expiry S_Expiry P_Expiry P_ExpiryEx.
From Coq Require Import Permutation.
Open Scope Z_scope.

(** C68: what the job takes was met by an earlier Get, expired at that time ... *)
Theorem C68_expired : forall c find w0 on ops w b outs now e, xrun c find w0 (newExpiry on) ops = (w, b, outs) ->
  In e (snd (get_expired now (c_def c) b)) -> met_in c find w0 (newExpiry on) ops e /\ (w_expiresAt e < u32z (unix now))%N.
Proof. exact taken_origin. Qed.
Print Assumptions C68_expired.

(** ... and the job changes no file and no answer of a Get. *)
Theorem C68_answers : forall def now s b s' b', expire_entries def now s b = Some (s', b') ->
  on_disk s' = on_disk s /\ forall c t g q, snd (db_get c s' t g q) = snd (db_get c s t g q).
Proof. exact expire_answers. Qed.
Print Assumptions C68_answers.

Example C68_example : at_job (fun s b => (snd (get_expired T1 (c_def dy) b), read_ranges s [reuse_entry], l_blocks (d_lease s), l_size (d_lease s),
    option_map (fun x => (d_count (fst x), ranges (d_lease (fst x)))) (expire_entries (c_def dy) T1 s b))) =
  Some ([reuse_entry], [(173, 185%N)], l_blocks (newLease (c_find dy) (c_min dy)), 0, Some (1%N, [(173, 185%N)])).
Proof. exact job_takes. Qed.

(** C69: whatever else Gets meet and jobs take, an expired message of the first
    part of the bucket that a Get met is taken by a job that runs a minute or more
    after the expiry of all that was met, unless that job takes more than the
    default limit. *)
Theorem C69_taken_partial : forall find max ops1 es ops2 now e,
  In e es -> find (w_expiresAt e) = 0%nat -> 0 <= unix now < 2 ^ 32 ->
  met_before now (ops1 ++ BMeet es :: ops2) ->
  In e (snd (brun find max (newExpiry true) (ops1 ++ BMeet es :: ops2 ++ [BTake now]))) \/
  max < Z.of_nat (length (snd (get_expired now max (fst (brun find max (newExpiry true) (ops1 ++ BMeet es :: ops2)))))).
Proof. exact brun_complete. Qed.
Print Assumptions C69_taken_partial.

Example C69_example : snd (brun expiry_shard 25 (newExpiry true) [BMeet [mkWE 1 1700000000; mkWE 2 E1]; BTake T0; BMeet [mkWE 3 E1]; BTake T1]) =
    [mkWE 2 E1; mkWE 3 E1] /\
  met_before T1 [BMeet [mkWE 1 1700000000; mkWE 2 E1]; BTake T0; BMeet [mkWE 3 E1]] /\ expiry_shard E1 = 0%nat.
Proof.
  split; [vm_compute; reflexivity|]. split; [|vm_compute; reflexivity].
  intros es e Hes H. repeat (destruct Hes as [Hes|Hes]; [inversion Hes; subst; repeat (destruct H as [<-|H]; [vm_compute; discriminate|]); destruct H|]). destruct Hes.
Qed.

(** With the 100000 parts of the bucket there are times of expiry whose messages
    no job ever takes. *)
Theorem C69_refuted : exists t c, initConsistent 100000 100000 = Some c /\
  (forall key fuel, findBlock c key fuel = Found (N.of_nat (expiry_shard key))) /\
  forall max on ops e, In e (snd (brun expiry_shard max (newExpiry on) ops)) -> w_expiresAt e <> t.
Proof. exact never_taken. Qed.
Print Assumptions C69_refuted.

(** C70: if the space of each message taken is in use and taken once, the job
    does not panic, releases exactly that space, and the rest stays in use. *)
Theorem C70_once_partial : forall def now s b b' es live rest, get_expired now def b = (b', es) ->
  history (d_lease s) live -> Permutation live (read_ranges s es ++ rest) ->
  exists s' live', expire_entries def now s b = Some (s', b') /\ history (d_lease s') live' /\ Permutation live' rest /\
    forall x, is_free (ranges (d_lease s')) x <-> is_free (ranges (d_lease s)) x \/ exists r, In r (read_ranges s es) /\ in_range x r.
Proof. exact expire_once_job. Qed.
Print Assumptions C70_once_partial.

Example C70_example : history (newLease (c_find dy) (c_min dy)) [(0, 173%N); (173, 185%N)].
Proof. exact job_history. Qed.

(** A message that a later Get meets again is released again, although its space
    may belong to another by then: the message of "a.c" turns into that of "a.d". *)
Theorem C70_refuted : exists ops1 ops2 outs1 outs2 p p',
  xouts (ops1 ++ [XDo (get_x (T1 + 10) topB)]) = outs1 ++ [OGot (QItems [p])] /\
  xouts (ops1 ++ XDo (get_x (T1 + 10) topB) :: ops2 ++ [XDo (get_x (T1 + 20) topB)]) = outs2 ++ [OGot (QItems [p'])] /\
  Forall (fun o => match o with XDo (DoPut _ e) => u_topic e <> topB | XDo (DoDelete _) | XDo (DoOpen _ _ _ _ _) => False | _ => True end) ops2 /\ p <> p'.
Proof. exact reused. Qed.
Print Assumptions C70_refuted.
