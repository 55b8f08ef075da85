(** Queries for a span of time over whole sessions, and relays. *)
From Verif Require Import M_Bytes M_Bloom M_MsgId M_Query M_MemDB M_Window M_DB M_SubStore M_Relay S_Trie S_MemDB S_DB S_Session S_Only S_SubStore S_Since S_Relay
  P_MemEx P_DBEx P_SessionEx P_Only P_SubEx P_Since P_Relay P_SinceEx.
From Coq Require Import ZArith Lia.
Open Scope Z_scope.

(** C66 over whole sessions: from Open on, every Get for the last span of time, with
    WithLast or "?last=" in the topic, gives exactly the messages that match, have not
    expired and are not from an earlier second, the newest first; before and after
    Sync.  [first] is the topic that may have lost messages (C32); it gives no wrong
    ones. *)
Theorem C66_session_partial : forall c gens t ord immut enc ops, setting_ok c gens -> 0 <= t -> span_ok c t [] ops -> (N.of_nat (length ops) <= 130000)%N ->
  exists first outs, snd (drun c (Down no_files) (DoOpen gens t ord immut enc :: map (as_ldop c) ops)) = OOpened true :: outs /\
    (Forall (fun o => lsyncs o = false) ops -> first = None) /\ spanned c first [] ops outs.
Proof. exact session_since. Qed.
Print Assumptions C66_session_partial.
(** Messages of the seconds 0, 1 and 3; at 3 s the last 2 s give those of 1 and 3. *)
Example C66_session_example : setting_ok dl [ex_gen] /\ span_ok dl T0 [] lsess /\
  snd (drun dl (Down no_files) (open_x T0 :: map (as_ldop dl) lsess)) = lsess_outs /\
  nth_error lsess_outs 9 = Some (OGot (QItems [pay 3; pay 2; pay 1])) /\ nth_error lsess_outs 10 = Some (OGot (QItems [pay 3; pay 2])) /\
  nth_error lsess_outs 11 = Some (OGot (QItems [pay 3])).
Proof. split; [exact dl_ok|]. split; [exact lsess_ok|]. split; [exact lsess_run|]. repeat split. Qed.

(** C114: a relay sends exactly the stored messages of its contract that match, have
    not expired and are of the span, the newest first. *)
Theorem C114_partial : forall c gens t ord ops, setting_ok c gens -> 0 <= t -> span_ok c t [] (map as_lop ops) -> (N.of_nat (length ops) <= 130000)%N ->
  Forall rel_fits ops -> relays_apart ops ->
  exists first w outs, rel_run c (store_start c gens t ord) (map as_rel ops) = (w, outs) /\
    (Forall (fun o => rel_syncs o = false) ops -> first = None) /\ relays c first [] ops outs.
Proof. exact relays_ok. Qed.
Print Assumptions C114_partial.
Example C114_example : setting_ok dl [ex_gen] /\ span_ok dl T0 [] (map as_lop vsess) /\ Forall rel_fits vsess /\ relays_apart vsess /\
  snd (rel_run dl (store_start dl [ex_gen] T0 (fun m => m)) (map as_rel vsess)) = vsess_outs /\
  nth_error vsess_outs 10 = Some (RSent [(topA, pay 3); (topA, pay 2)]).
Proof. split; [exact dl_ok|]. split; [exact vsess_ok|]. split; [exact vsess_fits|]. split; [exact vsess_apart|]. split; [exact vsess_run|reflexivity]. Qed.

(** A span that is no duration, as "1d", brings back everything however old. *)
Theorem C114_refuted : exists c gens t now last ops outs topic old l, setting_ok c gens /\ c_pd c last = None /\ span_ok c t [] (map as_lop ops) /\
  (exists g k names, In (VRelay now g k names last) ops) /\ In (VDo (PMsg t kA pAB old 0)) ops /\ t + 3000000000 <= now /\
  snd (rel_run c (store_start c gens t (fun m => m)) (map as_rel ops)) = outs ++ [RSent l] /\ In (topic, old) l.
Proof.
  exists dl, [ex_gen], T0, T3, t1d, vsess, (firstn 12 vsess_outs), topA, (pay 1), [(topA, pay 3); (topA, pay 2); (topA, pay 1)].
  split; [exact dl_ok|]. split; [reflexivity|]. split; [exact vsess_ok|]. split; [exists gx, kA, [nA; nB]; unfold vsess; cbn [In]; tauto|].
  split; [right; now left|]. split; [vm_compute; discriminate|]. split; [exact vsess_run|]. right; right; now left.
Qed.
Print Assumptions C114_refuted.
(** And in every state some of more than a thousand messages are left out. *)
Theorem C114_limit_refuted : forall c s now g k names txt d w l payloads, (forall x, Z.of_nat (length x) <= g_cap g x) -> names <> [] -> Forall name_ok names -> txt <> [] -> c_pd c txt = Some d ->
  rel_step c (Up s) (RRelay now g k (text (static names)) txt) = (w, RSent l) -> NoDup payloads -> 1000 < Z.of_nat (length payloads) ->
  exists p, In p payloads /\ ~ In p (map snd l).
Proof. exact some_not_relayed. Qed.
Print Assumptions C114_limit_refuted.
