(** Properties of subscriptions kept in the database: C94, C95, C96. *)
From Verif Require Import M_Bytes M_Bloom M_MemDB M_Window M_DB M_SubStore S_Trie S_MemDB S_DB S_Session S_Only S_SubStore
  P_MemEx P_DBEx P_SessionEx P_SubStore P_SubFind P_SubEx.
Open Scope N_scope.

(** C94: in a new database, whatever topics are used, before the first Sync: a
    publication is sent only to subscribers of its contract that have not
    unsubscribed, provided no message is stored under the contract where
    subscriptions are filed. *)
Theorem C94_partial : forall c gens t ord ops w outs, setting_ok c gens -> (0 <= t)%Z -> N.of_nat (length ops) < 2 ^ 62 ->
  store_run c (store_start c gens t ord) ops = (w, outs) -> calm t ops -> apart ops -> reaches_only [] ops outs.
Proof. exact store_only. Qed.
Print Assumptions C94_partial.

(** Without that, a message of one contract is taken for a subscription of another:
    connection 77, which never subscribed, is sent the publication ... *)
Theorem C94_refuted : exists c gens t k k' topic payload conn outs, setting_ok c gens /\ k <> k' /\
  snd (store_run c (store_start c gens t (fun m => m)) [TMsg t k' topic payload 0; TFind t gx k topic]) = outs /\
  exists f, nth_error outs 1 = Some (TFound f) /\ In conn (map conn_of (served f)).
Proof.
  exists dx, [ex_gen], T0, kA, kB, topA, [0; 77; 0; 0; 0; 0; 0; 0; 0], 77. eexists. split; [exact dx_ok|]. split; [discriminate|]. split; [reflexivity|].
  exists (FSent [(0, 77, 0)]). split; [vm_compute; reflexivity|now left].
Qed.
Print Assumptions C94_refuted.
(** ... or ends the server, at the next publication of the other contract. *)
Theorem C94_dies_refuted : exists c gens t k k' topic payload conn, setting_ok c gens /\ k <> k' /\
  nth_error (snd (store_run c (store_start c gens t (fun m => m)) [TSub t k topic 0 conn 0; TMsg t k' topic payload 0; TFind t gx k topic])) 2 = Some (TFound (FDied [])).
Proof.
  exists dx, [ex_gen], T0, kA, kB, topA, [0; 77; 0; 0; 0; 0; 0; 0], 5. split; [exact dx_ok|]. split; [discriminate|]. vm_compute. reflexivity.
Qed.
Print Assumptions C94_dies_refuted.

(** After a restart publications are still sent to the connection numbers of the
    process before. *)
Theorem C94_restart_refuted : exists c gens t k topic conn id, setting_ok c gens /\
  snd (store_run c (store_start c gens t (fun m => m)) [TSub t k topic 0 conn 0; TRestart gens (t + 10) (fun m => m); TFind (t + 10) gx k topic]) =
  [TSubbed id (ORes DOk); TDone (OOpened true); TFound (FSent [(0, conn, 0)])].
Proof. exists dx, [ex_gen], T0, kA, topB, 5, (id_x T0 1). split; [exact dx_ok|exact after_restart]. Qed.
Print Assumptions C94_restart_refuted.

(** C95: before the first Sync, a connection whose subscription has been removed is
    sent no publication any more. *)
Theorem C95_partial : forall c gens t ord ops1 k id topic ops2 w outs1 outs2 conn, setting_ok c gens -> (0 <= t)%Z ->
  N.of_nat (length (ops1 ++ TUnsub k id topic :: ops2)) < 2 ^ 62 ->
  store_run c (store_start c gens t ord) (ops1 ++ TUnsub k id topic :: ops2) = (w, outs1 ++ TDone (ORes DOk) :: outs2) -> length outs1 = length ops1 ->
  calm t (ops1 ++ TUnsub k id topic :: ops2) -> apart (ops1 ++ TUnsub k id topic :: ops2) ->
  (forall now k' topic' mode delay id' r, In (TSub now k' topic' mode conn delay, TSubbed id' r) (combine ops1 outs1) -> id' = id) ->
  (forall now k' topic' mode delay, ~ In (TSub now k' topic' mode conn delay) ops2) ->
  ~ conn_served conn ops2 outs2.
Proof. exact unsubscribed. Qed.
Print Assumptions C95_partial.

(** After a Sync, it still is. *)
Theorem C95_refuted : exists c gens t ops id topic k conn outs f, setting_ok c gens /\
  snd (store_run c (store_start c gens t (fun m => m)) (ops ++ [TUnsub k id topic; TFind (t + 10) gx k topic])) = outs ++ [TDone (ORes DOk); TFound f] /\
  nth_error (combine ops outs) 0 = Some (TSub t k topic 0 conn 0, TSubbed id (ORes DOk)) /\ length outs = length ops /\ In conn (map conn_of (served f)).
Proof.
  exists dx, [ex_gen], T0, ([TSub T0 kA topB 0 5 0; TSub T0 kA topA 0 6 0] ++ sflush (T0 + 10)), (id_x T0 1), topB, kA, 5,
    [TSubbed (id_x T0 1) (ORes DOk); TSubbed (id_x T0 2) (ORes DOk); TDone ODone; TDone ODone; TDone (ORes DOk)], (FSent [(0, 5, 0)]).
  split; [exact dx_ok|]. split; [exact stays|]. split; [reflexivity|]. split; [reflexivity|now left].
Qed.
Print Assumptions C95_refuted.
(** And one that leaves before takes the others along. *)
Theorem C95_others_refuted : exists c gens t k topic conn conn' id id', setting_ok c gens /\ conn <> conn' /\
  snd (store_run c (store_start c gens t (fun m => m)) [TSub t k topic 0 conn 0; TSub t k topic 0 conn' 0; TFind t gx k topic; TUnsub k id topic; TFind t gx k topic]) =
  [TSubbed id (ORes DOk); TSubbed id' (ORes DOk); TFound (FSent [(0, conn', 0); (0, conn, 0)]); TDone (ORes DOk); TFound FFailed].
Proof.
  exists dx, [ex_gen], T0, kA, topA, 5, 6, (id_x T0 1), (id_x T0 2). split; [exact dx_ok|]. split; [discriminate|exact others].
Qed.
Print Assumptions C95_others_refuted.

(** A run for C94 and C95: three subscribers in two contracts, of which one with a
    wildcard leaves. *)
Example C94_C95_example : setting_ok dx [ex_gen] /\ calm T0 (sub_ops1 ++ TUnsub kA (id_x T0 2) topS :: sub_ops2) /\ apart (sub_ops1 ++ TUnsub kA (id_x T0 2) topS :: sub_ops2) /\
  snd (store_run dx (store_start dx [ex_gen] T0 (fun m => m)) (sub_ops1 ++ TUnsub kA (id_x T0 2) topS :: sub_ops2)) = sub_outs1 ++ TDone (ORes DOk) :: sub_outs2 /\
  nth_error sub_outs1 4 = Some (TFound (FSent [(1, 6, 9); (0, 5, 0)])).
Proof. split; [exact dx_ok|]. split; [exact sub_calm|]. split; [exact sub_apart|]. split; [exact sub_runs|reflexivity]. Qed.

(** C96: as long as nobody unsubscribes, every publication is sent to exactly the
    subscribers of its contract whose topic matches, whatever else is stored. *)
Theorem C96_found_partial : forall c gens t ord ops, setting_ok c gens -> (0 <= t)%Z -> session_ok c t [] (map as_sop ops) -> N.of_nat (length ops) <= 130000 ->
  Forall sub_fits ops -> apart (map as_store ops) ->
  exists first w outs, store_run c (store_start c gens t ord) (map as_store ops) = (w, outs) /\
    (Forall (fun o => psyncs o = false) ops -> first = None) /\ reaches first [] ops outs.
Proof. exact store_found. Qed.
Print Assumptions C96_found_partial.
Example C96_example : setting_ok dx [ex_gen] /\ session_ok dx T0 [] (map as_sop psess) /\ Forall sub_fits psess /\ apart (map as_store psess) /\
  snd (store_run dx (store_start dx [ex_gen] T0 (fun m => m)) (map as_store psess)) = psess_outs /\
  nth_error psess_outs 16 = Some (TFound (FSent [(0, 10, 0); (1, 6, 300); (0, 5, 0)])).
Proof.
  split; [exact dx_ok|]. split; [exact psess_ok|]. split; [exact psess_fits|]. split; [exact psess_apart|]. split; [exact psess_run|reflexivity].
Qed.

(** More subscribers than the default limit of a query, 1000: in every state, some
    of them are left out. *)
Theorem C96_limit_refuted : forall c s now g k names w f conns, (0 <= c_def c)%Z -> (forall x, (Z.of_nat (length x) <= g_cap g x)%Z) -> names <> [] -> Forall name_ok names ->
  store_step c (Up s) (TFind now g k (text (static names))) = (w, TFound f) -> NoDup conns -> (c_def c < Z.of_nat (length conns))%Z ->
  exists conn, In conn conns /\ ~ In conn (map conn_of (served f)).
Proof. exact some_left_out. Qed.
Print Assumptions C96_limit_refuted.
Example C96_limit_example : c_def dx = 1000%Z /\ exists s w, store_start dx [ex_gen] T0 (fun m => m) = Up s /\
  store_step dx (Up s) (TFind T0 gx kA (text (static [nA; nB]))) = (w, TFound (FSent [])).
Proof.
  split; [reflexivity|]. destruct (start_up dx [ex_gen] T0 (fun m => m) dx_ok) as [_ [s E]]; [vm_compute; discriminate|].
  assert (H : snd (store_step dx (store_start dx [ex_gen] T0 (fun m => m)) (TFind T0 gx kA (text (static [nA; nB])))) = TFound (FSent [])) by (vm_compute; reflexivity).
  rewrite E in H. destruct (store_step dx (Up s) (TFind T0 gx kA (text (static [nA; nB])))) as [w x] eqn:Ew. cbn [snd] in H. subst x.
  exists s, w. split; [exact E|exact Ew].
Qed.

(** Two syncs take away subscribers of the first topic; and options in the topic of a
    publication choose among them: "last=2" in it, and the oldest is left out. *)
Theorem C96_sync_refuted : exists c gens t ops k topic conn outs outs' f f', setting_ok c gens /\
  Forall (fun o => match o with TUnsub _ _ _ => False | _ => True end) ops /\
  snd (store_run c (store_start c gens t (fun m => m)) ops) = TSubbed (id_x t 1) (ORes DOk) :: outs ++ TFound f :: outs' ++ [TFound f'] /\
  nth_error ops 0 = Some (TSub t k topic 0 conn 0) /\ In conn (map conn_of (served f)) /\ ~ In conn (map conn_of (served f')) /\
  last ops TCommit = TFind (t + 20) gx k topic.
Proof.
  exists dx, [ex_gen], T0, ([TSub T0 kA topA 0 5 0; TSub T0 kA topA 0 6 0] ++ sflush (T0 + 10) ++ [sfind (T0 + 10) kA topA; TSub (T0 + 10) kA topA 0 8 0] ++ sflush (T0 + 20) ++ [sfind (T0 + 20) kA topA]),
    kA, topA, 5, [TSubbed (id_x T0 2) (ORes DOk); TDone ODone; TDone ODone; TDone (ORes DOk)], [TSubbed (id_x (T0 + 10) 3) (ORes DOk); TDone ODone; TDone ODone; TDone (ORes DOk)],
    (FSent [(0, 6, 0); (0, 5, 0)]), (FSent [(0, 8, 0)]).
  split; [exact dx_ok|]. split; [repeat constructor|]. split; [exact lost_at_sync|]. split; [reflexivity|]. split; [right; now left|]. split; [|reflexivity].
  intros [H|[]]. discriminate H.
Qed.
Print Assumptions C96_sync_refuted.
Theorem C96_options_refuted : exists c gens t k topic topic' conn outs f f', setting_ok c gens /\ topic' = topic ++ [63; 108; 97; 115; 116; 61; 50] /\
  snd (store_run c (store_start c gens t (fun m => m)) [TSub t k topic 0 conn 0; TSub t k topic 0 6 0; TSub t k topic 0 8 0; TFind t gx k topic; TFind t gx k topic']) = outs ++ [TFound f; TFound f'] /\
  In conn (map conn_of (served f)) /\ ~ In conn (map conn_of (served f')).
Proof.
  exists dx, [ex_gen], T0, kA, topA, topL, 5. eexists [TSubbed _ _; TSubbed _ _; TSubbed _ _]. eexists. eexists.
  split; [exact dx_ok|]. split; [reflexivity|]. split; [exact only_last|]. split; [right; right; now left|]. intros [H|[H|[]]]; discriminate H.
Qed.
Print Assumptions C96_options_refuted.
