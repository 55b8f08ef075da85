(** Properties C27, C60, C64, C65: what a Get may give at most. *)
From Verif Require Import M_Bytes M_MemDB M_DB S_MemDB S_DB S_Session S_Only P_MemEx P_DBEx P_SessionEx P_Only P_OnlyEx.
Open Scope Z_scope.

(** C64: in a new database, whatever topics and contracts are used, and before
    the first Sync: a Get gives only payloads of messages that were put under its
    contract, were not deleted and have not expired. *)
Theorem C64_only_partial : forall c gens t ord immut enc ops outs, setting_ok c gens -> 0 <= t -> (N.of_nat (length ops) < 2 ^ 64 - 1)%N ->
  snd (drun c (Down no_files) (DoOpen gens t ord immut enc :: ops)) = OOpened true :: outs -> quiet t [] ops outs -> only [] ops outs.
Proof. exact run_from_open. Qed.
Print Assumptions C64_only_partial.

(** C27: once DeleteEntry has succeeded, no Get gives the payload of the deleted
    message again, before the first Sync. *)
Theorem C27_deleted_partial : forall c gens t ord immut enc ops1 e ops2 outs1 outs2, setting_ok c gens -> 0 <= t ->
  (N.of_nat (length (ops1 ++ DoDelete e :: ops2)) < 2 ^ 64 - 1)%N ->
  snd (drun c (Down no_files) (DoOpen gens t ord immut enc :: ops1 ++ DoDelete e :: ops2)) = OOpened true :: outs1 ++ ORes DOk :: outs2 ->
  length outs1 = length ops1 -> quiet t [] (ops1 ++ DoDelete e :: ops2) (outs1 ++ ORes DOk :: outs2) -> u_id e <> None ->
  forall p, (forall now e', In (DoPut now e') ops1 -> u_payload e' = p -> u_id e' = u_id e) -> (forall now e', In (DoPut now e') ops2 -> u_payload e' <> p) ->
  ~ given p ops2 outs2.
Proof. exact deleted_gone. Qed.
Print Assumptions C27_deleted_partial.

(** Two contracts whose topics share a number, an expired and a deleted
    message. *)
Example C64_example : setting_ok dx [ex_gen] /\ quiet T0 [] (only_ops1 ++ DoDelete only_del :: only_ops2) (only_outs1 ++ ORes DOk :: only_outs2) /\
  run_x (open_x T0 :: only_ops1 ++ DoDelete only_del :: only_ops2) = OOpened true :: only_outs1 ++ ORes DOk :: only_outs2.
Proof. split; [exact dx_ok|]. split; [exact only_quiet|exact only_runs]. Qed.

(** C64 after a deletion and two Syncs: a Get of contract 0 gives a payload that
    nobody put, and its end is what another contract put; nothing put under
    contract 0 has such bytes. *)
Theorem C64_refuted : exists c gens t ops outs now k secret e p, setting_ok c gens /\
  snd (drun c (Down no_files) (DoOpen gens t (fun m => m) false false :: ops ++ [get_x now topA])) = outs ++ [OGot (QItems [p])] /\
  In (DoPut (t + 10) e) ops /\ u_contract e = k /\ k <> 0%N /\ u_payload e = secret /\ skipn 158 p = firstn 42 secret /\ firstn 42 secret = repeat 6%N 42 /\
  (forall now' e', In (DoPut now' e') ops -> u_payload e' <> p /\ (put_owner e' = owner 0 -> ~ In 6%N (u_payload e'))).
Proof.
  exists dy, [ex_gen], T0, leak_ops, leak_outs, (T0 + 20), k1, (repeat 6%N 142), (mkUE None topC (repeat 6%N 142) 0 k1 false None 0), leaked.
  split; [exact dy_ok|]. split; [exact leak_run|]. split; [unfold leak_ops; cbn; tauto|]. split; [reflexivity|]. split; [discriminate|].
  split; [reflexivity|]. split; [exact leak_tail|]. split; [reflexivity|exact leak_unput].
Qed.
Print Assumptions C64_refuted.

(** C60: there the second contract's message was accepted, and a Get of its own
    topic right after gives nothing. *)
Theorem C60_clash_refuted : exists c gens t k topic p ops, setting_ok c gens /\
  snd (drun c (Down no_files) (DoOpen gens t (fun m => m) false false :: ops ++ [DoPut t (mkUE None topic p 0 k false None 0); DoGet t gx (mkQ topic k 0 0 [])])) =
    [OOpened true; ORes DOk; ORes DOk; OGot (QItems [])] /\ length ops = 1%nat.
Proof.
  exists dx, [ex_gen], T0, k2, w2, (pay 2), [put_k T0 k1 None 0 w1 (pay 1)]. split; [exact dx_ok|]. split; [vm_compute; reflexivity|reflexivity].
Qed.
Print Assumptions C60_clash_refuted.

(** C65: deleting changes no file, nor what is kept in memory about topics ... *)
Theorem C65_files_partial : forall c s e s' r, delete_entry c s e = (s', r) ->
  d_index s' = d_index s /\ d_data s' = d_data s /\ d_win s' = d_win s /\ d_info s' = d_info s /\ d_lfile s' = d_lfile s /\ d_tw s' = d_tw s /\ d_trie s' = d_trie s.
Proof. exact delete_files. Qed.
Print Assumptions C65_files_partial.

(** ... but the next Sync can write over another message: of the list of
    operations, only the message of "a.c" is deleted, and "a.b" changes. *)
Theorem C65_refuted : exists c gens t ops1 e ops2 outs p p', setting_ok c gens /\
  u_topic e = topB /\ Forall (fun o => match o with DoPut _ e' => u_topic e' <> topA | DoDelete _ => False | _ => True end) ops2 /\
  snd (drun c (Down no_files) (DoOpen gens t (fun m => m) false false :: ops1 ++ [get_x (t + 10) topA; DoDelete e] ++ ops2 ++ [get_x (t + 20) topA])) =
    outs ++ [OGot (QItems [p'])] /\
  nth 7 outs ONone = OGot (QItems [p]) /\ length ops1 = 6%nat /\ p <> p'.
Proof.
  exists dy, [ex_gen], T0, corrupt_ops1, corrupt_del, corrupt_ops2, corrupt_outs, (repeat 7%N 200), corrupted.
  split; [exact dy_ok|]. split; [reflexivity|]. split; [exact corrupt_other|]. split; [exact corrupt_run|]. split; [reflexivity|]. split; [reflexivity|exact corrupt_changed].
Qed.
Print Assumptions C65_refuted.
