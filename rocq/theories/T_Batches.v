(** Properties of sessions with batches: C117. *)
From Verif Require Import M_Bytes M_Bloom M_MemDB M_Window M_DB S_MemDB S_DB S_Session S_Batches P_Batches3 P_Handed P_MemEx P_DBEx P_SessionEx P_BatchesEx.
Open Scope Z_scope.

(** C117: after Open of a new database, whatever is put singly or in batches, read
    and done in the background, without Sync: every batch succeeds, and every Get
    gives the payloads of exactly the messages put so far that the topic matches
    and that have not expired, the newest first.  A single put has to wait for a
    slot that begins after the last batch (C60_refuted). *)
Theorem C117_session_partial : forall c gens t ord immut enc ops, setting_ok c gens -> 0 <= t ->
  batches_ok c t (trunc t (c_dur (c_mem c))) 0 [] ops -> (N.of_nat (all_steps ops) <= 130000)%N ->
  Forall (fun o => syncs_b o = false) ops ->
  exists outs, snd (drun c (Down no_files) (DoOpen gens t ord immut enc :: map as_dop_b ops)) = OOpened true :: outs /\ answered_b None [] ops outs.
Proof. exact batches_unsynced. Qed.
Print Assumptions C117_session_partial.

(** The same with Sync at any point, for all topics but one (C32); and of that
    one too, every Get gives only payloads of its own messages. *)
Theorem C117_synced_partial : forall c gens t ord immut enc ops, setting_ok c gens -> 0 <= t ->
  batches_ok c t (trunc t (c_dur (c_mem c))) 0 [] ops -> (N.of_nat (all_steps ops) <= 130000)%N ->
  exists first outs, snd (drun c (Down no_files) (DoOpen gens t ord immut enc :: map as_dop_b ops)) = OOpened true :: outs /\
    (Forall (fun o => syncs_b o = false) ops -> first = None) /\ answered_b first [] ops outs.
Proof. exact batches. Qed.
Print Assumptions C117_synced_partial.

(** Three batches, one of them written in two parts and one empty, single puts
    before and between them, two syncs. *)
Example C117_example : setting_ok dx [ex_gen] /\ batches_ok dx T0 (trunc T0 (c_dur (c_mem dx))) 0 [] bsess /\
  snd (drun dx (Down no_files) (DoOpen [ex_gen] T0 (fun m => m) false false :: map as_dop_b bsess)) = bsess_outs.
Proof. split; [exact dx_ok|]. split; [exact bsess_ok|exact bsess_run]. Qed.

(** A batch of puts that is committed leaves nothing behind: every block that it
    made in memory and that has something in it is handed to the next Sync,
    whatever the state before and however often its function called Write. *)
Theorem C117_handed : forall c s now pick ops now1 now2 p1 p2 s', Forall (fun o => match o with BDelete _ _ => False | _ => True end) ops ->
  db_batch_run c s now pick ops false now1 now2 p1 p2 = Some s' ->
  forall t, M_MemDB.live (d_mem s') t <> None -> M_MemDB.live (d_mem s) t <> None \/ In t (m_released (d_mem s')) \/ block_keys (d_mem s') t = [].
Proof. exact batch_handed. Qed.
Print Assumptions C117_handed.

(** Two messages, a Write, and two more: two blocks with two messages each, and
    two empty ones. *)
Example C117_handed_example :
  match drun dx (Down no_files) [DoOpen [ex_gen] T0 (fun m => m) false false; as_dop_b (nth 2 bsess (COne SCommit))] with
  | (Up s, outs) => outs = [OOpened true; S_DB.ORes DOk] /\ map (fun t => t - T0) (m_released (d_mem s)) = [5; 3; 1] /\
      map (fun t => length (block_keys (d_mem s) t)) (m_released (d_mem s)) = [0; 2; 2]%nat /\
      M_MemDB.live (d_mem s) (T0 + 6) <> None /\ block_keys (d_mem s) (T0 + 6) = []
  | _ => False
  end.
Proof. vm_compute. repeat split. discriminate. Qed.
