(** A small configuration and runs of the database. *)
From Verif Require Import M_Bytes M_Hash M_Bloom M_File M_MsgId M_Mac M_Query M_Topic M_Trie M_Wal M_MemDB M_Lease M_Window M_DB S_DB
  P_Mac P_MemEx.
From Coq Require Import Lia ZifyBool ZifyNat ZifyN.
Open Scope Z_scope.

(** In place of snappy: two bytes, then the text. *)
Definition toy_snap (p : bytes) : bytes :=
  match p with [] => [0%N] | _ => (N.of_nat (length p) mod 128)%N :: 0%N :: p end.
Definition toy_unsnap (b : bytes) : option bytes :=
  match b with [] => None | [_] => Some [] | _ :: _ :: p => Some p end.

Definition dx : dcfg :=
  mkDC ex_cfg toy_snap toy_unsnap (mkMac toy_aead (repeat 0%N 24)) (fun _ => None) (fun _ => 0%nat) 0
       defaultQueryLimit maxQueryLimit.
(** Go's choices: lists as they are, capacity equal to the length. *)
Definition gx : gchoice := mkGC (fun l => l) (fun l => l) (fun w => Z.of_nat (length w)).
Definition open_x (now : Z) : dop := DoOpen [ex_gen] now (fun m => m) false false.

Definition topA : bytes := [97; 46; 98]%N.
Definition topB : bytes := [97; 46; 99]%N.
Definition pay (x : N) : bytes := [x; x; x]%N.
Definition put_x (now : Z) (t p : bytes) : dop := DoPut now (newEntry t p).
Definition get_x (now : Z) (t : bytes) : dop := DoGet now gx (newQuery t).
Definition run_x (ops : list dop) : list dout := snd (drun dx (Down no_files) ops).

Definition flush (now : Z) : list dop := [DoTick now None; DoCommit; DoSync now (fun m => m)].

(** A real time, so that cutoffs work: 2023. *)
Definition T0 : Z := 1700000000 * 1000000000.
Definition two (t : Z) (x : N) : list dop := [DoTick t None; put_x t topA (pay x); put_x t topA (pay (x + 1))].
Definition five_blocks : list dop :=
  [open_x T0] ++ two (T0 + 10) 1 ++ two (T0 + 20) 3 ++ two (T0 + 30) 5 ++ two (T0 + 40) 7 ++ two (T0 + 50) 9.

(** Ten messages in five time blocks; asked for the three newest of the last
    minute an hour later. *)
Lemma get_panics :
  snd (drun dx (Down no_files) (five_blocks ++ [DoGet (T0 + 60) gx (mkQ topA 0 10 0 [])]))
  = snd (drun dx (Down no_files) five_blocks) ++ [OGot (QItems (map pay [10; 9; 8; 7; 6; 5; 4; 3; 2; 1]%N))] /\
  snd (drun dx (Down no_files) (five_blocks ++ [DoGet (T0 + 3600 * 1000000000) gx (mkQ topA 0 3 (1700000000 + 3540) [])]))
  = snd (drun dx (Down no_files) five_blocks) ++ [OGot QPanic].
Proof. split; vm_compute; reflexivity. Qed.

Definition del_x (id t : bytes) : dop := DoDelete (mkUE (Some id) t [] 0 0 false None 0).
Definition id_x (t : Z) (n : N) : bytes := newID (unix t) n.
Notation got l := (OGot (QItems (map pay l))).

(** A synced message is deleted: it stays, also after a restart. *)
Definition h_deleted : list dop :=
  [open_x T0; put_x T0 topB (pay 1); put_x T0 topA (pay 2)] ++ flush (T0 + 10) ++
  [del_x (id_x T0 1) topB; get_x (T0 + 10) topB; DoClose; open_x (T0 + 20); get_x (T0 + 20) topB].
Lemma deleted_stays : run_x h_deleted =
  [OOpened true; ORes DOk; ORes DOk; ODone; ODone; ORes DOk; ORes DOk; got [1%N]; ORes DOk; OOpened true; got [1%N]].
Proof. vm_compute. reflexivity. Qed.

(** One that is not yet synced: the whole topic cannot be read any more. *)
Definition h_deleted2 : list dop :=
  [open_x T0; put_x T0 topA (pay 1); put_x T0 topA (pay 2); del_x (id_x T0 1) topA; get_x T0 topA].
Lemma deleted_breaks : run_x h_deleted2 =
  [OOpened true; ORes DOk; ORes DOk; ORes DOk; OGot (QErr [pay 2] XIO)].
Proof. vm_compute. reflexivity. Qed.

(** Count before the sync, and after deleting what does not exist. *)
Lemma count_wrong :
  run_x [open_x T0; put_x T0 topA (pay 1); DoCount] = [OOpened true; ORes DOk; OCount 0] /\
  run_x [open_x T0; put_x T0 topA (pay 1); del_x (id_x T0 7) topA; DoCount] = [OOpened true; ORes DOk; ORes DOk; OCount (2 ^ 64 - 1)].
Proof. split; vm_compute; reflexivity. Qed.

(** The log is on disk, then a crash before the first sync: all is gone and the
    numbers begin again. *)
Definition h_crash : list dop :=
  [open_x T0; put_x T0 topA (pay 1); put_x T0 topA (pay 2); DoTick (T0 + 10) None; DoCommit; DoCrash;
   open_x (T0 + 20); get_x (T0 + 20) topA; DoNewID (T0 + 20)].
Lemma crash_loses : run_x h_crash =
  [OOpened true; ORes DOk; ORes DOk; ODone; ODone; ODone; OOpened true; got []; OId (id_x (T0 + 20) 1)].
Proof. vm_compute. reflexivity. Qed.

(** After one sync the messages survive, but their numbers are handed out once
    more: the new message with number 2 is the old one. *)
Definition h_again : list dop :=
  [open_x T0; put_x T0 topB (pay 9)] ++ flush (T0 + 10) ++
  [put_x (T0 + 10) topA (pay 1); put_x (T0 + 10) topA (pay 2); DoTick (T0 + 20) None; DoCommit; DoCrash; open_x (T0 + 30);
   get_x (T0 + 30) topA; put_x (T0 + 30) topB (pay 7); get_x (T0 + 30) topB] ++ flush (T0 + 40) ++ [get_x (T0 + 40) topB; get_x (T0 + 40) topA].
Lemma numbers_again : handed_all dx (Down no_files) h_again = [1; 2; 3; 2]%N.
Proof. vm_compute. reflexivity. Qed.
Lemma again_loses : run_x h_again =
  [OOpened true; ORes DOk; ODone; ODone; ORes DOk; ORes DOk; ORes DOk; ODone; ODone; ODone; OOpened true;
   got [2; 1]%N; ORes DOk; got [7; 9]%N; ODone; ODone; ORes DOk; got [9]%N; got [2; 1]%N].
Proof. vm_compute. reflexivity. Qed.

(** Clean restart. *)
Definition h_restart : list dop :=
  [open_x T0; put_x T0 topB (pay 9); put_x T0 topA (pay 1); put_x T0 topA (pay 2); DoClose; open_x (T0 + 20);
   get_x (T0 + 20) topA; get_x (T0 + 20) topB; DoNewID (T0 + 20)].
Lemma restart_works : run_x h_restart =
  [OOpened true; ORes DOk; ORes DOk; ORes DOk; ORes DOk; OOpened true; got [2; 1]%N; got [9]%N; OId (id_x (T0 + 20) 4)].
Proof. vm_compute. reflexivity. Qed.

(** The first topic of the database loses its messages at the second sync. *)
Definition h_first : list dop :=
  [open_x T0; put_x T0 topA (pay 1); put_x T0 topA (pay 2)] ++ flush (T0 + 10) ++ [get_x (T0 + 10) topA; put_x (T0 + 10) topA (pay 3); get_x (T0 + 10) topA] ++
  flush (T0 + 20) ++ [get_x (T0 + 20) topA].
Lemma first_topic_loses : run_x h_first =
  [OOpened true; ORes DOk; ORes DOk; ODone; ODone; ORes DOk; got [2; 1]%N; ORes DOk; got [3; 2; 1]%N; ODone; ODone; ORes DOk; got [3]%N].
Proof. vm_compute. reflexivity. Qed.

(** A batch function that returns an error. *)
Definition bput_x (t : bytes) (p : bytes) : bop := BPut T0 (newEntry t p).
Lemma failed_batch : run_x [open_x T0; DoBatch T0 None [bput_x topA (pay 1)] true T0 T0 None None] = [OOpened true; ORes DPanic].
Proof. vm_compute. reflexivity. Qed.
Lemma good_batch :
  run_x [open_x T0; put_x T0 topA (pay 1); DoBatch (T0 + 5) None [bput_x topA (pay 2); bput_x topB (pay 3)] false (T0 + 6) (T0 + 7) None None;
         get_x (T0 + 8) topA; get_x (T0 + 8) topB]
  = [OOpened true; ORes DOk; ORes DOk; got [2; 1]%N; got [3]%N].
Proof. vm_compute. reflexivity. Qed.
(** A put after a batch, in the same second, cannot be read. *)
Lemma put_after_batch :
  run_x [open_x T0; DoBatch (T0 + 5) None [bput_x topA (pay 2)] false (T0 + 6) (T0 + 7) None None;
         put_x (T0 + 8) topA (pay 4); get_x (T0 + 8) topA]
  = [OOpened true; ORes DOk; ORes DOk; OGot (QErr [] XIO)].
Proof. vm_compute. reflexivity. Qed.

(** A one-byte payload: snappy makes three bytes of it. *)
Lemma short_payload : run_x [open_x T0; put_x T0 topA [65%N]] = [OOpened true; ORes DPanic].
Proof. vm_compute. reflexivity. Qed.
(** Deleting in a batch. *)
Lemma batch_delete : run_x [open_x T0; put_x T0 topA (pay 1);
    DoBatch T0 None [BDelete T0 (mkUE (Some (id_x T0 1)) topA [] 0 0 false None 0)] false T0 T0 None None] = [OOpened true; ORes DOk; ORes DPanic].
Proof. vm_compute. reflexivity. Qed.

(** One Query used twice: every message twice. *)
Definition state_x (ops : list dop) : db :=
  match fst (drun dx (Down no_files) ops) with
  | Up s => s
  | Down _ => mkDB (mem_empty [] []) [] newTrie [] [] [] [] [] (newLease (fun _ => 0%nat) 0) 0 0 0 0 false true
  end.
Definition s_one : db := state_x [open_x T0; put_x T0 topA (pay 1)].
Lemma query_twice :
  let '(s1, q1, r1) := db_get dx s_one T0 gx (newQuery topA) in
  let '(s2, q2, r2) := db_get dx s1 T0 gx q1 in
  r1 = QItems [pay 1] /\ r2 = QItems [pay 1; pay 1].
Proof. vm_compute. now split. Qed.

(** One identifier used for two puts: the second value, twice. *)
Definition put_id (id t p : bytes) : dop := DoPut T0 (mkUE (Some id) t p 0 0 false None 0).
Lemma same_id : run_x ([open_x T0; DoNewID T0; put_id (id_x T0 1) topA (pay 1); put_id (id_x T0 1) topA (pay 2); get_x T0 topA])
  = [OOpened true; OId (id_x T0 1); ORes DOk; ORes DOk; got [2; 2]%N].
Proof. vm_compute. reflexivity. Qed.

(** One Entry used for two topics: the second message goes to the first topic. *)
Lemma entry_twice :
  let '(s1, e1, r1) := put_entry dx (state_x [open_x T0]) T0 (newEntry topA (pay 1)) in
  let '(s2, e2, r2) := put_entry dx s1 T0 (mkUE (u_id e1) topB (pay 2) (u_expires e1) (u_contract e1) (u_encrypt e1) (u_hash e1) (u_tsize e1)) in
  r1 = DOk /\ r2 = DOk /\
  snd (db_get dx s2 T0 gx (newQuery topA)) = QItems [pay 2; pay 1] /\
  snd (db_get dx s2 T0 gx (newQuery topB)) = QItems [].
Proof. vm_compute. now repeat split. Qed.

(** Crash before the first sync, then a put: no sync succeeds any more. *)
Definition h_stuck : list dop :=
  [open_x T0; put_x T0 topA (pay 1); put_x T0 topB (pay 2); DoTick (T0 + 10) None; DoCommit; DoCrash; open_x (T0 + 20);
   put_x (T0 + 20) topA (pay 3)] ++ flush (T0 + 30) ++ [DoCount; put_x (T0 + 30) topA (pay 4)] ++ flush (T0 + 40) ++ [DoCount; get_x (T0 + 40) topA].
Lemma stuck : run_x h_stuck =
  [OOpened true; ORes DOk; ORes DOk; ODone; ODone; ODone; OOpened true; ORes DOk; ODone; ODone; ORes DOk;
   OCount (2 ^ 64 - 2); ORes DOk; ODone; ODone; ORes DOk; OCount (2 ^ 64 - 2); got [4; 3]%N].
Proof. vm_compute. reflexivity. Qed.
(** A closed database. *)
Lemma closed_batch : let s := fst (db_close (state_x [open_x T0])) in
  d_closed s = true /\ exists s', db_batch_run dx s T0 None [bput_x topA (pay 1)] false T0 T0 None None = Some s'.
Proof. split; [vm_compute; reflexivity|]. eexists. vm_compute. reflexivity. Qed.
