(** Cases for C118. *)
From Verif Require Import M_Bytes P_Bytes M_Hash M_Bloom M_File M_Wal S_Wal P_Wal M_MemDB M_Window M_DB S_MemDB S_DB S_Size S_Abort S_Durable P_MemBlock P_MemDB P_MemEx P_Abort P_DBEx.
From Coq Require Import Lia ZifyBool ZifyNat ZifyN.
Open Scope Z_scope.

Definition du_s1 : mdb := snd (ex_run [OPut 7 vB; OTick 20 None; OCommit]).
Definition du_s2 : mdb := snd (exec ex_cfg (batch_new du_s1 15 None) (batch_ops 15 bw)).
Definition du_l0 : list (Z * list (ikey * bytes)) := [(10, [((false, 7%N), vB)])].
Definition du_l1 : list (Z * list (ikey * bytes)) := [(15, [((false, 1%N), vA)]); (25, [((false, 2%N), vB)])].

Lemma du_fresh : fresh_times du_s1 (15 :: bact_times bw).
Proof.
  split; [cbn; repeat constructor; cbn; lia|]. cbn [bw bact_times flat_map app]. intros u [<-|[<-|[<-|[]]]]; (split; [vm_compute; reflexivity|split; vm_compute; reflexivity]).
Qed.
Lemma du_logs_ok : logs_ok ex_cfg (du_l0 ++ du_l1).
Proof.
  split.
  - intros l1 a l2 b l3 E. unfold du_l0, du_l1 in E. cbn [app] in E.
    repeat match type of E with
           | [] = ?l ++ _ => destruct l; discriminate
           | _ :: _ = ?l ++ _ => destruct l as [|? ?]; cbn [app] in E; injection E as ? E
           | _ :: _ = _ :: _ => injection E as ? E
           | [] = _ => discriminate
           end; subst; try (vm_compute; discriminate).
  - intros id k v Hin. cbn in Hin. repeat destruct Hin as [Hin|Hin]; try contradiction; injection Hin as <- <- <-; repeat constructor.
  - intros id1 id2 k v1 v2 H1 H2. cbn in H1, H2.
    repeat destruct H1 as [H1|H1]; try contradiction; try discriminate; injection H1 as <- <- <-;
    repeat destruct H2 as [H2|H2]; try contradiction; try discriminate; injection H2 as <- <-; reflexivity.
  - intros id k w H1. cbn in H1. repeat destruct H1 as [H1|H1]; try contradiction; discriminate.
  - intros l1 l2 id1 id2 k w v E. cbn in E. repeat (destruct l1 as [|? l1]; cbn [app] in E; [discriminate|]; injection E as _ E). destruct l1; discriminate.
Qed.
Lemma du_small : Forall (fun x => log_ok (fst x) [log_bytes (snd x)]) du_l1.
Proof. repeat constructor; try discriminate; vm_compute; reflexivity. Qed.

(** The same for a database: the batch is in the log, but a database that was
    never synced does not look at it. *)
Definition h_batch_crash : list dop :=
  [open_x T0; DoBatch (T0 + 5) None [bput_x topA (pay 2)] false (T0 + 6) (T0 + 7) None None; DoCrash;
   open_x (T0 + 20); get_x (T0 + 20) topA; DoNewID (T0 + 20)].
Lemma batch_crash_loses : run_x h_batch_crash =
  [OOpened true; ORes DOk; ODone; OOpened true; got []; OId (id_x (T0 + 20) 1)].
Proof. vm_compute. reflexivity. Qed.
