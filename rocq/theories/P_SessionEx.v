(** A session. *)
From Verif Require Import M_Bytes M_Hash M_Bloom M_MsgId M_Topic M_Trie M_MemDB M_Mac M_Query M_Window M_DB S_Trie S_MemDB S_DB S_Session P_Mac P_MemEx P_DBEx.
From Coq Require Import Lia ZifyBool ZifyNat ZifyN Permutation.
Open Scope Z_scope.

Lemma dx_ok : setting_ok dx [ex_gen].
Proof.
  constructor; cbn [dx c_mem c_snap c_unsnap c_mac m_parent c_find].
  - exact ex_cfg_ok.
  - reflexivity.
  - intros [|x p]; reflexivity.
  - intros [|x p] H; cbn [toy_snap]; [repeat constructor|]. constructor; [|constructor; [reflexivity|exact H]]. unfold is_byte. pose proof (N.mod_upper_bound (N.of_nat (length (x :: p))) 128). lia.
  - intros [|x p] H; cbn [toy_snap length]; [reflexivity|]. unfold maxValueLength in H. cbn [length] in H. lia.
  - exact toy_aead_ok.
  - intros n p H. cbn [seal toy_aead]. apply Forall_app. split; [exact H|]. repeat constructor.
  - intros k. unfold M_Lease.nShards. lia.
Qed.

Definition nA : bytes := [97]%N.
Definition nB : bytes := [98]%N.
Definition nC : bytes := [99]%N.
Definition pAB : pattern := mkPattern [Lit nA; Lit nB] false.
Definition pAstar : pattern := mkPattern [Lit nA; Star] false.
Definition pAall : pattern := mkPattern [Lit nA] true.
Definition pC : pattern := mkPattern [Lit nC] false.
Definition e_old : N := 1700000001.
Definition sess : list sop :=
  [SPut T0 0 pC (pay 9) 0 false;
   SPut T0 0 pAB (pay 1) 0 false;
   SPut (T0 + 1) 0 pAstar (pay 2) 0 true;
   STick (T0 + 20);
   SPut (T0 + 20) 0 pAB (pay 3) e_old false;
   SGet (T0 + 20) gx 0 [nA; nB] 0;
   SCommit;
   SSync (T0 + 21) (fun m => m);
   SPut (T0 + 30) 0 pAall (pay 4) 0 false;
   SPut (T0 + 30) 7 pAB (pay 5) 0 false;
   SNewID (T0 + 30);
   SGet (T0 + 30) gx 0 [nA; nB] 0;
   SGet (T0 + 2000000000) gx 0 [nA; nB] 0;
   SGet (T0 + 2000000000) gx 7 [nA; nB] 0;
   STick (T0 + 3000000000); SCommit; STick (T0 + 3000000010); SCommit;
   SSync (T0 + 3000000020) (fun m => m);
   SGet (T0 + 3000000020) gx 0 [nA; nB] 4;
   SGet (T0 + 3000000020) gx 0 [nA; nC] 3;
   SCount].

Lemma sess_ok : session_ok dx T0 [] sess.
Proof.
  assert (Hm : (MasterContract < 2 ^ 32 /\ MasterContract <> Wildcard)%N) by (vm_compute; split; congruence).
  assert (Hn : forall n, In n [nA; nB; nC] -> name_ok n).
  { intros n Hi. repeat destruct Hi as [<-|Hi]; try contradiction; (split; [discriminate|]); repeat constructor; discriminate. }
  assert (Hp : forall k p, In k [MasterContract; 7%N] -> In p [pAB; pAstar; pAall; pC] -> plain k p).
  { intros k p Hk Hi. repeat destruct Hk as [<-|Hk]; try contradiction; repeat destruct Hi as [<-|Hi]; try contradiction;
      (split; [vm_compute; reflexivity|]); (split; [vm_compute; congruence|]);
      (split; [cbn [pt_levels pAB pAstar pAall pC]; repeat (apply Forall_cons; [cbn [level_ok]; first [exact I|apply Hn; cbn; tauto]|]); apply Forall_nil|]); (split; [cbn; trivial|]); (split; [cbn; lia|]);
      intros n Hx; cbn in Hx; repeat destruct Hx as [Hx|Hx]; try contradiction; try discriminate Hx; injection Hx as <-; vm_compute; congruence. }
  unfold sess. cbn [session_ok clock sends app]. unfold T0.
  repeat match goal with |- _ /\ _ => split end; try lia; try exact I; try (intros m; reflexivity).
  all: match goal with
  | |- put_ok _ _ _ _ _ _ => constructor; [reflexivity|apply Hp; cbn; tauto|vm_compute; congruence|
       split; [discriminate|]; split; [vm_compute; congruence|repeat constructor]|cbn; lia|reflexivity|
       intros m Hi; cbn in Hi; repeat destruct Hi as [<-|Hi]; try contradiction; intros E; vm_compute in E; try discriminate E; split; reflexivity]
  | |- S_Session.get_ok _ _ _ _ _ _ => constructor; [reflexivity|
       split; [discriminate|]; split; [repeat (apply Forall_cons; [apply Hn; cbn; tauto|]); apply Forall_nil|cbn; lia]|vm_compute; congruence|vm_compute; congruence|
       intros m Hi; cbn in Hi; repeat destruct Hi as [<-|Hi]; try contradiction; intros E1 E2; try (vm_compute; reflexivity); exfalso;
         first [vm_compute in E1; discriminate E1|cbn [covers pt_levels pt_multi s_pattern pAB pAstar pAall pC] in E2; unfold same_hash in E2; vm_compute in E2; intuition discriminate]|
       reflexivity|reflexivity|intros x; apply Z.le_refl]
  end.
Qed.
Definition sess_outs : list dout :=
  [OOpened true; ORes DOk; ORes DOk; ORes DOk; ODone; ORes DOk; got [3; 2; 1]%N; ODone; ORes DOk; ORes DOk; ORes DOk;
   OId (id_x T0 7); got [4; 3; 2; 1]%N; got [4; 2; 1]%N; got [5%N]; ODone; ODone; ODone; ODone; ORes DOk; got [4; 2; 1]%N; got [4; 2]%N; OCount 6].
Lemma sess_run : snd (drun dx (Down no_files) (open_x T0 :: map as_dop sess)) = sess_outs.
Proof. vm_compute. reflexivity. Qed.

(** ** Buffers that the pool hands out again *)

Definition sec : Z := 1000000000.
(** [topA] is read, synced, and read again; then its old buffer is the one of the
    current time, and [topB] is put. *)
Definition read1 : list dop :=
  [put_x T0 topA (pay 1); put_x T0 topB (pay 9); get_x T0 topA; DoTick (T0 + sec) None; DoCommit; DoSync (T0 + sec) (fun m => m)].
Definition read2 : list dop := [DoTick (T0 + 2 * sec) (Some 0%nat); put_x (T0 + 2 * sec) topB (pay 2)].
Lemma reread_run : run_x (open_x T0 :: read1 ++ [get_x (T0 + sec) topA] ++ read2 ++ [get_x (T0 + 2 * sec) topA]) =
  OOpened true :: [ORes DOk; ORes DOk; got [1%N]; ODone; ODone; ORes DOk] ++ [got [1%N]] ++ [ODone; ORes DOk] ++ [got [2%N]].
Proof. vm_compute. reflexivity. Qed.
(** The same with [topB] first. *)
Definition read3 : list dop :=
  [put_x T0 topB (pay 9); put_x T0 topA (pay 1); get_x T0 topA; DoTick (T0 + sec) None; DoCommit; DoSync (T0 + sec) (fun m => m)].
Definition read4 : list dop := [DoTick (T0 + 2 * sec) (Some 0%nat); put_x (T0 + 2 * sec) topB (pay 2); put_x (T0 + 2 * sec) topB (pay 3)].
Lemma repanic_run : run_x (open_x T0 :: read3 ++ [get_x (T0 + sec) topA] ++ read4 ++ [get_x (T0 + 2 * sec) topA]) =
  OOpened true :: [ORes DOk; ORes DOk; got [1%N]; ODone; ODone; ORes DOk] ++ [got [1%N]] ++ [ODone; ORes DOk; ORes DOk] ++ [OGot QPanic].
Proof. vm_compute. reflexivity. Qed.
