(** A run with a crash. *)
From Verif Require Import M_Bytes M_Hash M_Bloom M_MsgId M_Topic M_Trie M_MemDB M_Mac M_Query M_Window M_DB S_Trie S_MemDB S_DB S_Session S_Restart S_Crash P_Mac P_MemEx P_DBEx P_SessionEx P_RestartEx.
From Coq Require Import Lia ZifyBool ZifyNat ZifyN Permutation.
Open Scope Z_scope.

(** The first message after the restart is in the log when the crash comes, the
    others are not. *)
Definition csess1 : list rop := [RDo (SPut T0 0 pC (pay 9) 0 false)].
Definition csess2 : list sop :=
  [SPut (T0 + 11) 0 pAB (pay 1) 0 false; STick (T0 + 20); SPut (T0 + 21) 0 pAB (pay 2) 0 false; SCommit; STick (T0 + 30); SPut (T0 + 31) 0 pAstar (pay 3) 0 false;
   SGet (T0 + 32) gx 0 [nA; nB] 0].
Definition cgets : list sop := [SGet (T0 + 41) gx 0 [nA; nB] 0; SGet (T0 + 42) gx 0 [nC] 0].
Lemma csess_run : snd (drun dx (Down no_files) (open_x T0 :: flat_map as_dops (csess1 ++ [again (T0 + 10)]) ++ map as_dop csess2 ++ DoCrash :: open_x (T0 + 40) :: map as_dop cgets)) =
  [OOpened true; ORes DOk; ORes DOk; OOpened true; ORes DOk; ODone; ORes DOk; ODone; ODone; ORes DOk; got [3; 2; 1]%N; ODone; OOpened true; got [1]%N; got [9]%N].
Proof. vm_compute. reflexivity. Qed.
Lemma csess_ok : restart_ok dx T0 [] (csess1 ++ again (T0 + 10) :: map RDo csess2 ++ again (T0 + 40) :: map RDo cgets).
Proof.
  assert (Hm : (MasterContract < 2 ^ 32 /\ MasterContract <> Wildcard)%N) by (vm_compute; split; congruence).
  assert (Hn : forall n, In n [nA; nB; nC] -> name_ok n).
  { intros n Hi. repeat destruct Hi as [<-|Hi]; try contradiction; (split; [discriminate|]); repeat constructor; discriminate. }
  assert (Hp : forall k p, In k [MasterContract; 7%N] -> In p [pAB; pAstar; pAall; pC] -> plain k p).
  { intros k p Hk Hi. repeat destruct Hk as [<-|Hk]; try contradiction; repeat destruct Hi as [<-|Hi]; try contradiction;
      (split; [vm_compute; reflexivity|]); (split; [vm_compute; congruence|]);
      (split; [cbn [pt_levels pAB pAstar pAall pC]; repeat (apply Forall_cons; [cbn [level_ok]; first [exact I|apply Hn; cbn; tauto]|]); apply Forall_nil|]); (split; [cbn; trivial|]); (split; [cbn; lia|]);
      intros n Hx; cbn in Hx; repeat destruct Hx as [Hx|Hx]; try contradiction; try discriminate Hx; injection Hx as <-; vm_compute; congruence. }
  unfold csess1, csess2, cgets, again. cbn [map restart_ok session_ok clock sends app]. unfold T0.
  repeat match goal with |- _ /\ _ => split end; try lia; try exact I; try (intros m; reflexivity); try exact dx_ok; try match goal with |- (total _ _ < _)%N => vm_compute; reflexivity | |- _ * (_ / _) < _ => vm_compute; reflexivity end.
  all: match goal with
  | |- few _ => intros m Hi; cbn in Hi; repeat destruct Hi as [<-|Hi]; try contradiction; apply Nat.leb_le; vm_compute; reflexivity
  | |- put_ok _ _ _ _ _ _ => constructor; [reflexivity|apply Hp; cbn; tauto|vm_compute; congruence|
       split; [discriminate|]; split; [vm_compute; congruence|repeat constructor]|cbn; lia|reflexivity|
       intros m Hi; cbn in Hi; repeat destruct Hi as [<-|Hi]; try contradiction; intros E; vm_compute in E; try discriminate E; split; reflexivity]
  | |- S_Session.get_ok _ _ _ _ _ _ => constructor; [reflexivity|
       split; [discriminate|]; split; [repeat (apply Forall_cons; [apply Hn; cbn; tauto|]); apply Forall_nil|cbn; lia]|vm_compute; congruence|vm_compute; congruence|
       intros m Hi; cbn in Hi; repeat destruct Hi as [<-|Hi]; try contradiction; intros E1 E2; try (vm_compute; reflexivity); exfalso;
         first [vm_compute in E1; discriminate E1|cbn [covers pt_levels pt_multi s_pattern pAB pAstar pAall pC] in E2; unfold same_hash in E2; vm_compute in E2; intuition discriminate]|
       reflexivity|reflexivity|intros x; apply Z.le_refl]
  end.
Qed.

(** Without a Close before: what is in the log is not read. *)
Definition csess3 : list sop := [SPut T0 0 pAB (pay 1) 0 false; STick (T0 + 20); SCommit].
Lemma first_lost : flushed [] 0 csess3 = 1%nat /\ snd (drun dx (Down no_files) (open_x T0 :: map as_dop csess3 ++ [DoCrash; open_x (T0 + 40); as_dop (SGet (T0 + 41) gx 0 [nA; nB] 0)])) =
  [OOpened true; ORes DOk; ODone; ODone; ODone; OOpened true; got []].
Proof. split; vm_compute; reflexivity. Qed.

(** Messages put after the crash take the numbers of messages that were
    recovered, and replace them. *)
Definition csess4 : list sop := [SPut (T0 + 11) 0 pAB (pay 1) 0 false; SPut (T0 + 12) 0 pAB (pay 2) 0 false; STick (T0 + 20); SCommit].
Definition cafter : list sop := [SGet (T0 + 41) gx 0 [nA; nB] 0; SPut (T0 + 42) 0 pAB (pay 5) 0 false; SGet (T0 + 43) gx 0 [nA; nB] 0].
Lemma after_lost : snd (drun dx (Down no_files) (open_x T0 :: flat_map as_dops (csess1 ++ [again (T0 + 10)]) ++ map as_dop csess4 ++ DoCrash :: open_x (T0 + 40) :: map as_dop cafter)) =
  [OOpened true; ORes DOk; ORes DOk; OOpened true; ORes DOk; ORes DOk; ODone; ODone; ODone; OOpened true; got [2; 1]%N; ORes DOk; got [2; 5; 5]%N].
Proof. vm_compute. reflexivity. Qed.
