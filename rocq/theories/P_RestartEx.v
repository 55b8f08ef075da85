(** A run with restarts. *)
From Verif Require Import M_Bytes M_Hash M_Bloom M_MsgId M_Topic M_Trie M_MemDB M_Mac M_Query M_Window M_DB S_Trie S_MemDB S_DB S_Session S_Restart P_Mac P_MemEx P_DBEx P_SessionEx.
From Coq Require Import Lia ZifyBool ZifyNat ZifyN Permutation.
Open Scope Z_scope.

Definition again (now : Z) : rop := RRestart [ex_gen] now (fun m => m) false false.
(** The topic [pC] is written first. Messages of other topics are recovered by
    the third Open, or written by Sync, or recovered by the fourth. *)
Definition rsess : list rop :=
  [RDo (SPut T0 0 pC (pay 9) 0 false);
   again (T0 + 10);
   RDo (SPut (T0 + 11) 0 pAB (pay 1) 0 false);
   RDo (STick (T0 + 20));
   RDo (SPut (T0 + 20) 0 pAstar (pay 2) 0 true);
   again (T0 + 40);
   RDo (SGet (T0 + 41) gx 0 [nA; nB] 0);
   RDo (SPut (T0 + 42) 0 pAB (pay 3) e_old false);
   RDo (SGet (T0 + 43) gx 0 [nA; nB] 0);
   RDo (STick (T0 + 60)); RDo SCommit; RDo (SSync (T0 + 61) (fun m => m));
   RDo (SPut (T0 + 62) 7 pAB (pay 5) 0 false);
   RDo (SPut (T0 + 63) 0 pAall (pay 4) 0 false);
   again (T0 + 80);
   again (T0 + 100);
   RDo (SGet (T0 + 101) gx 0 [nA; nB] 0);
   RDo (SGet (T0 + 101) gx 7 [nA; nB] 0);
   RDo (SGet (T0 + 2000000000) gx 0 [nA; nB] 0);
   RDo SCount].
Definition rsess_outs : list dout :=
  [OOpened true; ORes DOk; ORes DOk; OOpened true; ORes DOk; ODone; ORes DOk; ORes DOk; OOpened true; got [2; 1]%N; ORes DOk; got [3; 2; 1]%N; ODone; ODone; ORes DOk; ORes DOk; ORes DOk;
   ORes DOk; OOpened true; ORes DOk; OOpened true; got [4; 3; 2; 1]%N; got [5]%N; got [4; 2; 1]%N; OCount 6].
Lemma rsess_run : snd (drun dx (Down no_files) (open_x T0 :: flat_map as_dops rsess)) = rsess_outs.
Proof. vm_compute. reflexivity. Qed.
Lemma rsess_ok : restart_ok dx T0 [] rsess.
Proof.
  assert (Hm : (MasterContract < 2 ^ 32 /\ MasterContract <> Wildcard)%N) by (vm_compute; split; congruence).
  assert (Hn : forall n, In n [nA; nB; nC] -> name_ok n).
  { intros n Hi. repeat destruct Hi as [<-|Hi]; try contradiction; (split; [discriminate|]); repeat constructor; discriminate. }
  assert (Hp : forall k p, In k [MasterContract; 7%N] -> In p [pAB; pAstar; pAall; pC] -> plain k p).
  { intros k p Hk Hi. repeat destruct Hk as [<-|Hk]; try contradiction; repeat destruct Hi as [<-|Hi]; try contradiction;
      (split; [vm_compute; reflexivity|]); (split; [vm_compute; congruence|]);
      (split; [cbn [pt_levels pAB pAstar pAall pC]; repeat (apply Forall_cons; [cbn [level_ok]; first [exact I|apply Hn; cbn; tauto]|]); apply Forall_nil|]); (split; [cbn; trivial|]); (split; [cbn; lia|]);
      intros n Hx; cbn in Hx; repeat destruct Hx as [Hx|Hx]; try contradiction; try discriminate Hx; injection Hx as <-; vm_compute; congruence. }
  unfold rsess, again. cbn [restart_ok session_ok clock sends app]. unfold T0.
  repeat match goal with |- _ /\ _ => split end; try lia; try exact I; try (intros m; reflexivity); try exact dx_ok; try match goal with |- (total _ _ < _)%N => vm_compute; reflexivity | |- _ * (_ / _) < _ => vm_compute; reflexivity end.
  all: match goal with
  | |- few _ => intros m Hi; cbn in Hi; repeat destruct Hi as [<-|Hi]; try contradiction; apply Nat.leb_le; vm_compute; reflexivity
  | |- put_ok _ _ _ _ _ _ => constructor; [reflexivity|apply Hp; cbn; tauto|vm_compute; congruence|
       split; [discriminate|]; split; [vm_compute; congruence|repeat constructor]|cbn; lia|reflexivity|
       intros m Hi; cbn in Hi; repeat destruct Hi as [<-|Hi]; try contradiction; intros E; vm_compute in E; try discriminate E; split; reflexivity]
  | |- S_Session.get_ok _ _ _ _ _ _ => constructor; [reflexivity|
       split; [discriminate|]; split; [repeat (apply Forall_cons; [apply Hn; cbn; tauto|]); apply Forall_nil|cbn; lia]|vm_compute; congruence|vm_compute; congruence|
       intros m Hi; cbn in Hi; repeat destruct Hi as [<-|Hi]; try contradiction; intros E1 E2; try (vm_compute; reflexivity); exfalso;
         first [vm_compute in E1; discriminate E1|cbn [covers pt_levels pt_multi s_pattern pAB pAstar pAall pC] in E2; unfold same_hash in E2; vm_compute in E2; intuition discriminate]|
       reflexivity|reflexivity|intros x; apply Z.le_refl]
  end.
Qed.

(** Reopened within the time slot in which the last message was put: Puts fail
    until the next tick. *)
Definition h_slot : list dop :=
  [open_x T0; put_x T0 topA (pay 1); DoClose; open_x (T0 + 1); get_x (T0 + 1) topA; put_x (T0 + 2) topA (pay 2); get_x (T0 + 3) topA;
   DoTick (T0 + 20) None; put_x (T0 + 21) topA (pay 3); get_x (T0 + 22) topA].
Lemma slot_refused : run_x h_slot =
  [OOpened true; ORes DOk; ORes DOk; OOpened true; got [1]%N; ORes (DErr XForbidden); got [1]%N; ODone; ORes DOk; got [3; 1]%N].
Proof. vm_compute. reflexivity. Qed.
Lemma slot_lost : exists c gens t topic p1 p2, setting_ok c gens /\
  snd (drun c (Down no_files) [DoOpen gens t (fun m => m) false false; DoPut t (newEntry topic p1); DoClose;
                               DoOpen gens (t + 1) (fun m => m) false false; DoPut (t + 2) (newEntry topic p2)]) =
  [OOpened true; ORes DOk; ORes DOk; OOpened true; ORes (DErr XForbidden)].
Proof. exists dx, [ex_gen], T0, topA, (pay 1), (pay 2). split; [exact dx_ok|vm_compute; reflexivity]. Qed.
