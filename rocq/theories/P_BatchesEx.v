(** A session with batches. *)
From Verif Require Import M_Bytes M_Hash M_Bloom M_MsgId M_Topic M_Trie M_MemDB M_Mac M_Query M_Window M_DB S_Trie S_MemDB S_DB S_Session S_Batches P_Mac P_MemEx P_DBEx P_SessionEx.
From Coq Require Import Lia ZifyBool ZifyNat ZifyN Permutation.
Open Scope Z_scope.

Definition bsess : list cop :=
  [COne (SPut T0 0 pAB (pay 1) 0 false);
   COne (SPut T0 0 pC (pay 9) 0 false);
   CBatch (T0 + 1) [IPut (T0 + 1) 0 pAB (pay 2) 0 false; IPut (T0 + 2) 0 pAstar (pay 3) 0 true; IWrite (T0 + 3);
                    IPut (T0 + 4) 7 pAB (pay 5) 0 false; IPut (T0 + 4) 0 pAall (pay 4) e_old false] (T0 + 5) (T0 + 6);
   COne (SGet (T0 + 6) gx 0 [nA; nB] 0);
   CBatch (T0 + 6) [] (T0 + 6) (T0 + 7);
   COne (STick (T0 + 1000000000));
   COne (SPut (T0 + 1000000000) 0 pAB (pay 6) 0 false);
   COne SCommit;
   COne (SGet (T0 + 1000000000) gx 0 [nA; nB] 0);
   COne (SSync (T0 + 1000000001) (fun m => m));
   CBatch (T0 + 1000000002) [IPut (T0 + 1000000002) 0 pAB (pay 7) 0 false] (T0 + 1000000003) (T0 + 1000000004);
   COne (SGet (T0 + 1000000005) gx 0 [nA; nB] 0);
   COne (STick (T0 + 3000000000)); COne SCommit;
   COne (SSync (T0 + 3000000020) (fun m => m));
   COne (SGet (T0 + 3000000020) gx 0 [nA; nB] 6);
   COne (SGet (T0 + 3000000020) gx 7 [nA; nB] 0);
   COne SCount].
Lemma bsess_ok : batches_ok dx T0 (trunc T0 (c_dur (c_mem dx))) 0 [] bsess.
Proof.
  assert (Hm : (MasterContract < 2 ^ 32 /\ MasterContract <> Wildcard)%N) by (vm_compute; split; congruence).
  assert (Hn : forall n, In n [nA; nB; nC] -> name_ok n).
  { intros n Hi. repeat destruct Hi as [<-|Hi]; try contradiction; (split; [discriminate|]); repeat constructor; discriminate. }
  assert (Hp : forall k p, In k [MasterContract; 7%N] -> In p [pAB; pAstar; pAall; pC] -> plain k p).
  { intros k p Hk Hi. repeat destruct Hk as [<-|Hk]; try contradiction; repeat destruct Hi as [<-|Hi]; try contradiction;
      (split; [vm_compute; reflexivity|]); (split; [vm_compute; congruence|]);
      (split; [cbn [pt_levels pAB pAstar pAall pC]; repeat (apply Forall_cons; [cbn [level_ok]; first [exact I|apply Hn; cbn; tauto]|]); apply Forall_nil|]); (split; [cbn; trivial|]); (split; [cbn; lia|]);
      intros n Hx; cbn in Hx; repeat destruct Hx as [Hx|Hx]; try contradiction; try discriminate Hx; injection Hx as <-; vm_compute; congruence. }
  unfold bsess. cbn [batches_ok items_ok flat_map item_sends session_ok clock sends slot_after app]. unfold T0.
  repeat match goal with |- _ /\ _ => split end; try lia; try exact I; try (intros m; reflexivity); try (vm_compute; discriminate).
  all: match goal with
  | |- put_ok _ _ _ _ _ _ => constructor; [reflexivity|apply Hp; cbn; tauto|vm_compute; congruence|
       split; [discriminate|]; split; [vm_compute; congruence|repeat constructor]|cbn; lia|reflexivity|
       intros m Hi; cbn in Hi; repeat destruct Hi as [<-|Hi]; try contradiction; intros E; vm_compute in E; try discriminate E; split; reflexivity]
  | |- S_Session.get_ok _ _ _ _ _ _ => constructor; [reflexivity|
       split; [discriminate|]; split; [repeat (apply Forall_cons; [apply Hn; cbn; tauto|]); apply Forall_nil|cbn; lia]|vm_compute; congruence|vm_compute; congruence|
       intros m Hi; cbn in Hi; repeat destruct Hi as [<-|Hi]; try contradiction; intros E1 E2; try (vm_compute; reflexivity); exfalso;
         first [vm_compute in E1; discriminate E1|cbn [covers pt_levels pt_multi s_pattern pAB pAstar pAall pC] in E2; unfold same_hash in E2; vm_compute in E2; intuition discriminate]|
       reflexivity|reflexivity|intros x; apply Z.le_refl]
  end.
Qed.
Definition bsess_outs : list dout :=
  [OOpened true; ORes DOk; ORes DOk; ORes DOk; got [4; 3; 2; 1]%N; ORes DOk; ODone; ORes DOk; ODone; got [6; 3; 2; 1]%N; ORes DOk; ORes DOk;
   got [7; 6; 3; 2; 1]%N; ODone; ODone; ORes DOk; got [7; 6; 3; 2; 1]%N; got [5%N]; OCount 8].
Lemma bsess_run : snd (drun dx (Down no_files) (open_x T0 :: map as_dop_b bsess)) = bsess_outs.
Proof. vm_compute. reflexivity. Qed.
