(** A run with restarts and spans of time. *)
From Verif Require Import M_Bytes M_Hash M_Bloom M_MsgId M_Topic M_Trie M_MemDB M_Mac M_Query M_Window M_DB S_Trie S_MemDB S_DB S_Session S_Restart S_Since S_SinceR
  P_Mac P_MemEx P_DBEx P_SessionEx P_SinceEx.
From Coq Require Import Lia ZifyBool ZifyNat ZifyN Permutation.
Open Scope Z_scope.

Definition lagain (now : Z) : rlop := LRRestart [ex_gen] now (fun m => m) false false.
(** The second Open writes the messages of the seconds 0 and 1 to the files; the
    third one that of second 3. *)
Definition lrsess : list rlop :=
  [LRDo (LDo (SPut T0 0 pC (pay 9) 0 false));
   lagain (T0 + 10);
   LRDo (LDo (SPut (T0 + 11) 0 pAB (pay 1) 0 false));
   LRDo (LDo (SPut (T0 + 1000000000) 0 pAstar (pay 2) 0 true));
   lagain (T0 + 1000000040);
   LRDo (LLast (T0 + 1000000041) gx 0 [nA; nB] 0 t1s);
   LRDo (LDo (SPut (T0 + 3000000000) 0 pAB (pay 3) 0 false));
   lagain (T0 + 3000000040);
   LRDo (LDo (SGet (T0 + 3000000041) gx 0 [nA; nB] 0));
   LRDo (LLast (T0 + 3000000041) gx 0 [nA; nB] 0 t2s);
   LRDo (LOpt (T0 + 3000000041) gx 0 [nA; nB] 5 t1s)].
Definition lrsess_outs : list dout :=
  [OOpened true; ORes DOk; ORes DOk; OOpened true; ORes DOk; ORes DOk; ORes DOk; OOpened true; got [2; 1]%N; ORes DOk; ORes DOk; OOpened true;
   got [3; 2; 1]%N; got [3; 2]%N; got [3]%N].
Lemma lrsess_run : snd (drun dl (Down no_files) (open_x T0 :: flat_map (as_ldops dl) lrsess)) = lrsess_outs.
Proof. vm_compute. reflexivity. Qed.
Lemma lrsess_ok : rspan_ok dl T0 [] lrsess.
Proof.
  unfold lrsess, lagain. cbn [rspan_ok span_ok lclock clock stamps sends map snd app]. unfold T0, Offset.
  repeat match goal with |- _ /\ _ => split end; try lia; try exact I; try (intros m; reflexivity); try exact dl_ok;
    try match goal with |- (total _ _ < _)%N => vm_compute; reflexivity | |- _ * (_ / _) < _ => vm_compute; reflexivity
    | |- few _ => intros m Hi; cbn in Hi; repeat destruct Hi as [<-|Hi]; try contradiction; apply Nat.leb_le; vm_compute; reflexivity end.
  all: spans names_ok plains.
Qed.
