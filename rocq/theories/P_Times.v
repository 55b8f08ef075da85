(** The times at which entries are written to the window file. *)
From Verif Require Import M_Bytes P_Bytes M_File M_Hash M_Bloom M_Entry P_Codec M_MsgId M_Mac P_Mac M_Topic M_Trie M_Query M_IndexBlock M_Lease
  M_BlockStore M_WinBlock M_Wal M_MemDB M_Window M_Get M_DB S_Trie S_Window S_BlockStore S_MemDB S_Get S_DB S_Session
  P_Topic P_Trie P_Trie2 P_Trie3 P_BlockStore4 P_Window4 P_WindowEx P_Get P_MemBlock P_MemDB P_MemGet P_DB
  P_Session P_Session2 P_Session3 P_Session4.
From Coq Require Import Lia ZifyBool ZifyNat ZifyN.
Open Scope Z_scope.

Lemma wapps_times now W wm W' : wapps now W wm W' -> forall h x, In x (wq_H W' h) -> In x (wq_H W h) \/ snd x = unix now.
Proof.
  induction 1 as [W Hr|w off H first T h es w1 o r W' Hr Hh Hes Hok HT Hidx Ea Hw IH]; intros h0 x Hx; [auto|].
  destruct (IH h0 x Hx) as [Hi|Hi]; [|auto]. cbn [wq_H] in *. unfold fset in Hi. destruct (N.eqb_spec h0 h) as [->|]; [|auto].
  apply in_app_iff in Hi as [Hi|Hi]; [auto|]. apply in_map_iff in Hi as (y & <- & _). right. reflexivity.
Qed.
Lemma frees_times now l m g W ts m' g' W' : frees now l m g W ts m' g' W' -> forall h x, In x (wq_H W' h) -> In x (wq_H W h) \/ snd x = unix now.
Proof.
  induction 1 as [m g W|m g W t ts m' g' W' Hn _ IH|m g W t ts m1 W1 m' g' W' Hf (wm & W2 & w2 & _ & _ & _ & Ha & _ & ->) _ IH]; intros h x Hx; [auto|auto|].
  destruct (IH h x Hx) as [Hi|Hi]; [|auto]. cbn [wq_H] in Hi. eapply wapps_times; eauto.
Qed.
