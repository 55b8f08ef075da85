(** Histories with deletions and topics that share a number. *)
From Verif Require Import M_Consistent.
From Verif Require Import M_Bytes M_Hash M_Bloom M_File M_MsgId M_Mac M_Query M_Topic M_Trie M_Wal M_MemDB M_Lease M_Window M_DB S_DB S_Session S_Only P_Mac P_MemEx P_DBEx P_SessionEx.
From Coq Require Import Lia ZifyBool ZifyNat ZifyN Permutation.
Open Scope Z_scope.

(** Two contracts; "dghn" of the first and "aaez" of the second have one
    number. *)
Definition k1 : N := 7.
Definition k2 : N := 939524103.
Definition w1 : bytes := [100; 103; 104; 110]%N.
Definition w2 : bytes := [97; 97; 101; 122]%N.
Definition put_k (now : Z) (k : N) (id : option bytes) (expires : N) (t p : bytes) : dop := DoPut now (mkUE id t p expires k false None 0).
Definition get_k (now : Z) (k : N) (t : bytes) : dop := DoGet now gx (mkQ t k 0 0 []).

Definition only_ops1 : list dop :=
  [DoNewID T0; put_k T0 k1 (Some (id_x T0 1)) 0 w1 (pay 1); put_k T0 k2 None 0 w2 (pay 2); put_k T0 k1 None 1700000001 w1 (pay 3);
   get_k T0 k1 w1; get_k T0 k2 w2; DoTick (T0 + 2000000000) None; get_k (T0 + 2000000000) k1 w1].
Definition only_del : uentry := mkUE (Some (id_x T0 1)) w1 [] 0 0 false None 0.
Definition only_ops2 : list dop := [put_k (T0 + 2000000000) k1 None 0 w1 (pay 4); DoCommit; DoCount; get_k (T0 + 2000000000) k1 w1].
Definition only_outs1 : list dout :=
  [OId (id_x T0 1); ORes DOk; ORes DOk; ORes DOk; got [3; 1]%N; OGot (QItems []); ODone; got [1%N]].
Definition only_outs2 : list dout := [ORes DOk; ODone; OCount (2 ^ 64 - 1); OGot (QErr [pay 4] XIO)].
Lemma only_runs : run_x (open_x T0 :: only_ops1 ++ DoDelete only_del :: only_ops2) = OOpened true :: only_outs1 ++ ORes DOk :: only_outs2.
Proof. vm_compute. reflexivity. Qed.
Lemma only_quiet : quiet T0 [] (only_ops1 ++ DoDelete only_del :: only_ops2) (only_outs1 ++ ORes DOk :: only_outs2).
Proof.
  assert (Hid : Forall is_byte (id_x T0 1)) by (vm_compute; repeat constructor).
  assert (Hp : forall x, (x < 256)%N -> Forall is_byte (pay x)) by (intros x Hx; unfold pay, is_byte; repeat constructor; exact Hx).
  assert (Hf : forall ids id k ex t x, (k < 2 ^ 32)%N -> (k <> 0)%N -> (ex < 2 ^ 32)%N -> (x < 256)%N -> (forall i, id = Some i -> In i ids) ->
    entry_fits ids (mkUE id t (pay x) ex k false None 0)).
  { intros ids id k ex t x H1 H2 H3 H4 H5. constructor; cbn [u_contract u_expires u_payload u_hash u_tsize u_id]; auto; [|discriminate].
    unfold put_owner, owner. cbn [u_hash u_contract]. destruct (N.eqb_spec k 0); [contradiction|exact H1]. }
  assert (Hnone : forall (ids : list bytes) (i : bytes), None = Some i -> In i ids) by (intros; discriminate).
  assert (Hsome : forall (x i : bytes), Some x = Some i -> In i ([] ++ [x])) by (intros x i [= <-]; now left).
  assert (Hbs : forall x : bytes, Forall is_byte x -> forall i, Some x = Some i -> Forall is_byte i) by (intros x H i [= <-]; exact H).
  unfold only_ops1, only_ops2, only_outs1, only_outs2, put_k, get_k, only_del. cbn [quiet app u_id spend q_contract q_win g_walk gx].
  repeat match goal with |- _ /\ _ => split end.
  all: match goal with
  | |- real_time _ _ => unfold real_time, T0; lia
  | |- entry_fits _ _ => apply Hf; [reflexivity|discriminate|reflexivity|reflexivity|first [exact (Hnone _)|exact (Hsome _)]]
  | |- forall l, Permutation _ _ => intros l; reflexivity
  | |- forall id, _ => exact (Hbs _ Hid)
  | |- Forall _ [] => constructor
  | |- True => exact I
  | |- (_ < _)%N => reflexivity
  | |- _ = _ => reflexivity
  end.
Qed.

(** A message of one topic is deleted, and the next sync writes over a message
    of another topic that was never deleted.  The shards of the free list are
    chosen as in the code (hash/consistent.go:73-86 with 27 blocks). *)
Definition real_shard (k : N) : nat := N.to_nat (start (repeat 0%N 27) k).
Definition dy : dcfg := mkDC (c_mem dx) (c_snap dx) (c_unsnap dx) (c_mac dx) (c_pd dx) real_shard 0 (c_def dx) (c_max dx).
Lemma dy_ok : setting_ok dy [ex_gen].
Proof.
  destruct dx_ok as [A1 A2 A3 A4 A5 A6 A7 A8]. constructor; try assumption. intros k. unfold dy, real_shard, start; cbn [c_find].
  change (N.of_nat (length (repeat 0%N 27))) with 27%N. unfold wrap16, fastMod, wrap32, M_Lease.nShards.
  set (x := fl_d (fleaInit k)). assert (Hx : (x < 2 ^ 32)%N) by (unfold x, fleaInit, fleaRound, wrap32; cbn [fl_d]; apply N.mod_lt; discriminate).
  assert (H1 : ((x * 27) mod 2 ^ 64 / 2 ^ 32 < 27)%N).
  { rewrite N.mod_small by lia. apply N.div_lt_upper_bound; lia. }
  set (y := ((x * 27) mod 2 ^ 64 / 2 ^ 32)%N) in *. rewrite (N.mod_small y) by lia. rewrite N.mod_small by lia. lia.
Qed.
Definition topC : bytes := [99]%N.
Definition corrupt_ops1 : list dop := [put_x T0 topA (repeat 7%N 200); put_x T0 topB (repeat 1%N 350); put_x T0 topC (pay 9)] ++ flush (T0 + 10).
Definition corrupt_del : uentry := mkUE (Some (id_x T0 2)) topB [] 0 0 false None 0.
Definition corrupt_ops2 : list dop :=
  [put_x (T0 + 10) topC (repeat 5%N 142); put_x (T0 + 10) topC (repeat 6%N 142); get_x (T0 + 10) topA] ++ flush (T0 + 20).
Definition corrupt_outs : list dout :=
  [OOpened true; ORes DOk; ORes DOk; ORes DOk; ODone; ODone; ORes DOk; OGot (QItems [repeat 7%N 200]); ORes DOk; ORes DOk; ORes DOk;
   OGot (QItems [repeat 7%N 200]); ODone; ODone; ORes DOk].
Definition corrupted : bytes := Eval vm_compute in
  match last (snd (drun dy (Down no_files) (DoOpen [ex_gen] T0 (fun m => m) false false :: corrupt_ops1 ++ [get_x (T0 + 10) topA; DoDelete corrupt_del] ++ corrupt_ops2 ++ [get_x (T0 + 20) topA]))) ONone
  with OGot (QItems [p]) => p | _ => [] end.
Lemma corrupt_run : snd (drun dy (Down no_files) (DoOpen [ex_gen] T0 (fun m => m) false false :: corrupt_ops1 ++ [get_x (T0 + 10) topA; DoDelete corrupt_del] ++ corrupt_ops2 ++ [get_x (T0 + 20) topA]))
  = corrupt_outs ++ [OGot (QItems [corrupted])].
Proof. vm_compute. reflexivity. Qed.
Lemma corrupt_changed : repeat 7%N 200 <> corrupted.
Proof. discriminate. Qed.
Lemma corrupt_other : Forall (fun o => match o with DoPut _ e' => u_topic e' <> topA | DoDelete _ => False | _ => True end) corrupt_ops2.
Proof. repeat constructor; discriminate. Qed.

(** The same with the later messages put under another contract: what they say
    is then read under the first. *)
Definition leak_ops : list dop :=
  [put_x T0 topA (repeat 7%N 200); put_x T0 topB (repeat 1%N 350); put_k T0 k1 None 0 topC (pay 9)] ++ flush (T0 + 10) ++
  [DoDelete corrupt_del; put_k (T0 + 10) k1 None 0 topC (repeat 5%N 142); put_k (T0 + 10) k1 None 0 topC (repeat 6%N 142)] ++ flush (T0 + 20).
Definition leak_outs : list dout :=
  [OOpened true; ORes DOk; ORes DOk; ORes DOk; ODone; ODone; ORes DOk; ORes DOk; ORes DOk; ORes DOk; ODone; ODone; ORes DOk].
Definition leaked : bytes := Eval vm_compute in
  match last (snd (drun dy (Down no_files) (DoOpen [ex_gen] T0 (fun m => m) false false :: leak_ops ++ [get_x (T0 + 20) topA]))) ONone
  with OGot (QItems [p]) => p | _ => [] end.
Lemma leak_run : snd (drun dy (Down no_files) (DoOpen [ex_gen] T0 (fun m => m) false false :: leak_ops ++ [get_x (T0 + 20) topA])) =
  leak_outs ++ [OGot (QItems [leaked])].
Proof. vm_compute. reflexivity. Qed.
Lemma leak_tail : skipn 158 leaked = firstn 42 (repeat 6%N 142).
Proof. reflexivity. Qed.
Lemma leak_unput : forall now e, In (DoPut now e) leak_ops -> u_payload e <> leaked /\ (put_owner e = owner 0 -> ~ In 6%N (u_payload e)).
Proof.
  assert (R : forall l, existsb (N.eqb 6) l = false -> ~ In 6%N l).
  { intros l H H1. assert (H2 : existsb (N.eqb 6) l = true) by (apply existsb_exists; exists 6%N; split; [exact H1|reflexivity]). congruence. }
  intros now e H. unfold leak_ops, flush, put_x, put_k, newEntry in H. cbn [app In] in H.
  assert (D : forall l, firstn 1 l <> [7%N] \/ skipn 199 l <> [6%N] -> l <> leaked) by (intros l H1 ->; destruct H1 as [H1|H1]; apply H1; reflexivity).
  assert (K : owner k1 <> owner 0) by (vm_compute; discriminate).
  repeat match type of H with _ \/ _ => destruct H as [H|H] end; try discriminate H; try contradiction H; injection H as _ <-;
    cbn [u_payload put_owner u_hash u_contract]; split.
  all: try (apply D; first [left; vm_compute; discriminate|right; vm_compute; discriminate]).
  all: intros Ho; first [exfalso; exact (K Ho)|apply R; vm_compute; reflexivity].
Qed.
