(** Background expiry: the scanned part of the bucket, and a run that goes wrong. *)
From Verif Require Import M_Consistent P_Consistent.
From Verif Require Import M_Bytes M_Entry M_IndexBlock M_Topic M_Query M_Lease S_Lease P_Lease M_BlockStore M_WinBlock M_MemDB M_Window M_Get M_DB S_DB S_Session P_DBEx P_OnlyEx M_Expiry S_Expiry P_Expiry.
From Coq Require Import Lia ZifyBool ZifyNat ZifyN Permutation.
Open Scope Z_scope.

(** * The shards *)
Lemma find_start a c key : (a < 2 ^ 32)%N -> initConsistent a a = Some c ->
  forall fuel, findBlock c key fuel = Found (wrap16 (fastMod (fl_d (fleaInit key)) a)).
Proof.
  intros Ha E fuel. destruct (find_full a c key Ha E) as (b & Hb & _ & Hf). rewrite Hf. f_equal.
  specialize (Hf O). apply init_full in E. destruct E as (u & _ & _ & ->). unfold findBlock in Hf. cbn [an_A an_K walk] in Hf.
  destruct (idx _ _) as [v|] in Hf; [|discriminate]. destruct (v =? 0)%N; [|discriminate]. injection Hf as <-. unfold start. rewrite repeat_length, N2Nat.id. reflexivity.
Qed.
Lemma shards_100000 : exists c, initConsistent 100000 100000 = Some c.
Proof.
  unfold initConsistent. cbv zeta.
  replace ((wrap16 100000 =? 0) || (100000 <? 100000) || (100000 - 100000 <? (if wrap16 100000 <=? wrap16 (100000 + 65535) then wrap16 (100000 + 65535) - wrap16 100000 + 1 else 0)))%N%bool
    with false by (vm_compute; reflexivity). eexists. reflexivity.
Qed.
Lemma never_taken : exists t c, initConsistent 100000 100000 = Some c /\
  (forall key fuel, findBlock c key fuel = Found (N.of_nat (expiry_shard key))) /\
  forall max on ops e, In e (snd (brun expiry_shard max (newExpiry on) ops)) -> w_expiresAt e <> t.
Proof.
  exists 1700000000%N. destruct shards_100000 as [c Hc]. exists c. split; [exact Hc|]. split.
  - intros key fuel. rewrite (find_start 100000 c key ltac:(reflexivity) Hc). unfold expiry_shard. now rewrite N2Nat.id.
  - intros max on ops e Hin E. apply (brun_shard expiry_shard) in Hin; [|apply placed_new]. rewrite E in Hin.
    apply (f_equal N.of_nat) in Hin. unfold expiry_shard in Hin. rewrite N2Nat.id in Hin. vm_compute in Hin. discriminate.
Qed.

(** * A run: the message of "a.b" expires, its space goes to "a.c", then to "a.d" *)
Definition ttl (now : Z) (t p : bytes) (e : N) : dop := DoPut now (mkUE None t p e 0 false None 0).
Definition E1 : N := 1700083300.
Definition T1 : Z := 1700084000 * 1000000000.
Definition topD : bytes := [97; 46; 100]%N.
Definition reuse_ops1 : list xop :=
  map XDo ([open_x T0; put_x T0 topC (repeat 9%N 131); ttl T0 topA (repeat 1%N 138) E1] ++ flush (T0 + 10) ++ [get_x T1 topA]).
Definition reuse_ops2 : list xop := reuse_ops1 ++ XExpire T1 :: map XDo (put_x T1 topB (repeat 2%N 138) :: flush (T1 + 10)).
Definition reuse_ops3 : list xop :=
  XDo (get_x (T1 + 10) topA) :: XExpire (T1 + 10) :: map XDo (put_x (T1 + 10) topD (repeat 3%N 138) :: flush (T1 + 20)).
Definition xouts (ops : list xop) : list dout := snd (xrun dy expiry_shard (Down no_files) (newExpiry true) ops).
Lemma reuse_before : xouts (reuse_ops2 ++ [XDo (get_x (T1 + 10) topB)]) =
  [OOpened true; ORes DOk; ORes DOk; ODone; ODone; ORes DOk; OGot (QItems []); ODone; ORes DOk; ODone; ODone; ORes DOk; OGot (QItems [repeat 2%N 138])].
Proof. vm_compute. reflexivity. Qed.
Lemma reuse_after : xouts (reuse_ops2 ++ XDo (get_x (T1 + 10) topB) :: reuse_ops3 ++ [XDo (get_x (T1 + 20) topB)]) =
  [OOpened true; ORes DOk; ORes DOk; ODone; ODone; ORes DOk; OGot (QItems []); ODone; ORes DOk; ODone; ODone; ORes DOk; OGot (QItems [repeat 2%N 138])] ++
  [OGot (QItems []); ODone; ORes DOk; ODone; ODone; ORes DOk; OGot (QItems [repeat 3%N 138])].
Proof. vm_compute. reflexivity. Qed.

(** The same run up to the first job. *)
Definition reuse_entry : wentry := mkWE 2 E1.
Definition at_job {A} (f : db -> expiry -> A) : option A :=
  match xrun dy expiry_shard (Down no_files) (newExpiry true) reuse_ops1 with (Up s, b, _) => Some (f s b) | _ => None end.
Lemma job_takes : at_job (fun s b => (snd (get_expired T1 (c_def dy) b), read_ranges s [reuse_entry], l_blocks (d_lease s), l_size (d_lease s),
    option_map (fun x => (d_count (fst x), ranges (d_lease (fst x)))) (expire_entries (c_def dy) T1 s b))) =
  Some ([reuse_entry], [(173, 185%N)], l_blocks (newLease (c_find dy) (c_min dy)), 0, Some (1%N, [(173, 185%N)])).
Proof. vm_compute. reflexivity. Qed.
Lemma job_history : history (newLease (c_find dy) (c_min dy)) [(0, 173%N); (173, 185%N)].
Proof.
  apply h_new; [exact (so_find _ _ dy_ok)| |].
  - repeat constructor; cbn; lia.
  - intros x. cbn [cover filter length in_rangeb fst snd]. unfold cover. cbn [filter]. unfold in_rangeb; cbn [fst snd].
    destruct ((0 <=? x) && _)%bool eqn:E1; destruct ((173 <=? x) && _)%bool eqn:E2; cbn [length]; lia.
Qed.
Lemma reused : exists ops1 ops2 outs1 outs2 p p',
  xouts (ops1 ++ [XDo (get_x (T1 + 10) topB)]) = outs1 ++ [OGot (QItems [p])] /\
  xouts (ops1 ++ XDo (get_x (T1 + 10) topB) :: ops2 ++ [XDo (get_x (T1 + 20) topB)]) = outs2 ++ [OGot (QItems [p'])] /\
  Forall (fun o => match o with XDo (DoPut _ e) => u_topic e <> topB | XDo (DoDelete _) | XDo (DoOpen _ _ _ _ _) => False | _ => True end) ops2 /\ p <> p'.
Proof.
  exists reuse_ops2, reuse_ops3, [OOpened true; ORes DOk; ORes DOk; ODone; ODone; ORes DOk; OGot (QItems []); ODone; ORes DOk; ODone; ODone; ORes DOk],
    [OOpened true; ORes DOk; ORes DOk; ODone; ODone; ORes DOk; OGot (QItems []); ODone; ORes DOk; ODone; ODone; ORes DOk; OGot (QItems [repeat 2%N 138]); OGot (QItems []); ODone; ORes DOk; ODone; ODone; ORes DOk],
    (repeat 2%N 138), (repeat 3%N 138).
  split; [exact reuse_before|]. split; [exact reuse_after|]. split.
  - unfold reuse_ops3, flush, get_x, put_x. cbn [map]. repeat constructor. cbn. discriminate.
  - discriminate.
Qed.
