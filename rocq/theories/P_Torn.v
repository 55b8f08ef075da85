(** Proofs for C75: opening a directory with a log that lost its end. *)
From Verif Require Import M_Bytes P_Bytes M_Hash M_Bloom M_File P_File M_Wal S_Wal P_Wal M_MemDB S_MemDB S_Abort P_MemBlock P_MemDB P_MemGet P_MemLog P_MemEx.
From Coq Require Import Lia ZifyBool ZifyNat ZifyN.
Open Scope Z_scope.


Lemma dget_app_l a b n : ~ In n (map fst b) -> dget (a ++ b) n = dget a n.
Proof.
  intros H. rewrite dget_app. destruct (dget a n); [reflexivity|]. induction b as [|[m x] b IH]; cbn [dget map fst In] in *; [reflexivity|].
  destruct (fname_eqb_spec n m) as [->|]; [exfalso; apply H; now left|]. apply IH. tauto.
Qed.
Lemma dget_app_r a b n : ~ In n (map fst a) -> dget (a ++ b) n = dget b n.
Proof.
  intros H. rewrite dget_app. induction a as [|[m x] a IH]; cbn [dget map fst In] in *; [reflexivity|].
  destruct (fname_eqb_spec n m) as [->|]; [exfalso; apply H; now left|]. apply IH. tauto.
Qed.
Lemma in_all_ids d id : In id (all_ids d) <-> In (FLog id) (map fst d).
Proof.
  unfold all_ids. rewrite in_flat_map, in_map_iff. split.
  - intros ([n x] & Hin & Hi). cbn [fst] in Hi. destruct n; cbn [In] in Hi; try contradiction. destruct Hi as [->|[]]. exists (FLog id, x). auto.
  - intros ([n x] & E & Hin). cbn [fst] in E. subst n. exists (FLog id, x). split; [exact Hin|]. now left.
Qed.
Definition one_log (d : dir) (id : Z) : Z * (list bytes * endstate) :=
  match read_log d id with (info, buf, _) => (id, read_records (N.to_nat (li_count info)) buf 0) end.
Lemma replay_mid d1 id f d2 : NoDup (all_ids (d1 ++ (FLog id, f) :: d2)) ->
  replay (d1 ++ (FLog id, f) :: d2) = replay d1 ++ one_log [(FLog id, f)] id :: replay d2.
Proof.
  intros Nd. rewrite all_ids_app in Nd. change (all_ids ((FLog id, f) :: d2)) with (id :: all_ids d2) in Nd.
  unfold replay. rewrite all_ids_app, map_app. change (all_ids ((FLog id, f) :: d2)) with (id :: all_ids d2). cbn [map].
  assert (H1 : forall x, In x (all_ids d1) -> x <> id /\ ~ In x (all_ids d2)).
  { intros x Hx. apply in_split in Hx as (a & b & E). rewrite E, <- app_assoc in Nd. cbn [app] in Nd. apply NoDup_remove_2 in Nd. rewrite !in_app_iff in Nd. cbn [In] in Nd.
    split; [intros ->|]; tauto. }
  apply NoDup_remove_2 in Nd as Hid. rewrite in_app_iff in Hid. f_equal; [|f_equal].
  - apply map_ext_in. intros x Hx. destruct (H1 x Hx) as [Hne Hn2]. rewrite (read_log_ext _ d1); [reflexivity|]. apply dget_app_l. cbn [map fst In]. rewrite <- in_all_ids. intros [E|E]; [congruence|contradiction].
  - unfold one_log. rewrite (read_log_ext _ [(FLog id, f)]); [reflexivity|]. rewrite dget_app_r by (rewrite <- in_all_ids; tauto). cbn [dget]. now rewrite fname_eqb_refl.
  - apply map_ext_in. intros x Hx. rewrite (read_log_ext _ d2); [reflexivity|]. assert (Hne : x <> id) by (intros ->; tauto). rewrite dget_app_r.
    + cbn [dget]. destruct (fname_eqb_spec (FLog x) (FLog id)); [congruence|reflexivity].
    + rewrite <- in_all_ids. intros Hi. destruct (H1 x Hi). contradiction.
Qed.

Lemma skip_empty c l1 : forall s id X dels, recover_logs c s (map whole l1 ++ (id, ([], EndOk)) :: X) dels = recover_logs c s (map whole l1 ++ X) dels.
Proof.
  induction l1 as [|[i rs] l IH]; intros s id X dels; cbn [map app whole fst snd recover_logs]; [reflexivity|].
  destruct (recover_log _ _ _ _ _ _ _) as [[s' dels']|]; [apply IH|reflexivity].
Qed.
Lemma stop_there c l1 : forall s id X dels, recover_logs c s (map whole l1 ++ (id, ([], EndErr)) :: X) dels = recover_logs c s (map whole l1) dels.
Proof.
  induction l1 as [|[i rs] l IH]; intros s id X dels; cbn [map app whole fst snd recover_logs]; [reflexivity|].
  destruct (recover_log _ _ _ _ _ _ _) as [[s' dels']|]; [apply IH|reflexivity].
Qed.
Lemma cut_one id f k : (k < logHeaderSize)%nat -> one_log [(FLog id, firstn k f)] id = (id, ([], EndOk)).
Proof. intros Hk. unfold one_log. rewrite (cut_header _ id k Hk f); [reflexivity|]. cbn [dget]. now rewrite fname_eqb_refl. Qed.
Lemma header_one id rs : log_ok id rs -> one_log [(FLog id, firstn logHeaderSize (logfile id rs))] id = (id, ([], EndErr)).
Proof.
  intros (Hid & Hne & Hnn & Hsz). unfold one_log, read_log. cbn [dget]. rewrite fname_eqb_refl.
  set (h := li_marshal (mkLI 1 id (N.of_nat (length rs)) (records_size rs))).
  assert (Hh : firstn logHeaderSize (logfile id rs) = h).
  { unfold logfile. fold h. pose proof (li_marshal_length (mkLI 1 id (N.of_nat (length rs)) (records_size rs))) as L. fold h in L. unfold logHeaderSize in *.
    rewrite firstn_app, L, firstn_all2 by lia. change (firstn (18 - 18) (P_Wal.enc rs)) with (@nil N). apply app_nil_r. }
  rewrite Hh. pose proof (li_marshal_length (mkLI 1 id (N.of_nat (length rs)) (records_size rs))) as L. fold h in L.
  rewrite (read_at_data _ _ _ h); [|lia|unfold logHeaderSize; change (Z.to_nat 0) with O; lia|exact L|reflexivity].
  assert (Hm : li_unmarshal h = mkLI 1 id (N.of_nat (length rs)) (records_size rs)).
  { apply li_roundtrip; cbn [li_version li_timeID li_count li_size]; [reflexivity|assumption|pose proof (records_count rs); lia|assumption]. }
  cbv zeta. rewrite Hm. cbn [li_count li_size].
  replace (slice h logHeaderSize (N.to_nat (records_size rs))) with (@nil N) by (unfold slice; rewrite skipn_all2 by (unfold logHeaderSize; lia); now rewrite firstn_nil).
  change (length (@nil N)) with 0%nat. rewrite Nat.sub_0_r, Nat2N.id. cbn [app]. f_equal.
  assert (Hs : (4 <= N.to_nat (records_size rs))%nat) by (destruct rs; [congruence|]; cbn [records_size fold_right]; lia).
  destruct rs as [|r rs]; [congruence|]. cbn [length read_records]. rewrite repeat_length. change (0 + 4)%nat with 4%nat.
  destruct (Nat.ltb_spec (N.to_nat (records_size (r :: rs))) 4); [lia|].
  destruct (N.to_nat (records_size (r :: rs))) as [|[|[|[|n]]]]; try lia. reflexivity.
Qed.

Lemma torn_header c gens d1 d2 l1 l2 id f k now : cfg_ok c gens -> logs_ok c (l1 ++ l2) -> replay d1 = map whole l1 -> replay d2 = map whole l2 ->
  NoDup (all_ids (d1 ++ (FLog id, firstn k f) :: d2)) -> (k < logHeaderSize)%nat ->
  (forall a, In a (l1 ++ l2) -> trunc (fst a) (c_logint c) <= trunc now (c_dur c)) ->
  exists s, mem_open c gens (d1 ++ (FLog id, firstn k f) :: d2) now = Some s /\ ginv c s (recovered c (l1 ++ l2) now).
Proof.
  intros Hc Lo H1 H2 Nd Hk Ht. apply recover_inv_as; try assumption. rewrite replay_mid, cut_one, H1, H2 by assumption.
  rewrite skip_empty, <- map_app. reflexivity.
Qed.
Lemma torn_stop c gens d1 d2 l1 id rs now : cfg_ok c gens -> logs_ok c l1 -> log_ok id rs -> replay d1 = map whole l1 ->
  NoDup (all_ids (d1 ++ (FLog id, firstn logHeaderSize (logfile id rs)) :: d2)) ->
  (forall a, In a l1 -> trunc (fst a) (c_logint c) <= trunc now (c_dur c)) ->
  exists s, mem_open c gens (d1 ++ (FLog id, firstn logHeaderSize (logfile id rs)) :: d2) now = Some s /\ ginv c s (recovered c l1 now).
Proof.
  intros Hc Lo Hl H1 Nd Ht. apply recover_inv_as; try assumption. rewrite replay_mid, header_one, H1 by assumption.
  rewrite stop_there. reflexivity.
Qed.
Lemma torn_header_run c gens d1 d2 l1 l2 id f k now : cfg_ok c gens -> logs_ok c (l1 ++ l2) -> replay d1 = map whole l1 -> replay d2 = map whole l2 ->
  NoDup (all_ids (d1 ++ (FLog id, firstn k f) :: d2)) -> (k < logHeaderSize)%nat ->
  (forall a, In a (l1 ++ l2) -> trunc (fst a) (c_logint c) <= trunc now (c_dur c)) ->
  exists s, mem_open c gens (d1 ++ (FLog id, firstn k f) :: d2) now = Some s /\
    forall h s', mrun c s h s' ->
    (forall h1 o out h2 g1, h = h1 ++ (o, out) :: h2 -> gacts_all c (recovered c (l1 ++ l2) now) h1 g1 -> allowed c g1 o /\ op_ok o) ->
    exists g, gacts_all c (recovered c (l1 ++ l2) now) h g.
Proof.
  intros Hc Lo H1 H2 Nd Hk Ht. destruct (torn_header c gens d1 d2 l1 l2 id f k now Hc Lo H1 H2 Nd Hk Ht) as (s & E & G). exists s. split; [exact E|].
  intros h s' Hr Ha. destruct (grun c s h s' Hr _ G Ha) as (g & H & _). now exists g.
Qed.
Lemma torn_stop_run c gens d1 d2 l1 id rs now : cfg_ok c gens -> logs_ok c l1 -> log_ok id rs -> replay d1 = map whole l1 ->
  NoDup (all_ids (d1 ++ (FLog id, firstn logHeaderSize (logfile id rs)) :: d2)) ->
  (forall a, In a l1 -> trunc (fst a) (c_logint c) <= trunc now (c_dur c)) ->
  exists s, mem_open c gens (d1 ++ (FLog id, firstn logHeaderSize (logfile id rs)) :: d2) now = Some s /\
    forall h s', mrun c s h s' ->
    (forall h1 o out h2 g1, h = h1 ++ (o, out) :: h2 -> gacts_all c (recovered c l1 now) h1 g1 -> allowed c g1 o /\ op_ok o) ->
    exists g, gacts_all c (recovered c l1 now) h g.
Proof.
  intros Hc Lo Hl H1 Nd Ht. destruct (torn_stop c gens d1 d2 l1 id rs now Hc Lo Hl H1 Nd Ht) as (s & E & G). exists s. split; [exact E|].
  intros h s' Hr Ha. destruct (grun c s h s' Hr _ G Ha) as (g & H & _). now exists g.
Qed.

(** * Cases *)
Definition tl (id : Z) (k : N) (v : bytes) : Z * list (ikey * bytes) := (id, [((false, k), v)]).
Definition tfile (l : Z * list (ikey * bytes)) : fname * bytes := (FLog (fst l), logfile (fst l) [log_bytes (snd l)]).
Definition tcut (n : nat) (l : Z * list (ikey * bytes)) : fname * bytes := (FLog (fst l), firstn n (logfile (fst l) [log_bytes (snd l)])).
Lemma two_logs_ok : logs_ok ex_cfg [tl 10 1 vA; tl 30 3 vB].
Proof.
  split.
  - intros l1 a l2 b l3 E. destruct l1 as [|x [|y l1]]; cbn [app] in E.
    + injection E as <- E. destruct l2 as [|z [|z2 l2]]; cbn [app] in E; [|discriminate|discriminate].
      injection E as <- _. vm_compute. discriminate.
    + injection E as _ _ E. destruct l2; discriminate.
    + destruct l1; discriminate.
  - intros id k v Hin. cbn in Hin. repeat destruct Hin as [Hin|Hin]; try contradiction; injection Hin as <- <- <-; repeat constructor.
  - intros id1 id2 k v1 v2 H1 H2. cbn in H1, H2.
    repeat destruct H1 as [H1|H1]; try contradiction; try discriminate; injection H1 as <- <- <-;
    repeat destruct H2 as [H2|H2]; try contradiction; try discriminate; injection H2 as <- <-; reflexivity.
  - intros id k w H1. cbn in H1. repeat destruct H1 as [H1|H1]; try contradiction; discriminate.
  - intros l1 l2 id1 id2 k w v E. exfalso. cbn in E. destruct l1 as [|a [|b [|d l1]]]; cbn [app] in E; try discriminate.
Qed.
Lemma torn_hides : exists c gens d1 d2 l1 l2 id rs now s, cfg_ok c gens /\ logs_ok c (l1 ++ l2) /\ log_ok id rs /\
  replay d1 = map whole l1 /\ replay d2 = map whole l2 /\ NoDup (all_ids (d1 ++ (FLog id, firstn logHeaderSize (logfile id rs)) :: d2)) /\
  mem_open c gens (d1 ++ (FLog id, firstn logHeaderSize (logfile id rs)) :: d2) now = Some s /\
  exists k t v, g_slot (recovered c (l1 ++ l2) now) k = Held t v /\ snd (mem_get c s k) = GNotExist.
Proof.
  exists ex_cfg, [ex_gen], [tfile (tl 10 1 vA)], [tfile (tl 30 3 vB)], [tl 10 1 vA], [tl 30 3 vB], 20, [[7%N]], 50.
  exists (ex_open [tfile (tl 10 1 vA); (FLog 20, firstn logHeaderSize (logfile 20 [[7%N]])); tfile (tl 30 3 vB)] 50).
  split; [exact ex_cfg_ok|]. split; [exact two_logs_ok|]. split; [repeat split; try discriminate; repeat constructor; discriminate|].
  split; [vm_compute; reflexivity|]. split; [vm_compute; reflexivity|]. split; [cbn; repeat constructor; cbn; lia|]. split; [vm_compute; reflexivity|].
  exists 3%N, 30, vB. split; vm_compute; reflexivity.
Qed.
(** Two entries in one log. *)
Definition tl2 : Z * list (ikey * bytes) := (10, [((false, 1%N), vA); ((false, 3%N), vB)]).
Lemma torn_panic : exists c gens id es n now, cfg_ok c gens /\ logs_ok c [(id, es)] /\ log_ok id [log_bytes es] /\
  mem_open c gens [(FLog id, logfile id [log_bytes es])] now <> None /\ mem_open c gens [(FLog id, firstn n (logfile id [log_bytes es]))] now = None.
Proof.
  exists ex_cfg, [ex_gen], 10, (snd tl2), 40%nat, 50. split; [exact ex_cfg_ok|]. split.
  { split.
    - intros l1 a l2 b l3 E. destruct l1 as [|x l1]; cbn [app] in E; [injection E as _ E; destruct l2; discriminate|destruct l1; discriminate].
    - intros id k v Hin. cbn in Hin. repeat destruct Hin as [Hin|Hin]; try contradiction; injection Hin as <- <- <-; repeat constructor.
    - intros id1 id2 k v1 v2 H1 H2. cbn in H1, H2. repeat destruct H1 as [H1|H1]; try contradiction; injection H1 as <- <- <-;
      repeat destruct H2 as [H2|H2]; try contradiction; try discriminate; injection H2 as <- <-; reflexivity.
    - intros id k w H1. cbn in H1. repeat destruct H1 as [H1|H1]; try contradiction; discriminate.
    - intros l1 l2 id1 id2 k w v E. exfalso. cbn in E. destruct l1 as [|a [|b [|d l1]]]; cbn [app] in E; try discriminate. }
  split; [repeat split; try discriminate; repeat constructor; discriminate|]. split; [|vm_compute; reflexivity].
  intros E. assert (H : match mem_open ex_cfg [ex_gen] [(FLog 10, logfile 10 [log_bytes (snd tl2)])] 50 with Some _ => true | None => false end = true) by (vm_compute; reflexivity).
  rewrite E in H. discriminate.
Qed.
(** The same log cut within the last value. *)
Lemma torn_value : exists c gens id es n now s k v w, cfg_ok c gens /\ log_ok id [log_bytes es] /\
  mem_open c gens [(FLog id, firstn n (logfile id [log_bytes es]))] now = Some s /\ In ((false, k), v) es /\
  snd (mem_get c s k) = GOk w /\ ~ In w (map snd es).
Proof.
  exists ex_cfg, [ex_gen], 10, (snd tl2), 60%nat, 50, (ex_open [tcut 60 tl2] 50), 3%N, vB, [2; 2; 2; 2; 0; 0; 0; 0]%N.
  split; [exact ex_cfg_ok|]. split; [repeat split; try discriminate; repeat constructor; discriminate|]. split; [vm_compute; reflexivity|].
  split; [right; left; reflexivity|]. split; [vm_compute; reflexivity|]. cbn. intros [E|[E|[]]]; discriminate.
Qed.
