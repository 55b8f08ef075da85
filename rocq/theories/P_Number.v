(** Proofs about the number of a topic and about "last". *)
From Verif Require Import M_Bytes M_Hash P_Hash M_MsgId P_Codec M_Topic M_Trie M_Query S_Trie S_Number P_Topic P_Trie P_Trie2.
From Coq Require Import ZArith Lia ZifyBool ZifyNat ZifyN.
Open Scope N_scope.

Lemma xor_fold l : forall a, fold_left N.lxor l a = N.lxor a (xor_all l).
Proof.
  induction l as [|x l IH]; intros a; cbn [fold_left xor_all fold_right]; [now rewrite N.lxor_0_r|].
  rewrite IH, N.lxor_assoc. reflexivity.
Qed.
Lemma fold_map {A B} (f : B -> A) (g : A -> A -> A) l : forall a, fold_left (fun h q => g h (f q)) l a = fold_left g (map f l) a.
Proof. induction l as [|x l IH]; intros a; [reflexivity|]. cbn [fold_left map]. apply IH. Qed.
Lemma compiled_mixed c ls ps : compiled c ls ps ->
  map p_hash ps = flat_map (fun l => match l with Lit n => [hash_salt n c] | Star => [] end) ls.
Proof.
  induction 1 as [|n k ls ps H IH]; [reflexivity|]. cbn [map flat_map p_hash app]. f_equal.
  rewrite flat_map_app, IH. clear. induction k as [|k IHk]; [reflexivity|exact IHk].
Qed.
Lemma lxor_bound a b n : a < 2 ^ n -> b < 2 ^ n -> N.lxor a b < 2 ^ n.
Proof.
  intros Ha Hb. assert (H : N.lxor a b mod 2 ^ n = N.lxor a b).
  { rewrite <- N.land_ones. apply N.bits_inj. intros i. rewrite N.land_spec, N.lxor_spec.
    destruct (N.ltb_spec i n) as [Hi|Hi]; [rewrite N.ones_spec_low by exact Hi; apply andb_true_r|].
    assert (forall x, x < 2 ^ n -> N.testbit x i = false) as Hz.
    { intros x Hx. rewrite <- (N.mod_small x (2 ^ n)) by exact Hx. now apply N.mod_pow2_bits_high. }
    rewrite (Hz a Ha), (Hz b Hb). reflexivity. }
  rewrite <- H. apply N.mod_lt. apply N.pow_nonzero. discriminate.
Qed.
Lemma xor_all_bound l n : Forall (fun x => x < 2 ^ n) l -> xor_all l < 2 ^ n.
Proof.
  induction 1 as [|x l Hx H IH]; cbn [xor_all fold_right]; [|now apply lxor_bound].
  pose proof (N.pow_nonzero 2 n ltac:(discriminate)). lia.
Qed.
Lemma mixed_bound c p : plain c p -> Forall (fun x => x < 2 ^ 32) (mixed c p).
Proof.
  intros (Hc & _). constructor; [exact Hc|]. apply Forall_app. split.
  - apply Forall_forall. intros x Hx. apply in_flat_map in Hx. destruct Hx as ([n|] & _ & Hx); [|destruct Hx].
    destruct Hx as [<-|[]]. apply hash_salt_bound.
  - destruct (pt_multi p); constructor; [reflexivity|constructor].
Qed.

Lemma number_eq c p : plain c p ->
  get_hash c (filed c (text p)) = xor_all (mixed c p) * 2 ^ 32 + (c mod 2 ^ 24) * 2 ^ 8 + N.of_nat (levels p).
Proof.
  intros Hp. pose proof (mixed_bound c p Hp) as Hb.
  destruct (filed_plain c p (text p) Hp (or_introl eq_refl)) as (ps & H1 & H2 & H3 & _).
  unfold fparts, fdepth in *. unfold get_hash. rewrite H2, H3.
  assert (Hm : xor_all (mixed c p) = fold_left (fun h q => N.lxor h (p_hash q))
                 (ps ++ (if pt_multi p then [mkPart Wildcard 0] else [])) c).
  { rewrite (fold_map p_hash N.lxor), xor_fold, map_app, (compiled_mixed _ _ _ H1). unfold mixed. cbn [xor_all fold_right].
    f_equal. f_equal. f_equal. destruct (pt_multi p); reflexivity. }
  remember (ps ++ (if pt_multi p then [mkPart Wildcard 0] else [])) as qs eqn:Eq.
  assert (Hne : qs <> []).
  { subst qs. destruct Hp as (_ & _ & _ & Hs & _ & _). inversion H1 as [Hl Hps|n k ls ps' ? Hl Hps].
    - rewrite <- Hl in Hs. rewrite Hs. cbn. discriminate.
    - discriminate. }
  destruct qs as [|q qs]; [now elim Hne|]. cbn [p_hash]. cbv zeta. rewrite <- Hm.
  assert (Hd : N.of_nat (length (pt_levels p)) + b2n (pt_multi p) = N.of_nat (levels p)).
  { unfold levels. destruct (pt_multi p); cbn [b2n]; lia. }
  rewrite Hd. assert (Hl : N.of_nat (levels p) < 2 ^ 8).
  { destruct Hp as (_ & _ & _ & _ & Hl & _). unfold levels. change (2 ^ 8) with 256. destruct (pt_multi p); lia. }
  pose proof (xor_all_bound _ _ Hb) as Hx. unfold u32, u64. rewrite !N.shiftl_mul_pow2.
  change (2 ^ 32) with (2 ^ 24 * 2 ^ 8) at 2. rewrite N.mul_mod_distr_r by discriminate.
  assert (Hor : N.lor (c mod 2 ^ 24 * 2 ^ 8) (N.of_nat (levels p)) = c mod 2 ^ 24 * 2 ^ 8 + N.of_nat (levels p)).
  { rewrite <- N.shiftl_mul_pow2. symmetry. rewrite <- N.lxor_lor.
    - apply N.add_nocarry_lxor. apply N.bits_inj. intros i. rewrite N.land_spec, N.bits_0.
      destruct (N.ltb_spec i 8) as [Hi|Hi]; [rewrite N.shiftl_spec_low by exact Hi; reflexivity|].
      rewrite <- (N.mod_small (N.of_nat (levels p)) (2 ^ 8)) by exact Hl. rewrite N.mod_pow2_bits_high by exact Hi. apply andb_false_r.
    - apply N.bits_inj. intros i. rewrite N.land_spec, N.bits_0.
      destruct (N.ltb_spec i 8) as [Hi|Hi]; [rewrite N.shiftl_spec_low by exact Hi; reflexivity|].
      rewrite <- (N.mod_small (N.of_nat (levels p)) (2 ^ 8)) by exact Hl. rewrite N.mod_pow2_bits_high by exact Hi. apply andb_false_r. }
  rewrite Hor. pose proof (N.mod_lt c (2 ^ 24) ltac:(discriminate)) as Hc.
  rewrite N.mod_small; [lia|].
  change (2 ^ 64) with (2 ^ 32 * 2 ^ 32). change (2 ^ 32) with 4294967296 in *. change (2 ^ 24) with 16777216 in *. change (2 ^ 8) with 256 in *. nia.
Qed.

Lemma same_number c1 p1 c2 p2 : plain c1 p1 -> plain c2 p2 ->
  get_hash c1 (filed c1 (text p1)) = get_hash c2 (filed c2 (text p2)) <->
  c1 mod 2 ^ 24 = c2 mod 2 ^ 24 /\ levels p1 = levels p2 /\ xor_all (mixed c1 p1) = xor_all (mixed c2 p2).
Proof.
  intros H1 H2. rewrite (number_eq _ _ H1), (number_eq _ _ H2). split; [|now intros (-> & -> & ->)].
  assert (Hl : forall c p, plain c p -> N.of_nat (levels p) < 256).
  { intros c p (_ & _ & _ & _ & Hl & _). unfold levels. destruct (pt_multi p); lia. }
  pose proof (Hl _ _ H1) as L1. pose proof (Hl _ _ H2) as L2.
  pose proof (N.mod_lt c1 (2 ^ 24) ltac:(discriminate)) as C1. pose proof (N.mod_lt c2 (2 ^ 24) ltac:(discriminate)) as C2.
  change (2 ^ 32) with 4294967296. change (2 ^ 24) with 16777216 in *. change (2 ^ 8) with 256 in *.
  intros E. assert (xor_all (mixed c1 p1) = xor_all (mixed c2 p2)) by nia. assert (c1 mod 16777216 = c2 mod 16777216) by nia. lia.
Qed.

(** * "last" *)
Open Scope Z_scope.
Lemma recent_last t now d seq k : 1000000000 <= now - d -> Offset * 1000000000 <= t < (Offset + 2 ^ 32) * 1000000000 -> (seq < 2 ^ 64)%N -> (k < 2 ^ 32)%N ->
  (now - d <= t -> evalPrefix (id_prefix (id_setContract (newID (unix t) seq) k)) k (unix (now - d)) = true) /\
  (t <= now - d - 1000000000 -> evalPrefix (id_prefix (id_setContract (newID (unix t) seq) k)) k (unix (now - d)) = false).
Proof.
  intros Hp Ht Hs Hk. assert (Hr : Offset <= unix t < Offset + 2 ^ 32).
  { unfold unix. split; [apply Z.div_le_lower_bound; lia|apply Z.div_lt_upper_bound; lia]. }
  pose proof (C10_new (unix t) seq k k (unix (now - d)) Hr Hs Hk) as H. split; intros Hd.
  - apply H. split; [reflexivity|]. right. unfold unix. apply Z.div_le_mono; lia.
  - apply Bool.not_true_iff_false. intros E. apply H in E. destruct E as [_ E].
    assert (1 <= unix (now - d)) by (unfold unix; apply Z.div_le_lower_bound; lia).
    assert (unix t < unix (now - d)); [|lia].
    assert (unix t <= unix (now - d - 1000000000)) by (unfold unix; apply Z.div_le_mono; lia).
    assert (unix (now - d - 1000000000) = unix (now - d) - 1); [|lia].
    unfold unix. replace (now - d - 1000000000) with (now - d + (-1) * 1000000000) by lia. rewrite Z.div_add by lia. lia.
Qed.
Lemma last_topic pd now opts txt d def max ql c : get_option opts kLast = Some (txt, 0) -> pd txt = Some d ->
  snd (parse_limit def max ql c (topic_last pd now opts)) = unix (now - d).
Proof. intros Ho Hd. unfold topic_last. rewrite Ho. change (0 <? 0) with false. unfold dur0. rewrite Hd. cbv iota. reflexivity. Qed.
Lemma last_with pd now txt d def max ql c def' max' : pd txt = Some d ->
  snd (parse_limit def' max' (fst (with_last pd now def max txt ql c)) (snd (with_last pd now def max txt ql c)) None) = unix (now - d).
Proof. intros Hd. unfold with_last. rewrite Hd. reflexivity. Qed.
Lemma last_unread pd now opts txt n def max ql c : get_option opts kLast = Some (txt, n) -> n <= 0 -> pd txt = None ->
  snd (parse_limit def max ql c (topic_last pd now opts)) = unix now.
Proof. intros Ho Hn Hd. unfold topic_last. rewrite Ho. replace (0 <? n) with false by lia. unfold dur0. rewrite Hd, Z.sub_0_r. reflexivity. Qed.
Lemma last_topic_ok pd now opts txt d def max limit c t seq k :
  get_option opts kLast = Some (txt, 0) -> pd txt = Some d -> 1000000000 <= now - d ->
  Offset * 1000000000 <= t < (Offset + 2 ^ 32) * 1000000000 -> (seq < 2 ^ 64)%N -> (k < 2 ^ 32)%N ->
  let from := snd (parse_limit def max limit c (topic_last pd now opts)) in
  (now - d <= t -> evalPrefix (id_prefix (id_setContract (newID (unix t) seq) k)) k from = true) /\
  (t <= now - d - 1000000000 -> evalPrefix (id_prefix (id_setContract (newID (unix t) seq) k)) k from = false).
Proof. intros Ho Hd Hn Ht Hs Hk. cbv zeta. rewrite (last_topic pd now opts txt d def max limit c Ho Hd). now apply recent_last. Qed.
Lemma last_with_ok pd now txt d def max limit c t seq k :
  pd txt = Some d -> 1000000000 <= now - d ->
  Offset * 1000000000 <= t < (Offset + 2 ^ 32) * 1000000000 -> (seq < 2 ^ 64)%N -> (k < 2 ^ 32)%N ->
  let (l, c') := with_last pd now def max txt limit c in
  let from := snd (parse_limit def max l c' None) in
  (now - d <= t -> evalPrefix (id_prefix (id_setContract (newID (unix t) seq) k)) k from = true) /\
  (t <= now - d - 1000000000 -> evalPrefix (id_prefix (id_setContract (newID (unix t) seq) k)) k from = false).
Proof.
  intros Hd Hn Ht Hs Hk. pose proof (last_with pd now txt d def max limit c def max Hd) as H.
  destruct (with_last pd now def max txt limit c) as [l c']. cbn [fst snd] in H. cbv zeta. rewrite H. now apply recent_last.
Qed.
Lemma last_unread_none pd now opts txt n def max limit c t seq k :
  get_option opts kLast = Some (txt, n) -> n <= 0 -> pd txt = None -> 1000000000 <= now ->
  Offset * 1000000000 <= t < (Offset + 2 ^ 32) * 1000000000 -> (seq < 2 ^ 64)%N -> (k < 2 ^ 32)%N ->
  t <= now - 1000000000 ->
  evalPrefix (id_prefix (id_setContract (newID (unix t) seq) k)) k
    (snd (parse_limit def max limit c (topic_last pd now opts))) = false.
Proof.
  intros Ho Hn Hd Hnow Ht Hs Hk Hold. rewrite (last_unread pd now opts txt n def max limit c Ho Hn Hd).
  rewrite <- (Z.sub_0_r now). apply recent_last; try assumption; lia.
Qed.
Lemma number_examples :
  let a := mkPattern [Lit [97]%N] false in let ab := mkPattern [Lit [97]%N; Lit [98]%N] false in
  let ba := mkPattern [Lit [98]%N; Lit [97]%N] false in
  (plain 7 a /\ plain 7 ab /\ plain 7 ba) /\
  get_hash 7 (filed 7 (text a)) <> get_hash 7 (filed 7 (text ab)) /\
  get_hash 7 (filed 7 (text ab)) = get_hash 7 (filed 7 (text ba)) /\
  get_hash 7 (filed 7 (text ab)) <> get_hash 8 (filed 8 (text ab)).
Proof.
  cbv zeta. split; [|split; [vm_compute; discriminate|split; [vm_compute; reflexivity|vm_compute; discriminate]]].
  assert (Ha : hash_salt [97]%N 7 <> Wildcard) by (vm_compute; discriminate).
  assert (Hb : hash_salt [98]%N 7 <> Wildcard) by (vm_compute; discriminate).
  assert (Hn : forall x, x = 97%N \/ x = 98%N -> name_ok [x]).
  { intros x Hx. split; [discriminate|]. repeat constructor; destruct Hx; subst; discriminate. }
  unfold plain. cbn [pt_levels pt_multi]. repeat split; try (repeat constructor; fail);
    try (constructor; [apply Hn; auto|]); try (constructor; [apply Hn; auto|]); try constructor; try discriminate; try (cbn; lia);
    intros n Hin; cbn in Hin; repeat (destruct Hin as [Hin|Hin]; [injection Hin as <-; assumption|]); destruct Hin.
Qed.
