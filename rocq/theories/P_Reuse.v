(** Proofs about the use of free space (C122). *)
From Verif Require Import M_Consistent.
From Verif Require Import M_Bytes M_Lease S_Lease P_Lease P_ExpiryEx P_OnlyEx.
From Coq Require Import Lia ZifyBool ZifyNat ZifyN Sorted Permutation.
Open Scope Z_scope.

Definition sized (l : list fblock) : Prop := StronglySorted (fun a b => (snd a <= snd b)%N) l.
Lemma search_first f : forall fuel i j, (i <= j)%nat -> (j - i <= fuel)%nat ->
  (forall a b, (a <= b < j)%nat -> f a = true -> f b = true) ->
  (forall k, (k < i)%nat -> f k = false) ->
  exists r, sort_search fuel i j f = Some r /\ forall k, (k < r)%nat -> f k = false.
Proof.
  induction fuel as [|fuel IH]; intros i j Hij Hf Hm Hlow; cbn [sort_search].
  - destruct (Nat.ltb_spec i j); [lia|]. exists i. auto.
  - destruct (Nat.ltb_spec i j) as [L|L]; [|exists i; auto].
    pose proof (Nat.div_mod (i + j) 2 ltac:(lia)). pose proof (Nat.mod_upper_bound (i + j) 2 ltac:(lia)).
    set (h := ((i + j) / 2)%nat) in *. destruct (f h) eqn:E.
    + apply IH; [lia|lia| |exact Hlow]. intros a b Hab. apply Hm. lia.
    + apply IH; [lia|lia|exact Hm|]. intros k Hk. destruct (f k) eqn:Ek; [|reflexivity]. rewrite (Hm k h) in E; [discriminate|lia|exact Ek].
Qed.
Lemma sized_nth l : sized l -> forall a b x y, (a <= b)%nat -> nth_error l a = Some x -> nth_error l b = Some y -> (snd x <= snd y)%N.
Proof.
  induction 1 as [|z l S IH F]; intros a b x y L Ha Hb; [destruct a; discriminate|].
  destruct a as [|a], b as [|b]; cbn in Ha, Hb; [assert (x = y) by congruence; subst; lia| |lia|eapply IH; [|eassumption..]; lia].
  inversion Ha; subst. rewrite Forall_forall in F. apply F. eapply nth_error_In; eauto.
Qed.
Lemma found_first l size s : get_shard l (l_find l size) = Some s -> (0 < size)%N -> l_min l <= l_size l -> sized (s_fb s) ->
  (exists r, In r (s_fb s) /\ (size <= snd r)%N) ->
  exists off n, snd (allocate l size) = AOff off /\ In (off, n) (s_fb s) /\ (size <= n)%N /\ forall r, In r (s_fb s) -> (size <= snd r)%N -> (n <= snd r)%N.
Proof.
  intros Hs Hp Hm Hz (r & Ir & Hr). unfold allocate. replace (size =? 0)%N with false by lia. replace (l_size l <? l_min l) with false by lia.
  rewrite Hs. destruct (fb_search_ok (s_fb s) size) as (i & Ei & Hi & Hsize). rewrite Ei.
  assert (First : forall k x, nth_error (s_fb s) k = Some x -> (size <= snd x)%N -> (i <= k)%nat).
  { destruct (search_first (fun k => match nth_error (s_fb s) k with Some (_, n) => (size <=? n)%N | None => false end) (length (s_fb s)) 0 (length (s_fb s))) as (i' & E' & Hf); [lia|lia| |lia|].
    - intros a b Hab Ha. destruct (nth_error (s_fb s) a) as [[o n]|] eqn:Ea; [|discriminate]. destruct (nth_error (s_fb s) b) as [[o' n']|] eqn:Eb; [|apply nth_error_None in Eb; lia].
      pose proof (sized_nth _ Hz a b _ _ (proj1 Hab) Ea Eb). cbn in *. lia.
    - unfold fb_search in Ei. rewrite E' in Ei. inversion Ei; subst. intros k [o n] Hk Hn. destruct (Nat.le_gt_cases i k); [assumption|]. specialize (Hf k ltac:(assumption)). rewrite Hk in Hf. cbn in Hn. lia. }
  destruct (In_nth_error _ _ Ir) as (kr & Hkr). pose proof (First kr r Hkr Hr) as Hik.
  assert (kr < length (s_fb s))%nat by (apply nth_error_Some; congruence).
  destruct (nth_error (s_fb s) i) as [[off n]|] eqn:E; [|apply nth_error_None in E; lia]. exists off, n. cbn [snd].
  split; [reflexivity|]. split; [eapply nth_error_In; eauto|]. split; [apply (Hsize off n); reflexivity|].
  intros x Ix Hx. destruct (In_nth_error _ _ Ix) as (k & Hk). apply (sized_nth _ Hz i k (off, n) x); [eapply First; eauto|exact E|exact Hk].
Qed.

Lemma insert_sized x l : sized l -> sized (insert_by by_size x l).
Proof.
  induction 1 as [|y l S IH F]; cbn [insert_by]; [repeat constructor|]. unfold by_size at 1. destruct (N.ltb_spec (snd x) (snd y)) as [L|L].
  - constructor; [constructor; assumption|]. constructor; [lia|]. eapply Forall_impl; [|exact F]. cbn. intros; lia.
  - constructor; [exact IH|]. apply Forall_forall. intros z Iz.
    assert (P : Permutation (insert_by by_size x l) (x :: l)).
    { clear. induction l as [|y l IHl]; cbn [insert_by]; [reflexivity|]. destruct (by_size x y); [reflexivity|]. rewrite IHl. apply perm_swap. }
    apply (Permutation_in _ P) in Iz. rewrite Forall_forall in F. destruct Iz as [<-|Iz]; [lia|now apply F].
Qed.
Lemma sort_sized l : sized (sort_by by_size l).
Proof.
  unfold sort_by. assert (H : sized []) by constructor. revert H. generalize (@nil fblock) as acc.
  induction l as [|x l IH]; intros acc H; cbn [fold_left]; [exact H|]. apply IH. now apply insert_sized.
Qed.
Lemma defrag_sized s : (forall a b, In a (s_fb s) -> In b (s_fb s) -> fst a + Z.of_N (snd a) <> fst b) -> sized (s_fb (shard_defrag s)).
Proof.
  intros H. unfold shard_defrag. destruct (Nat.leb_spec (length (s_fb s)) 1) as [L|L].
  - destruct (s_fb s) as [|a [|b l]]; [constructor|repeat constructor|cbn in L; lia].
  - pose proof (sort_by_perm by_offset (s_fb s)) as P. destruct (sort_by by_offset (s_fb s)) as [|b0 rest] eqn:E.
    + apply Permutation_length in P. cbn in P. lia.
    + rewrite merge_loop_none by (intros a b Ha Hb; apply H; eapply Permutation_in; eassumption || exact P). cbn [s_fb].
      pose proof (sort_by_perm by_size (b0 :: rest)) as P2. rewrite skipn_all2 by (rewrite (Permutation_length P2); lia). rewrite app_nil_r. apply sort_sized.
Qed.
Lemma found_defrag l size s : get_shard l (l_find l size) = Some s -> (0 < size)%N -> l_min l <= l_size l ->
  (forall a b, In a (s_fb s) -> In b (s_fb s) -> fst a + Z.of_N (snd a) <> fst b) ->
  (exists r, In r (s_fb s) /\ (size <= snd r)%N) ->
  exists off n, snd (allocate (defrag l) size) = AOff off /\ In (off, n) (s_fb s) /\ (size <= n)%N /\ forall r, In r (s_fb s) -> (size <= snd r)%N -> (n <= snd r)%N.
Proof.
  intros Hs Hp Hm Ht (r & Ir & Hr). destruct (shard_defrag_none s Ht) as [P _].
  destruct (found_first (defrag l) size (shard_defrag s)) as (off & n & A & B & C & D).
  - unfold get_shard, defrag in *. cbn [l_blocks l_find]. now apply map_nth_error.
  - exact Hp.
  - exact Hm.
  - now apply defrag_sized.
  - exists r. split; [eapply Permutation_in; [symmetry; exact P|exact Ir]|exact Hr].
  - exists off, n. split; [exact A|]. split; [eapply Permutation_in; [exact P|exact B]|]. split; [exact C|].
    intros x Ix Hx. apply D; [|exact Hx]. eapply Permutation_in; [symmetry; exact P|exact Ix].
Qed.

(** ** With the shards of the code and the default minimum *)
Lemma real_find : exists c, initConsistent 27 27 = Some c /\ forall key fuel, findBlock c key fuel = Found (N.of_nat (real_shard key)).
Proof.
  destruct (initConsistent 27 27) as [c|] eqn:Hc; [|vm_compute in Hc; discriminate]. exists c. split; [reflexivity|].
  intros key fuel. rewrite (find_start 27 c key ltac:(reflexivity) Hc). unfold real_shard, start. rewrite N2Nat.id. reflexivity.
Qed.
Lemma real_below k : (real_shard k < nShards)%nat.
Proof.
  unfold real_shard, start.
  change (N.of_nat (length (repeat 0%N 27))) with 27%N. unfold wrap16, fastMod, wrap32, nShards.
  set (x := fl_d (fleaInit k)). assert (Hx : (x < 2 ^ 32)%N) by (unfold x, fleaInit, fleaRound, wrap32; cbn [fl_d]; apply N.mod_lt; discriminate).
  assert (H1 : ((x * 27) mod 2 ^ 64 / 2 ^ 32 < 27)%N).
  { rewrite N.mod_small by lia. apply N.div_lt_upper_bound; lia. }
  set (y := ((x * 27) mod 2 ^ 64 / 2 ^ 32)%N) in *. rewrite (N.mod_small y) by lia. rewrite N.mod_small by lia. lia.
Qed.
Definition default_min : Z := 134217728.
Lemma free_new find min off size i : find (to_unsigned 64 off) = i -> (i < nShards)%nat ->
  freeBlock (newLease find min) off size = Some (mkLease (M_Hash.update (repeat (mkShard [] []) nShards) i (mkShard [(off, size)] [off])) (0 + Z.of_N size) min find).
Proof.
  intros E Hi. unfold freeBlock, get_shard, newLease. cbn [l_find l_blocks l_size]. rewrite E.
  rewrite (nth_error_repeat (mkShard [] []) Hi). reflexivity.
Qed.
Definition one_free : lease :=
  mkLease (M_Hash.update (repeat (mkShard [] []) nShards) 12 (mkShard [(200, 134217728%N)] [200])) (0 + Z.of_N 134217728) default_min real_shard.
Lemma one_history : history one_free [].
Proof.
  eapply (h_free (newLease real_shard default_min) [] 200 134217728 []).
  - apply h_new; [exact real_below|repeat (apply Forall_cons; [unfold block_ok; cbn [fst snd]; lia|]); apply Forall_nil|].
    intros x. cbn [app]. rewrite cover_cons, cover_nil. destruct (in_rangeb x (200, 134217728%N)); lia.
  - apply free_new; [vm_compute; reflexivity|unfold nShards; lia].
Qed.
Definition first_free : lease :=
  mkLease (M_Hash.update (repeat (mkShard [] []) nShards) 0 (mkShard [(4096, 134218028%N)] [4096])) (0 + Z.of_N 134218028) default_min real_shard.
Definition two_sizes : lease :=
  mkLease (M_Hash.update (repeat (mkShard [] []) nShards) 0 (mkShard [(4096, 134218028%N); (1000, 100%N)] [1000; 4096])) (0 + Z.of_N 134218028 + Z.of_N 100) default_min real_shard.
Lemma shard_1000 : real_shard (to_unsigned 64 1000) = 0%nat.
Proof. vm_compute. reflexivity. Qed.
Lemma shard_size1 : real_shard 134217728 = 24%nat.
Proof. vm_compute. reflexivity. Qed.
Lemma shard_size2 : real_shard 134218028 = 0%nat.
Proof. vm_compute. reflexivity. Qed.
Lemma two_history : history two_sizes [].
Proof.
  eapply (h_free first_free [] 1000 100 []).
  - eapply (h_free (newLease real_shard default_min) [] 4096 134218028 [(1000, 100%N)]).
    + apply h_new; [exact real_below|repeat (apply Forall_cons; [unfold block_ok; cbn [fst snd]; lia|]); apply Forall_nil|].
      intros x. cbn [app]. rewrite !cover_cons, cover_nil. unfold in_rangeb; cbn [fst snd].
      destruct (Z.leb_spec 4096 x), (Z.ltb_spec x (4096 + Z.of_N 134218028)), (Z.leb_spec 1000 x), (Z.ltb_spec x (1000 + Z.of_N 100)); cbn [andb]; lia.
    + apply free_new; [vm_compute; reflexivity|unfold nShards; lia].
  - unfold freeBlock, get_shard, first_free. cbn [l_find l_blocks l_size]. rewrite shard_1000. reflexivity.
Qed.
Lemma one_none : snd (allocate one_free 134217728) = ANone.
Proof.
  unfold allocate, get_shard, one_free. cbn [l_size l_min l_find l_blocks]. rewrite shard_size1.
  change (134217728 =? 0)%N with false. change (0 + Z.of_N 134217728 <? default_min) with false. reflexivity.
Qed.
Lemma two_none : snd (allocate two_sizes 134218028) = ANone.
Proof.
  unfold allocate, get_shard, two_sizes. cbn [l_size l_min l_find l_blocks]. rewrite shard_size2.
  change (134218028 =? 0)%N with false. change (0 + Z.of_N 134218028 + Z.of_N 100 <? default_min) with false. reflexivity.
Qed.
Lemma not_found :
  exists c find, initConsistent 27 27 = Some c /\ (forall key fuel, findBlock c key fuel = Found (N.of_nat (find key))) /\
  (exists l off size, history l [] /\ l_find l = find /\ l_min l = 134217728 /\ l_min l <= l_size l /\ (0 < size < 2 ^ 32)%N /\
     ranges l = [(off, size)] /\ snd (allocate l size) = ANone) /\
  (exists l off size s, history l [] /\ l_find l = find /\ l_min l = 134217728 /\ l_min l <= l_size l /\ (0 < size < 2 ^ 32)%N /\
     get_shard l (find size) = Some s /\ In (off, size) (s_fb s) /\ snd (allocate l size) = ANone).
Proof.
  destruct real_find as (c & Hc & Hf). exists c, real_shard. split; [exact Hc|]. split; [exact Hf|]. split.
  - exists one_free, 200, 134217728%N. split; [exact one_history|]. split; [reflexivity|]. split; [reflexivity|].
    split; [unfold one_free, default_min; cbn [l_min l_size]; lia|].
    split; [lia|]. split; [reflexivity|exact one_none].
  - exists two_sizes, 4096, 134218028%N, (mkShard [(4096, 134218028%N); (1000, 100%N)] [1000; 4096]).
    split; [exact two_history|]. split; [reflexivity|]. split; [reflexivity|]. split; [unfold two_sizes, default_min; cbn [l_min l_size]; lia|].
    split; [lia|]. split; [rewrite shard_size2; reflexivity|]. split; [now left|exact two_none].
Qed.
Definition three : lease := mkLease (mkShard [(100, 30%N); (200, 10%N); (300, 20%N)] [300; 200; 100] :: repeat (mkShard [] []) 26) 60 0 find0.
