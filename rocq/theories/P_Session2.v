(** Proofs about sessions: looking up the messages of a topic, Get. *)
From Verif Require Import M_Bytes P_Bytes M_File M_Hash M_Bloom M_Entry P_Codec M_MsgId M_Mac P_Mac M_Topic M_Trie M_Query M_IndexBlock M_Lease
  M_BlockStore M_WinBlock M_Wal M_MemDB M_Window M_Get M_DB S_Trie S_Window S_BlockStore S_MemDB S_Get S_DB S_Session
  P_Topic P_Trie P_Trie2 P_Trie3 P_BlockStore4 P_Window4 P_WindowEx P_Get P_MemBlock P_MemDB P_MemGet P_DB P_Session.
From Coq Require Import Lia ZifyBool ZifyNat ZifyN Permutation Sorted.
Open Scope Z_scope.

(** * Lists *)
Lemma split_filter {A} (f g : A -> bool) l : (forall x, In x l -> f x = true -> g x = true -> False) ->
  Permutation (filter f l ++ filter g l) (filter (fun x => (f x || g x)%bool) l).
Proof.
  induction l as [|a r IH]; intros Hx; [reflexivity|]. cbn [filter].
  assert (IH' := IH (fun x Hi => Hx x (or_intror Hi))). specialize (Hx a (or_introl eq_refl)).
  destruct (f a) eqn:Ef, (g a) eqn:Eg; cbn [orb app].
  - exfalso; auto.
  - now constructor.
  - rewrite <- Permutation_middle. now constructor.
  - exact IH'.
Qed.
Lemma filter_ext_in' {A} (f g : A -> bool) l : (forall x, In x l -> f x = g x) -> filter f l = filter g l.
Proof. apply filter_ext_in. Qed.
Lemma filter_none {A} (f : A -> bool) l : (forall x, In x l -> f x = false) -> filter f l = [].
Proof. induction l as [|a r IH]; intros H; [reflexivity|]. cbn. rewrite (H a (or_introl eq_refl)). apply IH. intros; apply H; now right. Qed.
Lemma group {K A} (f : K -> A -> bool) l ks : NoDup ks ->
  (forall k1 k2 x, In x l -> f k1 x = true -> f k2 x = true -> k1 = k2) ->
  Permutation (concat (map (fun k => filter (f k) l) ks)) (filter (fun x => existsb (fun k => f k x) ks) l).
Proof.
  intros Hn Hf. induction Hn as [|k ks Hk Hn IH]; cbn [map concat existsb].
  - now rewrite filter_none by reflexivity.
  - rewrite IH. apply split_filter. intros x Hx H1 H2. apply existsb_exists in H2 as (k2 & Hk2 & H2).
    now rewrite (Hf k k2 x Hx H1 H2) in Hk.
Qed.
Lemma concat_perm {A} (a b : list (list A)) : Permutation a b -> Permutation (concat a) (concat b).
Proof.
  induction 1 as [|x a b _ IH|x y a|a b d _ IH1 _ IH2]; cbn [concat]; [reflexivity|now apply Permutation_app_head| |now transitivity (concat b)].
  rewrite !app_assoc. apply Permutation_app_tail, Permutation_app_comm.
Qed.
Lemma filter_perm {A} (f : A -> bool) a b : Permutation a b -> Permutation (filter f a) (filter f b).
Proof.
  induction 1 as [|x a b _ IH|x y a|a b d _ IH1 _ IH2]; cbn [filter]; [reflexivity| | |now transitivity (filter f b)].
  - destruct (f x); [now constructor|exact IH].
  - destruct (f x), (f y); try reflexivity. apply perm_swap.
Qed.
Lemma filter_rev' {A} (f : A -> bool) l : filter f (rev l) = rev (filter f l).
Proof. induction l as [|a r IH]; [reflexivity|]. cbn [rev filter]. rewrite filter_app, IH. cbn [filter]. destruct (f a); cbn [rev]; [reflexivity|now rewrite app_nil_r]. Qed.
Lemma live_lists_perm now ls : Permutation (live_lists now ls) (filter (we_live now) (concat ls)).
Proof.
  unfold live_lists. induction ls as [|es r IH]; cbn [map concat]; [reflexivity|]. rewrite filter_app. apply Permutation_app; [|exact IH].
  rewrite filter_rev'. symmetry. apply Permutation_rev.
Qed.
Lemma filter_map {A B} (f : B -> bool) (g : A -> B) l : filter f (map g l) = map g (filter (fun x => f (g x)) l).
Proof. induction l as [|a r IH]; [reflexivity|]. cbn [map filter]. destruct (f (g a)); cbn [map]; now rewrite IH. Qed.
Lemma filter_filter {A} (f g : A -> bool) l : filter f (filter g l) = filter (fun x => (g x && f x)%bool) l.
Proof. induction l as [|a r IH]; [reflexivity|]. cbn [filter]. destruct (g a); cbn [filter andb]; [destruct (f a)|]; now rewrite IH. Qed.
Lemma filter_length_le {A} (f : A -> bool) l : (length (filter f l) <= length l)%nat.
Proof. induction l as [|a r IH]; [cbn; lia|]. cbn [filter]. destruct (f a); cbn [length]; lia. Qed.

(** * Expiry *)
Lemma unix_range now : 0 <= now < 2 ^ 32 * 1000000000 -> 0 <= unix now < 2 ^ 32.
Proof. intros H. unfold unix. split; [apply Z.div_pos; lia|]. apply Z.div_lt_upper_bound; lia. Qed.
Lemma live_in_time now m : 0 <= now < 2 ^ 32 * 1000000000 -> we_live now (gm_we m) = in_time now (gm_sent m).
Proof.
  intros H. apply unix_range in H. unfold we_live, gm_we, is_expired, in_time. cbn [w_expiresAt]. fold (unix now).
  assert (E : u32z (unix now) = Z.to_N (unix now)).
  { unfold u32z. unfold to_unsigned. f_equal. apply Z.mod_small. change (Z.of_N 32) with 32. lia. }
  rewrite E. lia.
Qed.

(** * The entries of one topic *)
Definition of_hash (h : N) (m : gmsg) : bool := (gm_hash m =? h)%N.
Definition held_of (g : gstate) (h : N) (m : gmsg) : bool :=
  ((gm_hash m =? h)%N && match g_slot g (gm_seq m) with Held _ _ => true | _ => false end)%bool.

Lemma tk_eqb_iff a b : tk_eqb a b = true <-> a = b.
Proof. destruct a as [t h], b as [t' h']. unfold tk_eqb. cbn [fst snd]. rewrite andb_true_iff, Z.eqb_eq, N.eqb_eq. split; [intros [-> ->]; reflexivity|intros [= -> ->]; auto]. Qed.

Lemma tw_lists_perm tw g l h : tw_part tw g l ->
  Permutation (concat (tw_lists tw h)) (map gm_we (filter (held_of g h) l)).
Proof.
  intros [Hn Hf]. unfold tw_lists.
  set (ks := map fst (filter (fun x : twkey * list wentry => (snd (fst x) =? h)%N) tw)).
  assert (E : map snd (filter (fun x : twkey * list wentry => (snd (fst x) =? h)%N) tw)
              = map (map gm_we) (map (fun k : twkey => filter (held_at g (fst k) (snd k)) l) ks)).
  { unfold ks. rewrite !map_map. apply map_ext_in. intros [[t h'] es] Hi. apply filter_In in Hi as [Hi Eh]. cbn [fst snd] in *.
    apply N.eqb_eq in Eh. subst h'. specialize (Hf t h).
    assert (Ea : afind tk_eqb tw (t, h) = Some es).
    { clear - Hn Hi. induction tw as [|[k v] r IH]; [contradiction|]. cbn [map fst afind] in *. inversion Hn; subst.
      destruct Hi as [Hi|Hi].
      - injection Hi as -> ->. unfold tk_eqb. cbn [fst snd]. now rewrite Z.eqb_refl, N.eqb_refl.
      - destruct (tk_eqb k (t, h)) eqn:Ek; [|auto]. apply tk_eqb_iff in Ek. subst k. exfalso. apply H1. apply (in_map fst) in Hi. exact Hi. }
    rewrite Ea in Hf. apply Hf. }
  rewrite E, <- concat_map. apply Permutation_map.
  rewrite (group (fun (k : twkey) m => held_at g (fst k) (snd k) m) l ks).
  - match goal with |- Permutation ?a ?b => enough (a = b) as -> by reflexivity end. apply filter_ext_in. intros m Hm.
    apply eq_true_iff_eq. rewrite existsb_exists. unfold held_of, held_at. split.
    + intros (k & Hi & Hk). unfold ks in Hi. apply in_map_iff in Hi as ([k' v'] & E2 & Hi). apply filter_In in Hi as [_ Hi]. cbn [fst snd] in *. subst k'.
      apply N.eqb_eq in Hi. subst h. destruct (gm_hash m =? snd k)%N; [|discriminate]. destruct (g_slot g (gm_seq m)); [discriminate|reflexivity|discriminate].
    + intros Hh. destruct (N.eqb_spec (gm_hash m) h) as [Eh|]; [|discriminate]. destruct (g_slot g (gm_seq m)) as [|t v|] eqn:Es; try discriminate.
      exists (t, h). cbn [fst snd]. rewrite Eh, N.eqb_refl, Z.eqb_refl. split; [|reflexivity]. unfold ks.
      specialize (Hf t h). destruct (afind tk_eqb tw (t, h)) as [es|] eqn:Ea.
      * apply (afind_In _ tk_eqb_iff) in Ea. apply in_map_iff. exists ((t, h), es). split; [reflexivity|]. apply filter_In. split; [exact Ea|]. cbn. apply N.eqb_refl.
      * exfalso. assert (Hi : In m (filter (held_at g t h) l)).
        { apply filter_In. split; [exact Hm|]. unfold held_at. rewrite Es, Eh, N.eqb_refl, Z.eqb_refl. reflexivity. }
        rewrite Hf in Hi. exact Hi.
  - unfold ks. clear - Hn. induction tw as [|[k v] r IH]; [constructor|]. cbn [filter fst snd map] in *. inversion Hn; subst.
    destruct (snd k =? h)%N; [|auto]. cbn [map fst]. constructor; [|auto]. intros Hi. apply H1.
    apply in_map_iff in Hi as ([k' v'] & E & Hi). apply filter_In in Hi as [Hi _]. cbn [fst] in E. subst k'. apply (in_map fst) in Hi. exact Hi.
  - intros [t1 h1] [t2 h2] m Hm H1 H2. unfold held_at in *. cbn [fst snd] in *.
    apply andb_true_iff in H1 as [A1 B1]. apply andb_true_iff in H2 as [A2 B2]. apply N.eqb_eq in A1, A2.
    destruct (g_slot g (gm_seq m)); try discriminate. apply Z.eqb_eq in B1, B2. congruence.
Qed.

Lemma fresh_write f : ww_write (newWindowWriter f) = Some (newWindowWriter f).
Proof. reflexivity. Qed.

Lemma topic_lookup c s l g off H first M T e t now g0 h limit : inv c s l g off H first M T e t ->
  0 <= now < 2 ^ 32 * 1000000000 -> (forall x, Permutation (g_walk g0 x) x) ->
  Z.of_nat (length (filter (of_hash h) l)) <= limit ->
  exists es, tw_lookup now (g_walk g0 (tw_lists (d_tw s) h)) (d_win s) h (off h) 0 limit = Some es /\
    (length es <= length (filter (of_hash h) l))%nat /\
    (forall x, In x es -> exists m, In m l /\ gm_hash m = h /\ x = gm_we m) /\
    (first <> Some h -> Permutation es (map gm_we (filter (fun m => (of_hash h m && in_time now (gm_sent m))%bool) l))).
Proof.
  intros Hi Hnow Hw Hlim. set (ls := g_walk g0 (tw_lists (d_tw s) h)).
  assert (Hls : Permutation (concat ls) (map gm_we (filter (held_of g h) l))).
  { rewrite <- (tw_lists_perm _ _ _ h (iv_tw _ _ _ _ _ _ _ _ _ _ _ Hi)). apply concat_perm, Hw. }
  pose proof (iv_win _ _ _ _ _ _ _ _ _ _ _ Hi) as [Hr _ Hh _]. specialize (Hh h).
  assert (Hsplit : Permutation (filter (held_of g h) l ++ filter (stored_of g h) l) (filter (of_hash h) l)).
  { rewrite split_filter.
    - match goal with |- Permutation ?a ?b => enough (a = b) as -> by reflexivity end. apply filter_ext_in. intros m Hm. unfold held_of, stored_of, of_hash, in_store.
      destruct (gm_hash m =? h)%N; [|reflexivity]. destruct (mp_all _ _ _ _ (iv_mem _ _ _ _ _ _ _ _ _ _ _ Hi) m Hm) as [->|(t' & ->)]; reflexivity.
    - intros m Hm H1 H2. unfold held_of, stored_of, in_store in *. destruct (g_slot g (gm_seq m)); rewrite ?andb_false_r in *; discriminate. }
  assert (Htot : Z.of_nat (total ls + length (H h)) <= limit).
  { unfold total. rewrite (Permutation_length Hls), map_length.
    pose proof (Permutation_length Hh) as L. rewrite !map_length in L. rewrite L. rewrite <- app_length, (Permutation_length Hsplit). exact Hlim. }
  destruct (wlookup_all _ off H first T _ h now 0 limit ls Hr (fresh_write _) Htot) as (lost & old & kept & EH & Hl & Hold & EL).
  change (ww_file (newWindowWriter (d_win s))) with (d_win s) in EL.
  assert (Hfull : Permutation (concat ls ++ map fst (H h)) (map gm_we (filter (of_hash h) l))).
  { rewrite Hls, Hh, <- map_app. now apply Permutation_map. }
  eexists. split; [exact EL|].
  assert (Hp : Permutation (live_lists now ls ++ live_desc now kept) (filter (we_live now) (concat ls ++ map fst kept))).
  { rewrite filter_app. apply Permutation_app; [apply live_lists_perm|]. unfold live_desc. rewrite filter_rev'. symmetry. apply Permutation_rev. }
  split; [|split].
  - rewrite (Permutation_length Hp). etransitivity; [apply filter_length_le|].
    pose proof (Permutation_length Hfull) as L. rewrite map_length in L. rewrite <- L, !app_length, !map_length, EH, !app_length. lia.
  - intros x Hx. apply (Permutation_in _ Hp) in Hx. apply filter_In in Hx as [Hx _].
    assert (In x (concat ls ++ map fst (H h))) as Hx'.
    { apply in_app_iff in Hx as [Hx|Hx]; apply in_app_iff; [now left|right]. rewrite EH, !map_app, !in_app_iff. auto. }
    apply (Permutation_in _ Hfull) in Hx'. apply in_map_iff in Hx' as (m & <- & Hm). apply filter_In in Hm as [Hm Eh].
    exists m. split; [exact Hm|]. split; [now apply N.eqb_eq|reflexivity].
  - intros Hf. destruct Hl as [->|]; [|contradiction].
    pose proof (wnonneg _ _ _ _ _ h Hr) as Hn. rewrite EH in Hn. cbn [app] in *. apply Forall_app in Hn as [Hn _].
    rewrite (no_old old Hn Hold) in EH. cbn [app] in EH. subst kept.
    rewrite Hp, (filter_perm _ _ _ Hfull), filter_map, filter_filter. apply Permutation_map.
    match goal with |- Permutation ?a ?b => enough (a = b) as -> by reflexivity end. apply filter_ext. intros m. now rewrite live_in_time.
Qed.

(** * All topics of a query *)
Definition of_any (hs : list N) (m : gmsg) : bool := existsb (fun h => of_hash h m) hs.
Lemma of_hash_inj h1 h2 m : of_hash h1 m = true -> of_hash h2 m = true -> h1 = h2.
Proof. unfold of_hash. intros H1 H2. apply N.eqb_eq in H1, H2. congruence. Qed.

Lemma topics_lookup c s l g off H first M T e t now g0 L : inv c s l g off H first M T e t ->
  0 <= now < 2 ^ 32 * 1000000000 -> (forall x, Permutation (g_walk g0 x) x) ->
  forall tops acc, NoDup (map fst tops) -> Forall (fun x => snd x = off (fst x)) tops ->
  Z.of_nat (length acc + length (filter (of_any (map fst tops)) l)) <= L ->
  exists res, lookup_topics s now g0 L 0 tops acc = Some (acc ++ res) /\
    (length res <= length (filter (of_any (map fst tops)) l))%nat /\
    (forall q, In q res -> exists m, In m l /\ of_any (map fst tops) m = true /\ q = gm_seq m) /\
    ((forall h, first = Some h -> ~ In h (map fst tops)) ->
     Permutation res (map gm_seq (filter (fun m => (of_any (map fst tops) m && in_time now (gm_sent m))%bool) l))).
Proof.
  intros Hi Hnow Hw. induction tops as [|[h o] r IH]; intros acc Hn Ho Hlim; cbn [lookup_topics].
  - exists []. rewrite app_nil_r. cbn [map of_any existsb andb]. split; [reflexivity|]. split; [cbn; lia|]. split; [intros ? []|].
    intros _. now rewrite filter_none.
  - cbn [map fst snd] in *. inversion Hn as [|? ? Hni Hnr]; subst. inversion Ho as [|? ? Eo Hor]; subst. cbn [fst snd] in Eo. subst o.
    assert (Hsp : Permutation (filter (of_hash h) l ++ filter (of_any (map fst r)) l) (filter (of_any (h :: map fst r)) l)).
    { apply split_filter. intros m _ H1 H2. apply existsb_exists in H2 as (h2 & Hh2 & H2). now rewrite (of_hash_inj _ _ _ H1 H2) in Hni. }
    pose proof (Permutation_length Hsp) as Hlen. rewrite app_length in Hlen.
    destruct (Z.ltb_spec L (Z.of_nat (length acc))); [lia|].
    destruct (topic_lookup c s l g off H first M T e t now g0 h (L - Z.of_nat (length acc)) Hi Hnow Hw) as (es & -> & Hle & Hin & Hp); [lia|].
    destruct (IH (acc ++ map w_seq es) Hnr Hor) as (res & -> & Hle2 & Hin2 & Hp2).
    { rewrite app_length, map_length. lia. }
    exists (map w_seq es ++ res). rewrite app_assoc. split; [reflexivity|]. split; [rewrite app_length, map_length; lia|]. split.
    + intros q Hq. apply in_app_iff in Hq as [Hq|Hq].
      * apply in_map_iff in Hq as (x & <- & Hx). destruct (Hin x Hx) as (m & Hm & Eh & ->). exists m. split; [exact Hm|]. split; [|reflexivity].
        cbn [of_any existsb]. unfold of_hash. now rewrite Eh, N.eqb_refl.
      * destruct (Hin2 q Hq) as (m & Hm & Ea & ->). exists m. split; [exact Hm|]. split; [|reflexivity]. cbn [of_any existsb]. unfold of_any in Ea. now rewrite Ea, orb_true_r.
    + intros Hf. rewrite Hp by (intros E; apply (Hf h E); now left). rewrite Hp2 by (intros h' E Hi'; apply (Hf h' E); now right).
      rewrite map_map. cbn [gm_we w_seq]. rewrite <- map_app. apply Permutation_map. rewrite split_filter.
      * match goal with |- Permutation ?a ?b => enough (a = b) as -> by reflexivity end. apply filter_ext. intros m. cbn [of_any existsb]. unfold of_any.
        destruct (of_hash h m), (existsb (fun h0 => of_hash h0 m) (map fst r)), (in_time now (gm_sent m)); reflexivity.
      * intros m _ H1 H2. apply andb_true_iff in H1 as [H1 _]. apply andb_true_iff in H2 as [H2 _].
        apply existsb_exists in H2 as (h2 & Hh2 & H2). now rewrite (of_hash_inj _ _ _ H1 H2) in Hni.
Qed.

(** * The topics a query finds *)
Lemma fold_unique_nodup ts : forall acc, NoDup (map fst acc) -> NoDup (map fst (fold_left addUnique ts acc)).
Proof. induction ts as [|x r IH]; intros acc H; [exact H|]. cbn [fold_left]. apply IH. now apply addUnique_nodup. Qed.
Lemma ilookup_nodup st dep n : forall self query acc, NoDup (map fst acc) -> NoDup (map fst (ilookup st dep n self query acc)).
Proof.
  induction n as [d ts ch IH] using node_rect'. intros self query acc Hn. cbn [ilookup].
  match goal with |- context [if ?b then fold_left addUnique ts acc else acc] => set (acc1 := if b then fold_left addUnique ts acc else acc) end.
  assert (H1 : NoDup (map fst acc1)) by (unfold acc1; destruct (_ || _)%bool; [now apply fold_unique_nodup|exact Hn]).
  clearbody acc1. destruct query as [|q rest]; [exact H1|]. revert acc1 H1. induction ch as [|[p ch0] r IHr]; intros acc1 H1; [exact H1|].
  cbn [fold_left]. inversion IH as [|? ? Hc Hr]; subst. cbn [snd] in Hc. apply IHr; [exact Hr|].
  destruct (_ && _)%bool; [now apply Hc|]. destruct (_ && _)%bool; [now apply Hc|]. destruct (_ =? _)%N; [now apply Hc|exact H1].
Qed.
Lemma find_topics_nodup t c txt : NoDup (map fst (find_topics t c txt)).
Proof. unfold find_topics, trie_lookup. apply ilookup_nodup. constructor. Qed.

Lemma topic_of_some l off h k txt o : topic_of l off h = Some (k, txt, o) ->
  exists m, In m l /\ gm_hash m = h /\ k = s_owner (gm_sent m) /\ txt = text (s_pattern (gm_sent m)) /\ o = off h.
Proof.
  unfold topic_of. destruct (find _ l) as [m|] eqn:Ef; [|discriminate]. intros [= <- <- <-]. apply find_some in Ef as [Hm E].
  exists m. split; [exact Hm|]. split; [now apply N.eqb_eq|auto].
Qed.
Lemma topic_of_in c l n off m : list_part c l n -> In m l ->
  topic_of l off (gm_hash m) = Some (s_owner (gm_sent m), text (s_pattern (gm_sent m)), off (gm_hash m)).
Proof.
  intros Hl Hm. unfold topic_of. destruct (find _ l) as [m'|] eqn:Ef.
  - apply find_some in Ef as [Hm' E]. apply N.eqb_eq in E. destruct (lp_clash _ _ _ Hl m' m Hm' Hm E) as [-> ->]. reflexivity.
  - eapply find_none in Ef; [|exact Hm]. cbn in Ef. rewrite N.eqb_refl in Ef. discriminate.
Qed.
Lemma plain_part c l n m : list_part c l n -> In m l -> plain (s_owner (gm_sent m)) (s_pattern (gm_sent m)).
Proof. intros Hl Hm. pose proof (lp_ok _ _ _ Hl) as Ho. rewrite Forall_forall in Ho. exact (gk_plain _ _ (Ho m Hm)). Qed.
Lemma all_plain_part c l n off Mt : list_part c l n -> (forall h, Mt h = topic_of l off h) -> all_plain Mt.
Proof.
  intros Hl E h k txt o Em. rewrite E in Em. apply topic_of_some in Em as (m & Hm & _ & -> & -> & _).
  exists (s_pattern (gm_sent m)). split; [now left|]. eapply plain_part; eauto.
Qed.
Lemma plain_levels k p : plain k p -> Forall level_ok (pt_levels p).
Proof. intros H. apply H. Qed.

Lemma query_topics c s l g off H first M T e t k names g0 limit : inv c s l g off H first M T e t ->
  S_Session.get_ok c (map gm_sent l) g0 k names limit ->
  let tops := find_topics (d_trie s) (owner k) (text (static names)) in
  Forall (fun x => snd x = off (fst x)) tops /\
  (forall m, In m l -> of_any (map fst tops) m = asked k names (gm_sent m)) /\
  (forall h, In h (map fst tops) -> exists m, In m l /\ gm_hash m = h /\ asked k names (gm_sent m) = true).
Proof.
  intros Hi Hg tops. pose proof (iv_list _ _ _ _ _ _ _ _ _ _ _ Hi) as Hl.
  destruct (iv_trie _ _ _ _ _ _ _ _ _ _ _ Hi) as (Mt & Htr & EM). pose proof (all_plain_part _ _ _ _ _ Hl EM) as Hap.
  destruct Hg as [Hc (Hne & Hok & Hlen) Htop Hlim Hclash _ _ _].
  assert (Hk : (owner k < 2 ^ 32)%N) by (unfold owner; destruct (k =? 0)%N; [reflexivity|exact Hc]).
  assert (Hx : forall h o, In (h, o) tops <-> exists m, In m l /\ gm_hash m = h /\ o = off h /\ asked k names (gm_sent m) = true).
  { intros h o. unfold tops. rewrite (lookup_static _ _ (owner k) names _ h o Htr Hap Hk Hne Hok Hlen (or_introl eq_refl)). split.
    - intros (txt1 & p & Em & Hs & Hp & Hcov). rewrite EM in Em. apply topic_of_some in Em as (m & Hm & Eh & Ek & -> & ->).
      exists m. split; [exact Hm|]. split; [exact Eh|]. split; [reflexivity|].
      assert (s_pattern (gm_sent m) = p) as Epp.
      { apply spells_inj; [|exact (plain_levels _ _ Hp)|exact Hs]. eapply plain_levels, plain_part; eauto. }
      apply Hclash; [now apply in_map|now symmetry|]. now rewrite Epp.
    - intros (m & Hm & <- & -> & Ha). exists (text (s_pattern (gm_sent m))), (s_pattern (gm_sent m)).
      unfold asked in Ha. apply andb_true_iff in Ha as [Ek Hmt]. apply N.eqb_eq in Ek. rewrite EM, (topic_of_in c l _ off m Hl Hm), Ek.
      split; [reflexivity|]. split; [now left|]. split; [rewrite <- Ek; eapply plain_part; eauto|]. apply covers_hash. now apply matches_covers. }
  split; [|split].
  - apply Forall_forall. intros [h o] Hin. apply Hx in Hin as (m & _ & _ & -> & _). reflexivity.
  - intros m Hm. apply eq_true_iff_eq. unfold of_any. rewrite existsb_exists. split.
    + intros (h & Hh & E). apply N.eqb_eq in E. apply in_map_iff in Hh as ([h' o] & Eh & Hin). cbn [fst] in Eh. subst h'.
      apply Hx in Hin as (m' & Hm' & Eh & _ & Ha). rewrite <- E in Eh. destruct (lp_clash _ _ _ Hl m' m Hm' Hm Eh) as [E1 E2].
      unfold asked in *. now rewrite <- E1, <- E2.
    + intros Ha. exists (gm_hash m). split; [|unfold of_hash; apply N.eqb_refl]. apply in_map_iff. exists (gm_hash m, off (gm_hash m)). split; [reflexivity|].
      apply Hx. exists m. auto.
  - intros h Hh. apply in_map_iff in Hh as ([h' o] & Eh & Hin). cbn [fst] in Eh. subst h'. apply Hx in Hin as (m & Hm & Eh & _ & Ha). eauto.
Qed.

Lemma no_options c p : Forall level_ok (pt_levels p) -> text p <> [] -> t_options (parse_topic c (text p)) = [].
Proof.
  intros Hl Hne. unfold parse_topic, parse_key. rewrite (fields_one cQuest (text p) Hne (text_noquest p Hl)). reflexivity.
Qed.

(** * Get *)
Lemma inv_mem c s l g off H first M T e t s' : inv c s l g off H first M T e t -> (exists mm, s' = set_mem s mm /\ ginv (c_mem c) mm g) -> inv c s' l g off H first M T e t.
Proof.
  intros Hi (mm & -> & Hg). destruct Hi as [H1 H2 H3 [A1 A2 A3 A4 A5] H5 H6 H7 H8 H9 H10].
  split; cbn [set_mem d_closed d_enc d_seq d_mem d_tw d_win d_index d_data d_lease d_trie]; auto. split; auto.
Qed.

Definition first_of (first : option N) (l : list gmsg) (x : option (N * pattern)) : Prop :=
  forall h, first = Some h -> exists m, In m l /\ gm_hash m = h /\ x = Some (s_owner (gm_sent m), s_pattern (gm_sent m)).

Lemma choose_seqs l res : (forall q, In q res -> exists m, In m l /\ q = gm_seq m) -> forall P : gmsg -> Prop,
  (forall q, In q res -> exists m, In m l /\ P m /\ q = gm_seq m) -> exists sel, map gm_seq sel = res /\ incl sel l /\ Forall P sel.
Proof.
  intros _ P. induction res as [|q r IH]; intros Hq; [exists []; repeat split; [intros ? []|constructor]|].
  destruct (Hq q (or_introl eq_refl)) as (m & Hm & Hp & ->). destruct IH as (sel & <- & Hin & Hf); [intros; apply Hq; now right|].
  exists (m :: sel). split; [reflexivity|]. split; [intros x [<-|Hx]; auto|now constructor].
Qed.

Lemma get_step c s l g off H first M T e t now g0 k names limit x : inv c s l g off H first M T e t ->
  0 <= now < 2 ^ 32 * 1000000000 -> S_Session.get_ok c (map gm_sent l) g0 k names limit -> first_of first l x ->
  exists s' q' items, db_get c s now g0 (mkQ (text (static names)) k limit 0 []) = (s', q', QItems items) /\
    inv c s' l g off H first M T e t /\ d_seq s' = d_seq s /\ (exists qr qf qb, s' = set_mem s (set_query (d_mem s) qr qf qb)) /\
    incl items (map s_payload (filter (asked k names) (map gm_sent l))) /\
    (spared x k names = false -> items = expect now k names (map gm_sent l)).
Proof.
  intros Hi Hnow Hg Hf. pose proof (iv_list _ _ _ _ _ _ _ _ _ _ _ Hi) as Hl.
  destruct (query_topics _ _ _ _ _ _ _ _ _ _ _ k names g0 limit Hi Hg) as (Hoff & Hany & Htm).
  pose proof (find_topics_nodup (d_trie s) (owner k) (text (static names))) as Hnd.
  set (tops := find_topics (d_trie s) (owner k) (text (static names))) in *.
  pose proof Hg as [Hc (Hne & Hok & Hlen) Htop Hlim Hclash Hgt Hgw Hgc].
  assert (Hlev : Forall level_ok (pt_levels (static names))) by (cbn; rewrite Forall_map; exact Hok).
  assert (Htne : text (static names) <> []).
  { unfold text, static. cbn [pt_levels pt_multi]. rewrite app_nil_r, map_map. cbn [level_text]. rewrite map_id. destruct names as [|n r]; [contradiction|].
    inversion Hok as [|? ? [Hn _] _]; subst. destruct r; cbn [join]; [exact Hn|]. destruct n; [contradiction|discriminate]. }
  unfold db_get. cbn [q_topic q_contract q_limit q_cutoff q_win]. rewrite (iv_closed _ _ _ _ _ _ _ _ _ _ _ Hi).
  destruct (Nat.eqb_spec (length (text (static names))) 0) as [E0|_]; [apply length_zero_iff_nil in E0; contradiction|].
  destruct (N.ltb_spec maxTopicLength (N.of_nat (length (text (static names))))); [lia|].
  fold (owner k). cbv zeta. rewrite (no_options _ _ Hlev Htne). cbn [topic_last get_option parse_limit].
  set (L := if limit =? 0 then c_def c else limit) in *.
  change (trie_lookup (d_trie s) (t_parts (add_contract (owner k) (parse_topic (owner k) (text (static names)))))
            (t_depth (add_contract (owner k) (parse_topic (owner k) (text (static names)))))
            (t_type (add_contract (owner k) (parse_topic (owner k) (text (static names)))))) with tops.
  assert (Hpt : Permutation (map fst (g_topics g0 tops)) (map fst tops)) by apply Permutation_map, Hgt.
  assert (Hany2 : forall m, In m l -> of_any (map fst (g_topics g0 tops)) m = asked k names (gm_sent m)).
  { intros m Hm. rewrite <- Hany by exact Hm. unfold of_any. apply eq_true_iff_eq. rewrite !existsb_exists. split; intros (h & Hh & E); exists h; (split; [|exact E]).
    - now apply (Permutation_in _ Hpt).
    - now apply (Permutation_in _ (Permutation_sym Hpt)). }
  assert (Hcount : length (filter (of_any (map fst (g_topics g0 tops))) l) = length (filter (asked k names) (map gm_sent l))).
  { rewrite filter_map, map_length. f_equal. apply filter_ext_in. exact Hany2. }
  destruct (topics_lookup c s l g off H first M T e t now g0 L Hi Hnow Hgw (g_topics g0 tops) []) as (res & -> & Hlr & Hin & Hp).
  { now apply (Permutation_NoDup (Permutation_sym Hpt)). }
  { apply Forall_forall. intros y Hy. rewrite Forall_forall in Hoff. apply Hoff. now apply (Permutation_in _ (Hgt tops)). }
  { cbn [length]. lia. }
  cbn [app]. destruct (choose_seqs l (seq_desc res)) with (P := fun m => asked k names (gm_sent m) = true) as (sel & Esel & Hsin & Hsa).
  { intros q Hq. apply (Permutation_in _ (seq_desc_perm res)) in Hq. destruct (Hin q Hq) as (m & Hm & _ & ->). eauto. }
  { intros q Hq. apply (Permutation_in _ (seq_desc_perm res)) in Hq. destruct (Hin q Hq) as (m & Hm & Ha & ->). exists m. split; [exact Hm|]. split; [|reflexivity].
    now rewrite Hany2 in Ha by exact Hm. }
  assert (Hso : Forall (fun m => s_owner (gm_sent m) = owner k) sel).
  { eapply Forall_impl; [|exact Hsa]. cbv beta. intros m Ha. unfold asked in Ha. apply andb_true_iff in Ha as [Ha _]. now apply N.eqb_eq. }
  assert (Lsel : length sel = length res) by (rewrite <- (Permutation_length (seq_desc_perm res)), <- Esel, map_length; reflexivity).
  rewrite <- Esel.
  destruct (get_selection c s l g M (owner k) sel (g_cap g0 (map gm_seq sel)) L Hl (iv_mem _ _ _ _ _ _ _ _ _ _ _ Hi) (iv_store _ _ _ _ _ _ _ _ _ _ _ Hi) Hsin Hso) as (s' & -> & Hmine).
  { rewrite Esel. apply seq_desc_sorted. }
  { etransitivity; [|apply Hgc]. now rewrite map_length. }
  { lia. }
  do 3 eexists. split; [reflexivity|]. destruct Hmine as (mm & -> & Hg0 & qr & qf & qb & Eqq).
  split; [eapply inv_mem; eauto|]. split; [reflexivity|]. split; [exists qr, qf, qb; now rewrite Eqq|]. split.
  { intros v Hv. apply in_map_iff in Hv as (m & <- & Hm). apply (in_map s_payload). apply filter_In. split; [apply in_map, Hsin, Hm|].
    rewrite Forall_forall in Hsa. now apply Hsa. }
  intros Hsp. unfold expect. rewrite filter_map, map_map.
  set (want := filter (fun m => (asked k names (gm_sent m) && in_time now (gm_sent m))%bool) l).
  assert (Hres : Permutation res (map gm_seq want)).
  { rewrite Hp.
    - unfold want. apply Permutation_map. match goal with |- Permutation ?a ?b => enough (a = b) as -> by reflexivity end. apply filter_ext_in.
      intros m Hm. now rewrite Hany2.
    - intros h Ef Hh. apply (Permutation_in _ Hpt) in Hh. destruct (Htm h Hh) as (m & Hm & Eh & Ha). 
      destruct (Hf h Ef) as (m' & Hm' & Eh' & ->). destruct (lp_clash _ _ _ Hl m' m Hm' Hm) as [E1 E2]; [congruence|].
      unfold spared in Hsp. unfold asked in Ha. rewrite E1, E2 in Hsp. rewrite Hsp in Ha. discriminate. }
  assert (E : sel = rev want).
  { assert (Es : map gm_seq sel = map gm_seq (rev want)).
    { rewrite Esel, map_rev. apply seq_desc_eq; [|rewrite Hres; apply Permutation_rev]. apply sorted_rev. apply sorted_filter. exact (lp_sorted _ _ _ Hl). }
    assert (Hw : incl (rev want) l).
    { intros m Hm. apply in_rev in Hm. unfold want in Hm. now apply filter_In in Hm. }
    revert Es Hsin Hw. clear - Hl. generalize (rev want) as b. induction sel as [|a r IH]; intros [|b bs] Es H1 H2; try discriminate; [reflexivity|].
    cbn [map] in Es. injection Es as E1 E2. f_equal.
    - eapply same_seq; eauto; [apply H1|apply H2]; now left.
    - apply IH; [exact E2|intros z Hz; apply H1; now right|intros z Hz; apply H2; now right]. }
  rewrite E, map_rev. reflexivity.
Qed.
