(** Proofs about background expiry. *)
From Verif Require Import M_Bytes M_File M_Entry M_IndexBlock M_MsgId M_Mac M_Topic M_Trie M_Query M_Lease M_BlockStore M_WinBlock M_MemDB M_Window M_Get M_DB S_DB S_Lease P_Lease P_MemBlock P_BlockStore M_Expiry S_Expiry.
From Coq Require Import Lia ZifyBool ZifyNat ZifyN Permutation Sorted.
Open Scope Z_scope.

(** * What the job does to the database *)
Lemma expire_loop_free es : forall s s', expire_loop s es = Some s' -> exists l n, s' = set_free s l n.
Proof.
  induction es as [|e es IH]; intros s s'; cbn [expire_loop].
  - intros [= <-]. exists (d_lease s), (d_count s). now destruct s.
  - destruct (readEntry _ _) as [[x| |]|]; try (intros [= <-]; exists (d_lease s), (d_count s); now destruct s).
    destruct (mSize x =? 0)%N; [discriminate|]. destruct (freeBlock _ _ _) as [l|]; [|discriminate].
    intros E. apply IH in E. destruct E as (l' & n & ->). now exists l', n.
Qed.

Lemma pass_map {S} (f : S -> S) rd : (forall s q, rd (f s) q = (f (fst (rd s q)), snd (rd s q))) ->
  forall qs s items inv, pass rd (f s) qs items inv = (let '(s', a, b, c) := pass rd s qs items inv in (f s', a, b, c)).
Proof.
  intros Hf. induction qs as [|q qs IH]; intros s items inv; cbn [pass]; [reflexivity|].
  destruct (q =? 0)%N; [apply IH|]. rewrite Hf. destruct (rd s q) as [s1 o]. cbn [fst snd]. destruct o; try reflexivity; apply IH.
Qed.
Lemma get_loop_map {S} (f : S -> S) rd : (forall s q, rd (f s) q = (f (fst (rd s q)), snd (rd s q))) ->
  forall fuel s win cap L start limit items, get_loop fuel rd (f s) win cap L start limit items =
    (let (s', r) := get_loop fuel rd s win cap L start limit items in (f s', r)).
Proof.
  intros Hf. induction fuel as [|fuel IH]; intros s win cap L start limit items; cbn [get_loop]; [reflexivity|].
  destruct (cut _ _ _ _) as [qs|]; [|reflexivity]. rewrite (pass_map f rd Hf). destruct (pass rd s qs items 0) as [[[s1 it] inv] e].
  destruct e; try reflexivity. cbv zeta. destruct (_ || _)%bool; [reflexivity|]. destruct (_ <=? _); apply IH.
Qed.
Lemma read_one_free c k cut s l n q : read_one c k cut (set_free s l n) q =
  (set_free (fst (read_one c k cut s q)) l n, snd (read_one c k cut s q)).
Proof.
  unfold read_one. change (d_mem (set_free s l n)) with (d_mem s). destruct (mem_get _ _ _) as [m g]. 
  change (set_mem (set_free s l n) m) with (set_free (set_mem s m) l n). set (s1 := set_mem s m).
  change (d_index (set_free s1 l n)) with (d_index s1). change (d_data (set_free s1 l n)) with (d_data s1). clearbody s1.
  destruct g as [d| | | | | ]; cbv zeta;
    [destruct (entry_unmarshal d) as [x|]; [destruct (cache_message _ _) as [[id v]|]|]; reflexivity| | | |reflexivity|reflexivity];
    (destruct (readEntry _ _) as [[x| |]|]; [destruct (readMessage _ _) as [[id v]|]| | |]; reflexivity).
Qed.
Lemma topics_free s l n now g L cut tops : forall acc, lookup_topics (set_free s l n) now g L cut tops acc = lookup_topics s now g L cut tops acc.
Proof.
  induction tops as [|[h off] r IH]; intros acc; cbn [lookup_topics]; [reflexivity|]. destruct (_ <? _); [reflexivity|].
  change (d_tw (set_free s l n)) with (d_tw s). change (d_win (set_free s l n)) with (d_win s).
  destruct (tw_lookup _ _ _ _ _ _ _); [apply IH|reflexivity].
Qed.
Lemma get_free c s l n now g q : db_get c (set_free s l n) now g q =
  (let '(s', q', r) := db_get c s now g q in (set_free s' l n, q', r)).
Proof.
  unfold db_get. change (d_closed (set_free s l n)) with (d_closed s).
  destruct (d_closed s); [reflexivity|]. destruct (Nat.eqb _ 0); [reflexivity|]. destruct (_ <? _)%N; [reflexivity|]. cbv zeta.
  destruct (parse_limit _ _ _ _ _) as [L cut]. change (d_trie (set_free s l n)) with (d_trie s). rewrite topics_free.
  destruct (lookup_topics _ _ _ _ _ _ _) as [win|]; [|reflexivity]. unfold get_entries.
  destruct (seq_desc win) as [|w ws]; [reflexivity|]. cbv zeta.
  rewrite (get_loop_map (fun s => set_free s l n)); [|intros; apply read_one_free].
  match goal with |- context [get_loop ?a ?b ?d ?e ?f ?g ?h ?i ?j] => destruct (get_loop a b d e f g h i j) as [s1 r] end.
  destruct r; reflexivity.
Qed.
Lemma expire_answers def t s b s' b' : expire_entries def t s b = Some (s', b') ->
  on_disk s' = on_disk s /\ forall c now g q, snd (db_get c s' now g q) = snd (db_get c s now g q).
Proof.
  unfold expire_entries. destruct (get_expired t def b) as [b1 es]. destruct (expire_loop s es) as [s1|] eqn:E; [|discriminate].
  intros [= <- <-]. apply expire_loop_free in E. destruct E as (l & n & ->). split; [reflexivity|]. intros c now g q. rewrite get_free.
  destruct (db_get c s now g q) as [[s2 q2] r]. reflexivity.
Qed.

(** * The bucket *)
Lemma xk_eqb_spec a b : xk_eqb a b = true <-> a = b.
Proof.
  destruct a as [i t], b as [j u]. unfold xk_eqb; cbn [fst snd]. rewrite Bool.andb_true_iff, Nat.eqb_eq, Z.eqb_eq.
  split; [intros [-> ->]; reflexivity|intros [= -> ->]; split; reflexivity].
Qed.
Definition held (b : expiry) (k : nat * Z) (e : wentry) : Prop := exists es, afind xk_eqb (x_windows b) k = Some es /\ In e es.
Lemma held_none b e k : x_windows b = [] -> ~ held b k e.
Proof. intros E (es & H & _). rewrite E in H. discriminate. Qed.

Lemma add_held find b x k e : held (add_expiry find b x) k e <->
  held b k e \/ (x_on b = true /\ e = x /\ k = (find (w_expiresAt x), expiry_hash b (w_expiresAt x))).
Proof.
  unfold add_expiry. destruct (x_on b) eqn:Eo; cbn [negb]; [|split; [auto|intros [H|[H _]]; [exact H|discriminate]]].
  cbv zeta. set (kx := (find (w_expiresAt x), expiry_hash b (w_expiresAt x))).
  unfold held. cbn [x_windows set_windows]. destruct (xk_eqb kx k) eqn:Ek.
  - apply xk_eqb_spec in Ek. rewrite <- Ek. rewrite (afind_aset_same xk_eqb xk_eqb_spec).
    split.
    + intros (es & [= <-] & Hin). apply in_app_iff in Hin. destruct Hin as [Hin|[<-|[]]]; [|right; auto].
      left. destruct (afind xk_eqb (x_windows b) kx) as [l|]; [exists l; auto|destruct Hin].
    + intros [(es & E & Hin)|(_ & -> & _)].
      * rewrite E. exists (es ++ [x]). split; [reflexivity|]. apply in_app_iff; auto.
      * eexists; split; [reflexivity|]. apply in_app_iff. right; now left.
  - assert (Hk : kx <> k) by (intros H; apply xk_eqb_spec in H; congruence).
    rewrite (afind_aset_other xk_eqb xk_eqb_spec) by exact Hk. split; [auto|]. intros [H|(_ & _ & H)]; [exact H|congruence].
Qed.
Lemma adds_held find l : forall b k e, held (fold_left (add_expiry find) l b) k e <->
  held b k e \/ (x_on b = true /\ In e l /\ k = (find (w_expiresAt e), expiry_hash b (w_expiresAt e))).
Proof.
  induction l as [|x l IH]; intros b k e; cbn [fold_left]; [cbn; tauto|]. rewrite IH, add_held.
  assert (Ha : x_on (add_expiry find b x) = x_on b) by (unfold add_expiry; destruct (x_on b) eqn:E; cbn [negb set_windows x_on]; congruence).
  assert (Hd : expiry_hash (add_expiry find b x) (w_expiresAt e) = expiry_hash b (w_expiresAt e)) by (unfold add_expiry; destruct (x_on b); reflexivity).
  rewrite Ha, Hd. cbn [In]. split.
  - intros [[H|(H & -> & ->)]|(H1 & H2 & H3)]; auto.
  - intros [H|(H1 & [->|H2] & H3)]; auto.
Qed.

Definition same_opts (b b' : expiry) : Prop := x_on b' = x_on b /\ x_dur b' = x_dur b /\ x_max b' = x_max b.
Lemma times_opts start max i ts : forall b acc b' r, times_loop start max i ts b acc = (b', r) -> same_opts b b'.
Proof.
  induction ts as [|t ts IH]; intros b acc b' r; cbn [times_loop]; [intros [= <- <-]; repeat split|].
  destruct (_ || _)%bool; [intros [= <- <-]; repeat split|]. cbv zeta. intros E. apply IH in E. destruct (Nat.eqb _ _); exact E.
Qed.
Lemma shards_opts start max is : forall b acc b' r, shards_loop start max is b acc = (b', r) -> same_opts b b'.
Proof.
  induction is as [|i is IH]; intros b acc b' r; cbn [shards_loop]; [intros [= <- <-]; repeat split|].
  destruct (times_loop _ _ _ _ _ _) as [b1 acc1] eqn:E1. intros E. apply IH in E. apply times_opts in E1. unfold same_opts in *. intuition congruence.
Qed.

Lemma filter_le {A} (f : A -> bool) l : (length (filter f l) <= length l)%nat.
Proof. induction l as [|x l IH]; [cbn; lia|]. cbn [filter]. destruct (f x); cbn [length]; lia. Qed.
Lemma times_spec start max i ts : forall b acc b' r, times_loop start max i ts b acc = (b', r) ->
  incl acc r /\
  (forall e, In e r -> In e acc \/ (exists t, In t ts /\ held b (i, t) e /\ (w_expiresAt e < start)%N /\ t <= Z.of_N start)) /\
  (forall k e, held b' k e -> held b k e) /\
  (forall k e, held b k e -> In e r \/ held b' k e) /\
  (StronglySorted Z.le ts -> forall t e, In t ts -> t <= Z.of_N start -> held b (i, t) e -> (w_expiresAt e < start)%N ->
     In e r \/ max < Z.of_nat (length r)).
Proof.
  induction ts as [|t ts IH]; intros b acc b' r; cbn [times_loop].
  - intros [= <- <-]. split; [apply incl_refl|]. split; [auto|]. split; [auto|]. split; [auto|]. intros _ t e [].
  - destruct ((Z.of_N start <? t) || (max <? Z.of_nat (length acc)))%bool eqn:Eb.
    + intros [= <- <-]. split; [apply incl_refl|]. split; [auto|]. split; [auto|]. split; [auto|].
      intros Hs u e Hin Hu _ _. apply Bool.orb_true_iff in Eb. destruct Eb as [Eb|Eb]; [|right; lia]. exfalso.
      inversion Hs as [|? ? _ Hf]; subst. destruct Hin as [<-|Hin]; [lia|]. rewrite Forall_forall in Hf. specialize (Hf u Hin). lia.
    + apply Bool.orb_false_iff in Eb. destruct Eb as [Eb1 Eb2]. cbv zeta.
      set (es := match afind xk_eqb (x_windows b) (i, t) with Some l => l | None => [] end).
      set (old := filter (fun e => (w_expiresAt e <? start)%N) es).
      set (b1 := if Nat.eqb (length old) (length es) then _ else b).
      intros E. apply IH in E. destruct E as (H1 & H2 & H3 & H4 & H5).
      assert (Hold : forall e, In e old -> held b (i, t) e /\ (w_expiresAt e < start)%N).
      { intros e He. apply filter_In in He. destruct He as [He Hl]. split; [|lia]. unfold es in He. unfold held.
        destruct (afind xk_eqb (x_windows b) (i, t)) as [l|]; [exists l; auto|destruct He]. }
      assert (Hback : forall k e, held b1 k e -> held b k e).
      { intros k e. unfold b1. destruct (Nat.eqb _ _); [|auto]. unfold held. cbn [x_windows set_windows]. intros (l & Hf & Hin).
        exists l. split; [|exact Hin]. destruct (xk_eqb (i, t) k) eqn:Ek.
        - apply xk_eqb_spec in Ek. subst k. rewrite (afind_adel_same xk_eqb) in Hf. discriminate.
        - rewrite (afind_adel_other xk_eqb xk_eqb_spec) in Hf; [exact Hf|]. intros H. apply xk_eqb_spec in H. congruence. }
      assert (Hstay : forall k e, held b k e -> In e old \/ held b1 k e).
      { intros k e Hh. unfold b1. destruct (Nat.eqb _ _) eqn:El; [|auto]. destruct (xk_eqb (i, t) k) eqn:Ek.
        - left. apply xk_eqb_spec in Ek. subst k. destruct Hh as (l & Hf & Hin). unfold old, es in *. rewrite Hf in *.
          apply Nat.eqb_eq in El. assert (Hall : forall l : list wentry, length (filter (fun e => (w_expiresAt e <? start)%N) l) = length l -> filter (fun e => (w_expiresAt e <? start)%N) l = l).
          { clear. induction l as [|x l IHl]; [reflexivity|]. cbn [filter]. destruct (w_expiresAt x <? start)%N; cbn [length].
            - intros [= H]. f_equal. auto.
            - intros H. exfalso. pose proof (filter_le (fun e => (w_expiresAt e <? start)%N) l). lia. }
          rewrite (Hall l El). exact Hin.
        - right. destruct Hh as (l & Hf & Hin). exists l. split; [|exact Hin]. cbn [x_windows set_windows].
          rewrite (afind_adel_other xk_eqb xk_eqb_spec); [exact Hf|]. intros H. apply xk_eqb_spec in H. congruence. }
      split; [intros e He; apply H1, in_app_iff; auto|]. split; [|split; [|split]].
      * intros e He. apply H2 in He. destruct He as [He|(u & Hu & Hh & Hlt & Hle)].
        -- apply in_app_iff in He. destruct He as [He|He]; [auto|]. right. exists t. destruct (Hold e He). split; [now left|]. repeat split; auto. lia.
        -- right. exists u. split; [now right|]. auto.
      * auto.
      * intros k e Hh. destruct (Hstay k e Hh) as [Ho|Ho]; [|now apply H4]. left. apply H1, in_app_iff; auto.
      * intros Hs u e Hin Hu Hh Hlt. inversion Hs as [|? ? Hs' _]; subst. destruct (Hstay (i, u) e Hh) as [Ho|Ho]; [left; apply H1, in_app_iff; auto|].
        destruct Hin as [<-|Hin]; [|now apply (H5 Hs' u e)]. left. apply H1, in_app_iff. right. apply filter_In. split; [|lia].
        destruct Hh as (l & Hf & Hx). unfold es. now rewrite Hf.
Qed.

Lemma shard_times_in b i t e : held b (i, t) e -> In t (shard_times b i).
Proof.
  intros (es & Hf & _). apply (afind_In xk_eqb xk_eqb_spec) in Hf. unfold shard_times.
  apply (Permutation_in _ (Permutation_sym (sort_Z_perm _))). apply in_map_iff. exists ((i, t), es). split; [reflexivity|].
  apply filter_In. split; [exact Hf|]. cbn [fst]. apply Nat.eqb_refl.
Qed.

Lemma shards_spec start max is : forall b acc b' r, shards_loop start max is b acc = (b', r) ->
  incl acc r /\
  (forall e, In e r -> In e acc \/ (exists i t, In i is /\ held b (i, t) e /\ (w_expiresAt e < start)%N /\ t <= Z.of_N start)) /\
  (forall k e, held b' k e -> held b k e) /\
  (forall k e, held b k e -> In e r \/ held b' k e) /\
  (forall i t e, In i is -> t <= Z.of_N start -> held b (i, t) e -> (w_expiresAt e < start)%N -> In e r \/ max < Z.of_nat (length r)).
Proof.
  induction is as [|i is IH]; intros b acc b' r; cbn [shards_loop].
  - intros [= <- <-]. split; [apply incl_refl|]. split; [auto|]. split; [auto|]. split; [auto|]. intros i t e [].
  - destruct (times_loop _ _ _ _ _ _) as [b1 acc1] eqn:E1. intros E. apply times_spec in E1. destruct E1 as (A1 & A2 & A3 & A4 & A5).
    assert (Hlen : incl acc1 r /\ (length acc1 <= length r)%nat).
    { clear - E. revert b1 acc1 E. induction is as [|j is IHl]; intros b1 acc1; cbn [shards_loop]; [intros [= <- <-]; split; [apply incl_refl|lia]|].
      destruct (times_loop start max j _ b1 acc1) as [b2 acc2] eqn:E2. intros E. apply IHl in E.
      assert (exists x, acc2 = acc1 ++ x) as [x ->].
      { clear - E2. revert E2. generalize (shard_times b1 j). intros ts. revert b1 acc1. induction ts as [|t ts IHt]; intros b1 acc1; cbn [times_loop].
        - intros [= _ <-]. exists []. now rewrite app_nil_r.
        - destruct (_ || _)%bool; [intros [= _ <-]; exists []; now rewrite app_nil_r|]. cbv zeta. intros E. apply IHt in E. destruct E as [x ->].
          eexists. rewrite <- app_assoc. reflexivity. }
      rewrite app_length in E. destruct E as [H1 H2]. split; [intros y Hy; apply H1, in_app_iff; auto|lia]. }
    apply IH in E. destruct E as (B1 & B2 & B3 & B4 & B5). split; [intros e He; auto|]. split; [|split; [|split]].
    + intros e He. apply B2 in He. destruct He as [He|(j & t & Hj & Hh & Hlt & Hle)].
      * apply A2 in He. destruct He as [He|(t & Ht & Hh & Hlt & Hle)]; [auto|]. right. exists i, t. split; [now left|]. auto.
      * right. exists j, t. split; [now right|]. auto.
    + auto.
    + intros k e Hh. destruct (A4 k e Hh) as [Ha|Ha]; [left; auto|]. now apply B4.
    + intros j t e Hin Hle Hh Hlt. destruct (A4 (j, t) e Hh) as [Ha|Ha]; [left; auto|].
      destruct Hin as [<-|Hin]; [|now apply (B5 j t e)].
      destruct (A5 (sort_Z_sorted _) t e (shard_times_in b i t e Hh) Hle Hh Hlt) as [H|H]; [left; apply (proj1 Hlen), H|right; lia].
Qed.

(** * One run of the job *)
Lemma take_spec now max b b' es : get_expired now max b = (b', es) ->
  same_opts b b' /\
  (forall e, In e es -> exists i t, (i < x_max b)%nat /\ held b (i, t) e /\ (w_expiresAt e < u32z (unix now))%N) /\
  (forall k e, held b' k e -> held b k e) /\
  (forall k e, held b k e -> In e es \/ held b' k e) /\
  (x_earliest b' = 0 \/ b' = b) /\
  (x_on b = true -> x_earliest b <= Z.of_N (u32z (unix now)) ->
   forall i t e, (i < x_max b)%nat -> t <= Z.of_N (u32z (unix now)) -> held b (i, t) e -> (w_expiresAt e < u32z (unix now))%N ->
     In e es \/ max < Z.of_nat (length es)).
Proof.
  unfold get_expired. destruct (x_on b) eqn:Eo; cbn [negb].
  2: { intros [= <- <-]. split; [repeat split|]. split; [intros e []|]. split; [auto|]. split; [auto|]. split; [auto|]. discriminate. }
  cbv zeta. set (start := u32z (unix now)). destruct (Z.of_N start <? x_earliest b) eqn:Ee.
  - intros [= <- <-]. split; [repeat split|]. split; [intros e []|]. split; [auto|]. split; [auto|]. split; [auto|]. intros _ H. lia.
  - destruct (shards_loop _ _ _ _ _) as [b1 es1] eqn:E. intros [= <- <-]. pose proof (shards_opts _ _ _ _ _ _ _ E) as Ho.
    apply shards_spec in E. destruct E as (_ & H2 & H3 & H4 & H5).
    split; [exact Ho|]. split; [|split; [exact H3|split; [exact H4|split; [now left|]]]].
    + intros e He. apply H2 in He. destruct He as [[]|(i & t & Hi & Hh & Hlt & _)]. exists i, t. apply in_seq in Hi. split; [lia|]. auto.
    + intros _ _ i t e Hi. apply H5. apply in_seq. lia.
Qed.

(** * Runs of the bucket *)
Definition placed (find : N -> nat) (b : expiry) : Prop :=
  x_dur b = 60 /\ x_max b = 1%nat /\ forall k e, held b k e -> k = (find (w_expiresAt e), expiry_hash b (w_expiresAt e)).
Lemma hash_dur b b' t : x_dur b' = x_dur b -> expiry_hash b' t = expiry_hash b t.
Proof. intros E. unfold expiry_hash. now rewrite E. Qed.
Lemma adds_opts find l : forall b, same_opts b (fold_left (add_expiry find) l b).
Proof.
  induction l as [|x l IH]; intros b; cbn [fold_left]; [repeat split|]. destruct (IH (add_expiry find b x)) as (A & B & C).
  assert (same_opts b (add_expiry find b x)) as (D & E & F) by (unfold add_expiry; destruct (negb (x_on b)); repeat split).
  repeat split; congruence.
Qed.
Lemma placed_adds find l b : placed find b -> placed find (fold_left (add_expiry find) l b).
Proof.
  intros (H1 & H2 & H3). destruct (adds_opts find l b) as (A & B & C). split; [congruence|]. split; [congruence|].
  intros k e Hh. rewrite (hash_dur b (fold_left (add_expiry find) l b)) by exact B. apply adds_held in Hh. destruct Hh as [Hh|(_ & _ & ->)]; [now apply H3|reflexivity].
Qed.
Lemma placed_take find now max b b' es : placed find b -> get_expired now max b = (b', es) -> placed find b'.
Proof.
  intros (H1 & H2 & H3) E. apply take_spec in E. destruct E as ((A & B & C) & _ & Hb & _). split; [congruence|]. split; [congruence|].
  intros k e Hh. rewrite (hash_dur b b') by exact B. apply H3. now apply Hb.
Qed.
Lemma placed_new find on : placed find (newExpiry on).
Proof. split; [reflexivity|]. split; [reflexivity|]. intros k e H. now apply held_none in H. Qed.

Lemma brun_shard find max ops : forall b, placed find b -> forall e, In e (snd (brun find max b ops)) -> find (w_expiresAt e) = 0%nat.
Proof.
  induction ops as [|[es|now] ops IH]; intros b Hp e; cbn [brun]; [intros []| |].
  - apply IH. now apply placed_adds.
  - destruct (get_expired now max b) as [b1 es] eqn:E. pose proof (placed_take _ _ _ _ _ _ Hp E) as Hp1.
    specialize (IH b1 Hp1 e). destruct (brun find max b1 ops) as [b2 rest]. cbn [snd] in *. intros Hin. apply in_app_iff in Hin.
    destruct Hin as [Hin|Hin]; [|now apply IH]. apply take_spec in E. destruct E as (_ & H & _). destruct (H e Hin) as (i & t & Hi & Hh & _).
    destruct Hp as (_ & Hm & Hk). apply Hk in Hh. injection Hh as -> _. lia.
Qed.

Lemma brun_app find max a : forall b c, brun find max b (a ++ c) =
  (let (b1, x) := brun find max b a in let (b2, y) := brun find max b1 c in (b2, x ++ y)).
Proof.
  induction a as [|[es|now] a IH]; intros b c; cbn [app brun].
  - destruct (brun find max b c) as [b2 y]. reflexivity.
  - apply IH.
  - destruct (get_expired now max b) as [b1 es]. rewrite IH. destruct (brun find max b1 a) as [b2 x]. destruct (brun find max b2 c) as [b3 y]. now rewrite app_assoc.
Qed.

(** Where the earliest time comes from. *)
Lemma earliest_adds find (P : Z -> Prop) l : forall b, (x_earliest b = 0 \/ P (x_earliest b)) ->
  (forall e, In e l -> P (expiry_hash b (w_expiresAt e))) ->
  let b' := fold_left (add_expiry find) l b in x_earliest b' = 0 \/ P (x_earliest b').
Proof.
  induction l as [|x l IH]; intros b Hb Hl; cbn [fold_left]; [exact Hb|]. apply IH.
  - unfold add_expiry. destruct (negb (x_on b)); [exact Hb|]. cbn [x_earliest set_windows]. destruct (Z.eqb_spec (x_earliest b) 0); [|exact Hb].
    right. apply Hl. now left.
  - intros e He. replace (expiry_hash (add_expiry find b x) (w_expiresAt e)) with (expiry_hash b (w_expiresAt e)); [apply Hl; now right|].
    unfold add_expiry. destruct (negb (x_on b)); reflexivity.
Qed.
Lemma earliest_run find max now ops : forall b, x_dur b = 60 -> met_before now ops ->
  (x_earliest b = 0 \/ x_earliest b <= unix now) ->
  let b' := fst (brun find max b ops) in (x_earliest b' = 0 \/ x_earliest b' <= unix now) /\ same_opts b b'.
Proof.
  induction ops as [|[es|t] ops IH]; intros b Hd Hm Hb; cbn [brun]; [split; [exact Hb|repeat split]| |].
  - destruct (adds_opts find es b) as (A & B & C). destruct (IH (fold_left (add_expiry find) es b)) as [H1 H2].
    + congruence.
    + intros es' e He. apply Hm. now right.
    + apply (earliest_adds find (fun z => z <= unix now)); [exact Hb|]. intros e He. specialize (Hm es e (or_introl eq_refl) He).
      unfold expiry_hash. rewrite Hd. pose proof (Z.mul_div_le (Z.of_N (w_expiresAt e)) 60 ltac:(lia)). lia.
    + split; [exact H1|]. destruct H2 as (D & E & F). repeat split; congruence.
  - destruct (get_expired t max b) as [b1 es] eqn:E. apply take_spec in E. destruct E as (Ho & _ & _ & _ & He & _).
    destruct (IH b1) as [H1 H2].
    + destruct Ho as (_ & -> & _). exact Hd.
    + intros es' e Hin. apply Hm. now right.
    + destruct He as [-> | ->]; auto.
    + destruct (brun find max b1 ops) as [b2 r]. cbn [fst] in *. split; [exact H1|]. destruct Ho as (A & B & C), H2 as (D & F & G). repeat split; congruence.
Qed.
Lemma held_run find max ops : forall b k e, held b k e -> In e (snd (brun find max b ops)) \/ held (fst (brun find max b ops)) k e.
Proof.
  induction ops as [|[es|t] ops IH]; intros b k e Hh; cbn [brun]; [now right| |].
  - apply IH. apply adds_held. now left.
  - destruct (get_expired t max b) as [b1 es] eqn:E. apply take_spec in E. destruct E as (_ & _ & _ & Hs & _).
    destruct (Hs k e Hh) as [H|H].
    + left. destruct (brun find max b1 ops) as [b2 r]. apply in_app_iff. now left.
    + specialize (IH b1 k e H). destruct (brun find max b1 ops) as [b2 r]. cbn [fst snd] in *. destruct IH; [left; apply in_app_iff; now right|now right].
Qed.
Lemma brun_complete find max ops1 es ops2 now e :
  In e es -> find (w_expiresAt e) = 0%nat -> 0 <= unix now < 2 ^ 32 ->
  met_before now (ops1 ++ BMeet es :: ops2) ->
  In e (snd (brun find max (newExpiry true) (ops1 ++ BMeet es :: ops2 ++ [BTake now]))) \/
  max < Z.of_nat (length (snd (get_expired now max (fst (brun find max (newExpiry true) (ops1 ++ BMeet es :: ops2)))))).
Proof.
  intros He Hf Hn Hm. replace (ops1 ++ BMeet es :: ops2 ++ [BTake now]) with ((ops1 ++ BMeet es :: ops2) ++ [BTake now]) by (rewrite <- app_assoc; reflexivity).
  set (ops := ops1 ++ BMeet es :: ops2) in *. rewrite brun_app.
  pose proof (earliest_run find max now ops (newExpiry true) eq_refl Hm (or_introl eq_refl)) as [Hea Hso]. cbv zeta in *.
  assert (Hh : In e (snd (brun find max (newExpiry true) ops)) \/ held (fst (brun find max (newExpiry true) ops)) (find (w_expiresAt e), expiry_hash (newExpiry true) (w_expiresAt e)) e).
  { unfold ops. rewrite brun_app.
    assert (Hm1 : met_before now ops1) by (intros es' x Hx; apply Hm; unfold ops; apply in_app_iff; now left).
    pose proof (earliest_run find max now ops1 (newExpiry true) eq_refl Hm1 (or_introl eq_refl)) as [_ (O1 & O2 & O3)]. cbv zeta in *.
    destruct (brun find max (newExpiry true) ops1) as [b1 x]. cbn [fst brun] in *.
    pose proof (held_run find max ops2 (fold_left (add_expiry find) es b1) (find (w_expiresAt e), expiry_hash (newExpiry true) (w_expiresAt e)) e) as H.
    destruct (brun find max (fold_left (add_expiry find) es b1) ops2) as [b2 y]. cbn [fst snd] in *.
    destruct H as [H|H]; [|left; apply in_app_iff; now right|right; exact H].
    apply adds_held. right. split; [exact O1|]. split; [exact He|]. now rewrite (hash_dur (newExpiry true) b1) by exact O2. }
  destruct (brun find max (newExpiry true) ops) as [b x]. cbn [fst snd] in *.
  cbn [brun]. destruct (get_expired now max b) as [b' tk] eqn:E. cbn [snd]. destruct Hh as [Hh|Hh]; [left; apply in_app_iff; now left|].
  apply take_spec in E. destruct E as (_ & _ & _ & _ & _ & Hc). destruct Hso as (O1 & O2 & O3). cbn [newExpiry x_on x_dur x_max] in *.
  assert (Hu : Z.of_N (u32z (unix now)) = unix now) by (unfold u32z; rewrite Z.mod_small by exact Hn; lia).
  assert (Hex : Z.of_N (w_expiresAt e) + 60 <= unix now) by (apply (Hm es e); [unfold ops; apply in_app_iff; right; now left|exact He]).
  destruct (Hc O1) with (i := find (w_expiresAt e)) (t := expiry_hash (newExpiry true) (w_expiresAt e)) (e := e) as [H|H].
  - rewrite Hu. lia.
  - rewrite O3, Hf. lia.
  - rewrite Hu. unfold expiry_hash. cbn [newExpiry x_dur]. pose proof (Z.mul_div_le (Z.of_N (w_expiresAt e)) 60 ltac:(lia)). lia.
  - exact Hh.
  - lia.
  - left. apply in_app_iff. right. rewrite app_nil_r. exact H.
  - right. exact H.
Qed.

(** * Space *)
Lemma read_ranges_free s l n es : read_ranges (set_free s l n) es = read_ranges s es.
Proof.
  induction es as [|e es IH]; cbn [read_ranges]; [reflexivity|]. change (d_index (set_free s l n)) with (d_index s).
  destruct (readEntry _ _) as [[x| |]|]; [f_equal; exact IH|reflexivity..].
Qed.
Lemma expire_once es : forall s live rest, history (d_lease s) live -> Permutation live (read_ranges s es ++ rest) ->
  exists s' live', expire_loop s es = Some s' /\ history (d_lease s') live' /\ Permutation live' rest /\
    forall x, is_free (ranges (d_lease s')) x <-> is_free (ranges (d_lease s)) x \/ exists r, In r (read_ranges s es) /\ in_range x r.
Proof.
  induction es as [|e es IH]; intros s live rest H HP; cbn [expire_loop read_ranges] in *.
  - exists s, live. repeat split; [exact H|exact HP|auto|]. intros [?|(r & [] & _)]; assumption.
  - destruct (readEntry (d_index s) (w_seq e)) as [[x| |]|] eqn:E;
      try (exists s, live; repeat split; [exact H|exact HP|auto|]; intros [?|(r & [] & _)]; assumption).
    cbn [app] in HP. assert (Hin : In (x_msgOffset x, mSize x) live) by (apply (Permutation_in _ (Permutation_sym HP)); now left).
    pose proof (proj1 (proj2 (history_ok _ _ H))) as Hb. rewrite Forall_forall in Hb. pose proof (Hb _ Hin) as [_ Hs]. cbn [snd] in Hs.
    destruct (N.eqb_spec (mSize x) 0) as [Ez|_]; [lia|].
    apply in_split in Hin. destruct Hin as (l1 & l2 & ->). destruct (history_free _ _ _ _ _ H) as (l' & El & Hf). rewrite El.
    destruct (IH (set_free s l' (count_sub (d_count s) 1)) (l1 ++ l2) rest) as (s' & live' & E1 & E2 & E3 & E4).
    + exact (h_free _ _ _ _ _ _ H El).
    + rewrite read_ranges_free. apply Permutation_sym in HP. apply Permutation_cons_app_inv in HP. apply Permutation_sym. exact HP.
    + exists s', live'. split; [exact E1|]. split; [exact E2|]. split; [exact E3|]. intros y. rewrite E4. cbn [set_free d_lease]. rewrite Hf.
      rewrite read_ranges_free. split.
      * intros [[A|A]|(r & A & B)]; [now left|right; eexists; split; [now left|exact A]|right; exists r; split; [now right|exact B]].
      * intros [A|(r & [<-|A] & B)]; [auto|auto|right; eauto].
Qed.
Lemma expire_once_job def now s b b' es live rest : get_expired now def b = (b', es) ->
  history (d_lease s) live -> Permutation live (read_ranges s es ++ rest) ->
  exists s' live', expire_entries def now s b = Some (s', b') /\ history (d_lease s') live' /\ Permutation live' rest /\
    forall x, is_free (ranges (d_lease s')) x <-> is_free (ranges (d_lease s)) x \/ exists r, In r (read_ranges s es) /\ in_range x r.
Proof.
  intros E H HP. destruct (expire_once es s live rest H HP) as (s' & live' & E1 & E2). exists s', live'.
  unfold expire_entries. rewrite E, E1. auto.
Qed.

(** * What a Get hands over is expired *)
Lemma newest_dead_exp now l es e : In e (newest_dead now l es) -> is_expired (w_expiresAt e) now = true.
Proof. unfold newest_dead, we_live. rewrite filter_In. intros [_ H]. destruct (is_expired _ _); [reflexivity|discriminate]. Qed.
Lemma ilookup_dead_exp now limit ls : forall l e, In e (ilookup_dead now limit l ls) -> is_expired (w_expiresAt e) now = true.
Proof.
  induction ls as [|es ls IH]; intros l e; cbn [ilookup_dead]; [intros []|]. destruct es as [|x es]; [apply IH|]. cbv zeta.
  rewrite in_app_iff. intros [H|H]; [now apply newest_dead_exp in H|now apply IH in H].
Qed.
Lemma block_dead_exp now h b limit acc e : In e (block_dead now h b limit acc) -> is_expired (w_expiresAt e) now = true.
Proof.
  unfold block_dead. destruct (negb _); [intros []|]. destruct (wb_used b) as [es|]; [|intros []]. cbv zeta.
  destruct (_ <? _); [|apply newest_dead_exp]. rewrite in_app_iff. intros [H|H]; [now apply newest_dead_exp in H|].
  destruct (_ <=? _); [destruct H|now apply newest_dead_exp in H].
Qed.
Lemma chain_dead_exp fuel now f h cutoff : forall off limit acc e, In e (chain_dead fuel now f h cutoff off limit acc) -> is_expired (w_expiresAt e) now = true.
Proof.
  induction fuel as [|n IH]; intros off limit acc e; cbn [chain_dead]; [intros []|]. destruct (readWindowBlock f off) as [b|]; [|intros []].
  rewrite in_app_iff. intros [H|H]; [now apply block_dead_exp in H|]. destruct (look_block _ _ _ _ _ _) as [[[a l] [|]]|]; try destruct H.
  destruct (_ =? 0); [destruct H|now apply IH in H].
Qed.
Lemma topics_dead_exp s now g L cutoff tops : forall acc e, In e (topics_dead s now g L cutoff tops acc) -> is_expired (w_expiresAt e) now = true.
Proof.
  induction tops as [|[h off] tops IH]; intros acc e; cbn [topics_dead]; [intros []|]. destruct (_ <? _); [intros []|]. cbv zeta.
  rewrite in_app_iff. intros [H|H].
  - unfold tw_dead in H. cbv zeta in H. rewrite in_app_iff in H. destruct H as [H|H]; [now apply ilookup_dead_exp in H|].
    destruct (_ <=? _); [destruct H|now apply chain_dead_exp in H].
  - destruct (tw_lookup _ _ _ _ _ _ _) as [es|]; [now apply IH in H|destruct H].
Qed.
Lemma get_dead_exp c s now g q e : In e (get_dead c s now g q) -> w_expiresAt e <> 0%N /\ (w_expiresAt e <= u32z (unix now))%N.
Proof.
  unfold get_dead. destruct (d_closed s); [intros []|]. destruct (Nat.eqb _ _); [intros []|]. destruct (_ <? _)%N; [intros []|]. cbv zeta.
  destruct (parse_limit _ _ _ _ _) as [L cutoff]. intros H. apply topics_dead_exp in H. unfold is_expired in H. lia.
Qed.

(** * Where the bucket's entries come from *)
Lemma xrun_app c find a : forall w b r, xrun c find w b (a ++ r) =
  (let '(w1, b1, xs) := xrun c find w b a in let '(w2, b2, ys) := xrun c find w1 b1 r in (w2, b2, xs ++ ys)).
Proof.
  induction a as [|o a IH]; intros w b r; cbn [app xrun].
  - destruct (xrun c find w b r) as [[w2 b2] ys]. reflexivity.
  - destruct (xstep c find w b o) as [[w1 b1] x]. rewrite IH. destruct (xrun c find w1 b1 a) as [[w2 b2] xs]. destruct (xrun c find w2 b2 r) as [[w3 b3] ys]. reflexivity.
Qed.
Lemma met_snoc c find w b ops o e : met_in c find w b ops e -> met_in c find w b (ops ++ [o]) e.
Proof.
  intros (o1 & t & g & q & o2 & s & -> & H). exists o1, t, g, q, (o2 ++ [o]), s. split; [now rewrite <- app_assoc|exact H].
Qed.
Lemma expire_bucket def now s b s' b' : expire_entries def now s b = Some (s', b') -> b' = fst (get_expired now def b).
Proof. unfold expire_entries. destruct (get_expired now def b) as [b1 es]. destruct (expire_loop s es); [intros [= _ <-]; reflexivity|discriminate]. Qed.
Lemma origin c find w0 on ops : forall w b outs, xrun c find w0 (newExpiry on) ops = (w, b, outs) ->
  forall k e, held b k e -> met_in c find w0 (newExpiry on) ops e.
Proof.
  induction ops as [|o ops IH] using rev_ind; intros w b outs E k e Hh.
  - injection E as <- <- <-. now apply held_none in Hh.
  - rewrite xrun_app in E. destruct (xrun c find w0 (newExpiry on) ops) as [[w1 b1] xs] eqn:E1. cbn [xrun] in E.
    destruct (xstep c find w1 b1 o) as [[w2 b2] x] eqn:E2. apply pair_equal_spec in E. destruct E as [E _]. apply pair_equal_spec in E. destruct E as [<- <-]. specialize (IH _ _ _ eq_refl).
    destruct o as [o|now]; cbn [xstep] in E2.
    + destruct (dstep c w1 o) as [w3 x3]. injection E2 as <- <- <-.
      assert (Hcase : held b1 k e \/ exists s t g q, w1 = Up s /\ o = DoGet t g q /\ In e (get_dead c s t g q)).
      { destruct w1 as [s|f]; destruct o; try (now left); try (now apply held_none in Hh).
        apply adds_held in Hh. destruct Hh as [Hh|(_ & Hi & _)]; [now left|]. right. eauto 10. }
      destruct Hcase as [Hc|(s & t & g & q & -> & -> & Hi)]; [apply met_snoc; now apply (IH k)|].
      exists ops, t, g, q, [], s. split; [reflexivity|]. split; [now rewrite E1|]. split; [exact Hi|]. now apply get_dead_exp in Hi.
    + apply met_snoc. apply (IH k). destruct w1 as [s|f]; [|injection E2 as <- <- <-; exact Hh].
      destruct (expire_entries (c_def c) now s b1) as [[s' b']|] eqn:E3; injection E2 as <- <- <-; [|exact Hh].
      apply expire_bucket in E3. destruct (get_expired now (c_def c) b1) as [b4 es] eqn:E4. cbn [fst] in E3. subst b4.
      apply take_spec in E4. now apply (proj1 (proj2 (proj2 E4))).
Qed.
Lemma taken_origin c find w0 on ops w b outs now e : xrun c find w0 (newExpiry on) ops = (w, b, outs) ->
  In e (snd (get_expired now (c_def c) b)) -> met_in c find w0 (newExpiry on) ops e /\ (w_expiresAt e < u32z (unix now))%N.
Proof.
  intros E H. destruct (get_expired now (c_def c) b) as [b' es] eqn:E1. apply take_spec in E1. destruct E1 as (_ & H1 & _).
  destruct (H1 e H) as (i & t & _ & Hh & Hlt). split; [exact (origin _ _ _ _ _ _ _ _ E _ _ Hh)|exact Hlt].
Qed.
