(* Proofs about the locks (M_Locks.v): a ranking of the locks that every call
   but Keys and Size respects. *)

From Coq Require Import List Arith Bool Lia.
Import ListNotations.
From Verif Require Import M_Locks S_Locks.

Definition rank (l : lock) : nat :=
  match l with
  | Sync => 0 | Mu _ => 1 | TrieMu _ => 2 | Trie => 3 | Twb => 4 | Wbs => 5 | Wb _ => 6
  | ExpS => 7 | Files => 8 | Lease _ => 9 | FBloom => 10 | Time _ => 11 | Block _ => 12
  | Log => 13 | Tiny _ => 14 | Filter _ => 15 | Wal => 16 | Store => 17 | Db => 18
  | Mark => 19 | Bloom _ => 20 | Exp k => 21 + k
  end.

Definition fin (leaves : bool) (held : list (lock * mode)) : Prop :=
  if leaves then Forall (fun h => rank (fst h) = 0) held else held = [].

(* Every lock taken ranks above all the locks held, and not below [lo]. *)
Fixpoint good (lo : nat) (leaves : bool) (held : list (lock * mode)) (p : list act) : Prop :=
  match p with
  | [] => fin leaves held
  | Acq l m :: p' => lo <= rank l /\ Forall (fun h => rank (fst h) < rank l) held
                     /\ good lo leaves ((l, m) :: held) p'
  | Rel l m :: p' => In (l, m) held /\ good lo leaves (drop_one (l, m) held) p'
  end.

Definition ok (x : nat * bool) (t : thread) : Prop := good (fst x) (snd x) (th_held t) (th_prog t).

(* ---- lists ---- *)

Lemma set_nth_forall2 {A B : Type} (P : A -> B -> Prop) : forall xs ys i y,
  Forall2 P xs ys -> (forall x, nth_error xs i = Some x -> P x y) ->
  Forall2 P xs (set_nth i y ys).
Proof.
  intros xs ys i y F. revert i. induction F as [|x y' xs ys H F IH]; intros [|i] Hx; cbn.
  - constructor.
  - constructor.
  - constructor; [apply Hx; reflexivity | exact F].
  - constructor; [exact H | apply IH; exact Hx].
Qed.

Lemma forall2_nth {A B : Type} (P : A -> B -> Prop) : forall xs ys i x y,
  Forall2 P xs ys -> nth_error xs i = Some x -> nth_error ys i = Some y -> P x y.
Proof.
  intros xs ys i x y F. revert i. induction F as [|x' y' xs ys H F IH]; intros [|i] Hx Hy;
    cbn in *; try discriminate.
  - assert (x' = x) by congruence. assert (y' = y) by congruence. subst. exact H.
  - exact (IH i Hx Hy).
Qed.

Lemma forall2_nth_l {A B : Type} (P : A -> B -> Prop) : forall xs ys i y,
  Forall2 P xs ys -> nth_error ys i = Some y -> exists x, nth_error xs i = Some x /\ P x y.
Proof.
  intros xs ys i y F. revert i. induction F as [|x' y' xs ys H F IH]; intros [|i] Hy;
    cbn in *; try discriminate.
  - assert (y' = y) by congruence. subst. exists x'. auto.
  - exact (IH i Hy).
Qed.

(* ---- steps keep the goroutines good ---- *)

Lemma thread_step_ok ts x t t' : ok x t -> thread_step ts t = Some t' -> ok x t'.
Proof.
  unfold ok, thread_step. destruct t as [p h a]; cbn. destruct p as [|[l m|l m] p]; intros G E.
  - discriminate.
  - destruct m.
    + destruct (existsb (holds l W) ts || existsb (announced l) ts); [discriminate|].
      assert (t' = Th p ((l, R) :: h) false) by congruence. subst. exact (proj2 (proj2 G)).
    + destruct a.
      * destruct (existsb (holds l W) ts || existsb (holds l R) ts); [discriminate|].
        assert (t' = Th p ((l, W) :: h) false) by congruence. subst. exact (proj2 (proj2 G)).
      * destruct (existsb (holds l W) ts || existsb (announced l) ts); [discriminate|].
        assert (t' = Th (Acq l W :: p) h true) by congruence. subst. exact G.
  - assert (t' = Th p (drop_one (l, m) h) false) by congruence. subst. exact (proj2 G).
Qed.

Lemma step_ok xs ts i ts' : Forall2 ok xs ts -> step ts i = Some ts' -> Forall2 ok xs ts'.
Proof.
  unfold step. intros F E.
  destruct (nth_error ts i) as [t|] eqn:N; [|discriminate].
  destruct (thread_step ts t) as [t'|] eqn:T; [|discriminate].
  assert (ts' = set_nth i t' ts) by congruence. subst.
  apply set_nth_forall2; [exact F|]. intros x Hx.
  apply (thread_step_ok ts x t); [|exact T]. exact (forall2_nth ok xs ts i x t F Hx N).
Qed.

Lemma run_ok xs is : forall ts ts', Forall2 ok xs ts -> run ts is = Some ts' -> Forall2 ok xs ts'.
Proof.
  induction is as [|i is IH]; intros ts ts' F E; cbn in E.
  - assert (ts' = ts) by congruence. subst. exact F.
  - destruct (step ts i) as [t1|] eqn:S; [|discriminate].
    exact (IH _ _ (step_ok _ _ _ _ F S) E).
Qed.

(* ---- no step ---- *)

Lemma stuck_step ts t : stuck ts -> In t ts -> thread_step ts t = None.
Proof.
  intros S I. destruct (In_nth_error _ _ I) as [i N].
  pose proof (S i) as E. unfold step in E. rewrite N in E.
  destruct (thread_step ts t); [discriminate|reflexivity].
Qed.

Lemma holds_in l m t : holds l m t = true -> In (l, m) (th_held t).
Proof.
  unfold holds. intros E. apply existsb_exists in E. destruct E as [x [I Ex]].
  destruct (item_eq_dec x (l, m)); [subst; exact I|discriminate].
Qed.

Lemma announced_acq l t : announced l t = true ->
  th_ann t = true /\ exists p, th_prog t = Acq l W :: p.
Proof.
  unfold announced. intros E. apply andb_true_iff in E. destruct E as [A E]. split; [exact A|].
  destruct (th_prog t) as [|[l' [|]|] p]; try discriminate.
  destruct (lock_eq_dec l' l); [subst; exists p; reflexivity|discriminate].
Qed.

Lemma ann_held ts l t p : stuck ts -> In t ts -> th_ann t = true -> th_prog t = Acq l W :: p ->
  exists u m, In u ts /\ In (l, m) (th_held u).
Proof.
  intros S I A P. pose proof (stuck_step _ _ S I) as E. unfold thread_step in E.
  rewrite P, A in E.
  destruct (existsb (holds l W) ts) eqn:E1.
  - apply existsb_exists in E1. destruct E1 as [u [Iu H]]. exists u, W.
    split; [exact Iu|exact (holds_in _ _ _ H)].
  - destruct (existsb (holds l R) ts) eqn:E2; [|discriminate].
    apply existsb_exists in E2. destruct E2 as [u [Iu H]]. exists u, R.
    split; [exact Iu|exact (holds_in _ _ _ H)].
Qed.

Lemma blocked_held ts l m t p : stuck ts -> In t ts -> th_prog t = Acq l m :: p ->
  exists u m', In u ts /\ In (l, m') (th_held u).
Proof.
  intros S I P. pose proof (stuck_step _ _ S I) as E. unfold thread_step in E. rewrite P in E.
  assert (Q : existsb (holds l W) ts || existsb (announced l) ts = true ->
              exists u m', In u ts /\ In (l, m') (th_held u)).
  { intros O. apply orb_true_iff in O. destruct O as [O|O]; apply existsb_exists in O;
      destruct O as [u [Iu H]].
    - exists u, W. split; [exact Iu|exact (holds_in _ _ _ H)].
    - destruct (announced_acq _ _ H) as [A [p' P']]. exact (ann_held ts l u p' S Iu A P'). }
  destruct m.
  - destruct (existsb (holds l W) ts || existsb (announced l) ts); [auto|discriminate].
  - destruct (th_ann t) eqn:A.
    + exact (ann_held ts l t p S I A P).
    + destruct (existsb (holds l W) ts || existsb (announced l) ts); [auto|discriminate].
Qed.

Definition wanted (t : thread) : nat :=
  match th_prog t with Acq l _ :: _ => rank l | _ => 0 end.

Lemma wanted_bound ts : exists B, forall t, In t ts -> wanted t <= B.
Proof.
  induction ts as [|t ts [B IH]].
  - exists 0. intros t [].
  - exists (wanted t + B). intros u [<-|I]; [lia|]. specialize (IH u I). lia.
Qed.

Lemma in_ok xs ts t : Forall2 ok xs ts -> In t ts -> exists x, ok x t.
Proof.
  intros F I. destruct (In_nth_error _ _ I) as [i N].
  destruct (forall2_nth_l _ _ _ _ _ F N) as [x [_ H]]. exists x. exact H.
Qed.

Lemma no_high xs ts : Forall2 ok xs ts -> stuck ts ->
  forall t l m p, In t ts -> th_prog t = Acq l m :: p -> rank l = 0.
Proof.
  intros F S. destruct (wanted_bound ts) as [B HB].
  assert (Q : forall n t l m p, In t ts -> th_prog t = Acq l m :: p -> rank l + n > B ->
              0 < rank l -> False).
  { induction n as [|n IH]; intros t l m p I P L Z.
    - specialize (HB t I). unfold wanted in HB. rewrite P in HB. lia.
    - destruct (blocked_held ts l m t p S I P) as [u [m' [Iu Hu]]].
      destruct (in_ok _ _ _ F Iu) as [x G]. unfold ok in G.
      pose proof (stuck_step _ _ S Iu) as E. unfold thread_step in E.
      destruct (th_prog u) as [|[l' k'|l' k'] p'] eqn:Pu.
      + cbn in G. unfold fin in G. destruct (snd x).
        * rewrite Forall_forall in G. specialize (G _ Hu). cbn in G. lia.
        * rewrite G in Hu. destruct Hu.
      + destruct G as [_ [G _]]. rewrite Forall_forall in G. specialize (G _ Hu). cbn in G.
        apply (IH u l' k' p' Iu Pu); lia.
      + discriminate. }
  intros t l m p I P. destruct (Nat.eq_dec (rank l) 0) as [Z|Z]; [exact Z|].
  exfalso. apply (Q (1 + B) t l m p I P); lia.
Qed.

Lemma rank_sync l : rank l = 0 -> l = Sync.
Proof. destruct l; cbn; intros H; try discriminate; reflexivity. Qed.

Lemma stuck_waits xs ts t : Forall2 ok xs ts -> stuck ts -> In t ts ->
  th_prog t = [] \/ waits_for Sync t.
Proof.
  intros F S I. destruct (in_ok _ _ _ F I) as [x G]. unfold ok in G.
  pose proof (stuck_step _ _ S I) as E. unfold thread_step in E.
  destruct (th_prog t) as [|[l m|l m] p] eqn:P.
  - left. reflexivity.
  - right. pose proof (no_high _ _ F S t l m p I P) as Z.
    pose proof (rank_sync _ Z) as L. subst l. split; [exists m, p; exact P|].
    destruct G as [_ [G _]]. destruct (th_held t) as [|h hs]; [reflexivity|].
    inversion G as [|? ? G1 G2]. cbn in G1. lia.
  - discriminate.
Qed.

Lemma stuck_returned xs ts : Forall2 ok xs ts -> Forall (fun x => snd x = false) xs -> stuck ts ->
  Forall returned ts.
Proof.
  intros F N S.
  assert (D : forall t, In t ts -> th_prog t = [] -> th_held t = []).
  { intros t I P. destruct (In_nth_error _ _ I) as [i Ni].
    destruct (forall2_nth_l _ _ _ _ _ F Ni) as [x [Nx G]]. unfold ok in G. rewrite P in G.
    rewrite Forall_forall in N. specialize (N x (nth_error_In _ _ Nx)). cbn in G.
    unfold fin in G. rewrite N in G. exact G. }
  apply Forall_forall. intros t I.
  destruct (stuck_waits _ _ _ F S I) as [P|[[m [p P]] H]].
  - split; [exact P|exact (D t I P)].
  - exfalso. destruct (blocked_held ts Sync m t p S I P) as [u [m' [Iu Hu]]].
    destruct (stuck_waits _ _ _ F S Iu) as [Pu|[_ Hn]].
    + rewrite (D u Iu Pu) in Hu. destruct Hu.
    + rewrite Hn in Hu. destruct Hu.
Qed.

(* ---- the length of a run ---- *)

Definition weight (t : thread) : nat := 2 * length (th_prog t) - (if th_ann t then 1 else 0).

Lemma thread_step_weight ts t t' : thread_step ts t = Some t' -> weight t' < weight t.
Proof.
  unfold thread_step, weight. destruct t as [p h a]; cbn [th_prog th_held th_ann].
  destruct p as [|[l m|l m] p]; intros E.
  - discriminate.
  - destruct m.
    + destruct (existsb (holds l W) ts || existsb (announced l) ts); [discriminate|].
      assert (t' = Th p ((l, R) :: h) false) by congruence. subst. cbn [th_prog th_held th_ann length].
      destruct a; lia.
    + destruct a.
      * destruct (existsb (holds l W) ts || existsb (holds l R) ts); [discriminate|].
        assert (t' = Th p ((l, W) :: h) false) by congruence. subst. cbn [th_prog th_held th_ann length].
        lia.
      * destruct (existsb (holds l W) ts || existsb (announced l) ts); [discriminate|].
        assert (t' = Th (Acq l W :: p) h true) by congruence. subst. cbn [th_prog th_held th_ann length].
        lia.
  - assert (t' = Th p (drop_one (l, m) h) false) by congruence. subst.
    cbn [th_prog th_held th_ann length]. destruct a; lia.
Qed.

Lemma set_nth_weight : forall ts i t t', nth_error ts i = Some t -> weight t' < weight t ->
  list_sum (map weight (set_nth i t' ts)) < list_sum (map weight ts).
Proof.
  unfold list_sum.
  induction ts as [|u ts IH]; intros [|i] t t' N L; try discriminate;
    cbn [nth_error] in N; cbn [set_nth map fold_right].
  - assert (u = t) by congruence. subst. lia.
  - specialize (IH i t t' N L). lia.
Qed.

Lemma run_weight is : forall ts ts', run ts is = Some ts' ->
  length is + list_sum (map weight ts') <= list_sum (map weight ts).
Proof.
  induction is as [|i is IH]; intros ts ts' E; cbn [run] in E.
  - assert (ts' = ts) by congruence. subst. cbn [length]. lia.
  - destruct (step ts i) as [t1|] eqn:S; [|discriminate].
    specialize (IH _ _ E). cbn [length]. unfold step in S.
    destruct (nth_error ts i) as [t|] eqn:N; [|discriminate].
    destruct (thread_step ts t) as [t'|] eqn:T; [|discriminate].
    assert (t1 = set_nth i t' ts) by congruence. subst.
    pose proof (set_nth_weight _ _ _ _ N (thread_step_weight _ _ _ T)). lia.
Qed.

Lemma start_weight ps : list_sum (map weight (goroutines ps)) = 2 * operations ps.
Proof.
  unfold goroutines, operations. induction ps as [|p ps IH]; [reflexivity|].
  cbn [map concat list_sum fold_right]. unfold list_sum in IH. rewrite app_length.
  unfold weight at 1. cbn [start th_prog th_ann]. rewrite IH. lia.
Qed.

(* ---- good calls ---- *)

Definition fits (n : nat) (p : list act) : Prop :=
  forall lo leaves held q, lo <= n -> Forall (fun h => rank (fst h) < n) held ->
    good lo leaves held q -> good lo leaves held (p ++ q).

Lemma fits_nil n : fits n [].
Proof. intros lo lv h q _ _ G. exact G. Qed.

Lemma fits_app n p q : fits n p -> fits n q -> fits n (p ++ q).
Proof.
  intros P Q lo lv h r L F G. rewrite <- app_assoc.
  apply (P lo lv h (q ++ r) L F). exact (Q lo lv h r L F G).
Qed.

Lemma fits_br n l m p : n <= rank l -> fits (S (rank l)) p -> fits n (br l m p).
Proof.
  intros N P lo lv h q L F G. unfold br. cbn [app good].
  split; [lia|]. split.
  - apply (Forall_impl _ (P := fun h => rank (fst h) < n)); [|exact F]. intros a Ha. lia.
  - rewrite <- app_assoc. apply P; [lia| |].
    + constructor; [cbn; lia|].
      apply (Forall_impl _ (P := fun h => rank (fst h) < n)); [|exact F]. intros a Ha. lia.
    + cbn [app good]. split; [left; reflexivity|]. cbn [drop_one].
      destruct (item_eq_dec (l, m) (l, m)) as [_|D]; [exact G|destruct D; reflexivity].
Qed.

Lemma fits_flat {A : Type} n (f : A -> list act) xs : (forall x, fits n (f x)) -> fits n (flat_map f xs).
Proof.
  intros H. induction xs as [|x xs IH]; cbn [flat_map]; [apply fits_nil|].
  apply fits_app; [apply H|exact IH].
Qed.

Lemma fits_weaken n n' p : n <= n' -> fits n' p -> fits n p.
Proof.
  intros L P lo lv h q Lo F G. apply P; [lia| |exact G].
  apply (Forall_impl _ (P := fun h => rank (fst h) < n)); [|exact F]. intros a Ha. lia.
Qed.

Lemma fits_start n p lo : lo <= n -> fits n p -> ok (lo, false) (start p).
Proof.
  intros L P. unfold ok, start. cbn [fst snd th_held th_prog].
  rewrite <- (app_nil_r p). apply P; [exact L|constructor|reflexivity].
Qed.

Ltac fit :=
  repeat first
    [ apply fits_nil
    | apply fits_app
    | apply fits_br; [cbn [rank]; lia|]
    | apply fits_flat; intros ?
    | match goal with
      | |- fits _ (match ?x with _ => _ end) => destruct x
      end ].

Lemma fits_put t f : fits 11 (mem_put t f).
Proof. unfold mem_put, mem_timeID, tiny_id, add_filter. fit. Qed.

Lemma fits_lookup b : fits 11 (mem_lookup b).
Proof. unfold mem_lookup. fit. Qed.

Lemma fits_seek_loop f tries : fits 11 (seek_loop f tries).
Proof.
  induction tries as [|[[b|] [|]] tries IH]; cbn [seek_loop]; fit; exact IH.
Qed.

Lemma fits_get rs : fits 11 (mem_get rs).
Proof.
  unfold mem_get. apply fits_flat. intros [[sk cur] bs]. unfold get_round, get_rest, mem_seek.
  fit; apply fits_seek_loop.
Qed.

Lemma fits_iterate n t bs : n <= 12 -> Forall (fun x => fits n (snd x)) bs -> fits n (iterate t bs).
Proof.
  intros N F. unfold iterate, mem_timeID, tiny_id.
  apply fits_app; [fit|]. apply fits_app; [fit|].
  induction F as [|[[b|] q] bs H F IH]; cbn [flat_map fst snd];
    [apply fits_nil|..]; (apply fits_app; [|exact IH]); fit. exact H.
Qed.

Lemma fits_release b refs : fits 11 (release_log b refs).
Proof. unfold release_log. fit. Qed.

Lemma fits_move t b : fits 11 (mem_move t b).
Proof. unfold mem_move, mem_timeID, tiny_id. fit. Qed.

Lemma fits_delete f t tries hit : fits 11 (mem_delete f t tries hit).
Proof.
  unfold mem_delete, release_log, mem_move, mem_timeID, tiny_id. fit.
Qed.

Lemma fits_commit tl t b m : fits 11 (tiny_commit tl t b m).
Proof. unfold tiny_commit, tiny_write, tiny_id. fit. Qed.

Lemma fits_tick t full w : fits 11 (tick t full w).
Proof. unfold tick, mem_timeID, tiny_id. fit. Qed.

Lemma fits_mem c : counts c = false -> fits 11 (mem_locks c).
Proof.
  destruct c; intros C; cbn [counts] in C; try discriminate; cbn [mem_locks].
  - apply fits_put.
  - apply fits_get.
  - apply fits_lookup.
  - apply fits_delete.
  - apply fits_iterate; [lia|]. apply Forall_forall. intros x I. apply in_map_iff in I.
    destruct I as [b [<- _]]. apply fits_nil.
  - apply fits_release.
  - apply fits_tick.
  - apply fits_commit.
  - unfold batch_new. fit.
  - unfold batch_put, tiny_id, add_filter. fit.
  - unfold batch_write, batch_new, tiny_id. fit.
  - unfold batch_commit, batch_write, batch_new, tiny_id. fit.
  - unfold batch_abort. apply fits_flat. intros x. apply fits_release.
Qed.

Lemma starts_ok {C : Type} (f : C -> nat * bool) (locks : C -> list act) cs :
  Forall (fun c => ok (f c) (start (locks c))) cs ->
  Forall2 ok (map f cs) (goroutines (map locks cs)).
Proof.
  unfold goroutines. induction 1 as [|c cs H F IH]; cbn; constructor; [exact H|exact IH].
Qed.

Lemma good_all_return {C : Type} (locks : C -> list act) cs :
  Forall (fun c => ok (0, false) (start (locks c))) cs -> all_return (map locks cs).
Proof.
  intros F is ts E. split.
  - pose proof (run_weight _ _ _ E) as L. rewrite start_weight in L. lia.
  - intros S. pose proof (starts_ok (fun _ => (0, false)) locks cs F) as G.
    apply (stuck_returned _ _ (run_ok _ _ _ _ G E)); [|exact S].
    apply Forall_forall. intros x I. apply in_map_iff in I. destruct I as [c [<- _]]. reflexivity.
Qed.

Lemma mem_all_return cs : Forall (fun c => counts c = false) cs -> all_return (map mem_locks cs).
Proof.
  intros F. apply good_all_return. apply (Forall_impl _ (P := fun c => counts c = false)); [|exact F].
  intros c H. apply (fits_start 11); [lia|]. exact (fits_mem c H).
Qed.

(* ---- the calls of the database ---- *)

Lemma fits_trie_add n m ps : n <= 2 -> fits n (trie_add m ps).
Proof. intros N. unfold trie_add. fit. Qed.

Lemma fits_expiry n k : n <= 7 -> fits n (add_expiry k).
Proof. intros N. unfold add_expiry. fit. Qed.

Lemma fits_window_lookup n x : n <= 5 -> fits n (window_lookup x).
Proof.
  intros N. destruct x as [[w mem] file]. unfold window_lookup. fit; apply fits_expiry; cbn; lia.
Qed.

Lemma fits_lock_all n : forall from, fits (21 + from) (lock_all from n).
Proof.
  induction n as [|n IH]; intros from; cbn [lock_all]; fit.
  replace (S (rank (Exp from))) with (21 + S from) by (cbn; lia). apply IH.
Qed.

Lemma fits_sync_block b e ls k rel refs : fits 1 (sync_block b e ls k rel refs).
Proof.
  unfold sync_block, mem_lookup, release_log. fit.
Qed.

Lemma fits_sync_work t bs : fits 1 (iterate t (sync_blocks bs)).
Proof.
  apply fits_iterate; [lia|]. unfold sync_blocks. apply Forall_forall. intros x I.
  apply in_map_iff in I. destruct I as [[o e ls k rel refs] [<- _]]. cbn [snd sb_block].
  destruct o as [b|]; [apply fits_sync_block|apply fits_nil].
Qed.

Definition low (c : dbcall) : nat := if syncs c then 0 else 1.

Lemma fits_db c : db_counts c = false -> closes c = false -> fits (low c) (db_locks c).
Proof.
  destruct c as [t f w topic|k ts es|f t tries hit disk synced|work|n ls| |c];
    cbn [db_counts closes low syncs db_locks]; intros C D; unfold low; cbn [syncs];
    try discriminate.
  - unfold db_put, window_add, mem_put, mem_timeID, tiny_id, add_filter, trie_add. fit.
  - unfold db_get. apply fits_br; [cbn; lia|]. cbn [rank].
    apply fits_app; [fit|]. apply fits_app; apply fits_flat; intros x.
    + apply (fits_weaken _ 5); [lia|]. apply fits_window_lookup. lia.
    + apply (fits_weaken _ 11); [lia|]. apply fits_get.
  - unfold db_delete. apply fits_app; [|fit].
    apply (fits_weaken 1 11); [lia|]. apply fits_delete.
  - destruct work as [[[t n] bs]|]; unfold db_sync; [|fit].
    apply fits_br; [cbn; lia|]. cbn [rank]. do 4 (apply fits_app; [fit|]).
    apply fits_app; [apply fits_sync_work|fit].
  - unfold db_expire. apply fits_br; [cbn; lia|]. cbn [rank]. apply fits_app; [|fit].
    apply (fits_weaken _ 21); [lia|]. apply (fits_lock_all n 0).
  - apply (fits_weaken 1 11); [lia|]. exact (fits_mem c C).
Qed.

Lemma db_all_return cs :
  Forall (fun c => db_counts c = false /\ closes c = false) cs -> all_return (map db_locks cs).
Proof.
  intros F. apply good_all_return.
  apply (Forall_impl _ (P := fun c => db_counts c = false /\ closes c = false)); [|exact F].
  intros c [H1 H2]. apply (fits_start (low c)); [lia|]. exact (fits_db c H1 H2).
Qed.

Definition needs (c : dbcall) : nat * bool := (low c, closes c).

Lemma db_ok c : db_counts c = false -> ok (needs c) (start (db_locks c)).
Proof.
  intros H. unfold needs. destruct (closes c) eqn:E.
  - destruct c; try discriminate. unfold ok, low. cbn.
    split; [lia|]. split; [constructor|]. split; [lia|].
    split; [constructor; [cbn; lia|constructor]|].
    split; [left; reflexivity|]. constructor; [reflexivity|constructor].
  - apply (fits_start (low c)); [lia|]. exact (fits_db c H E).
Qed.

Lemma forall2_map_l {A B D : Type} (P : B -> D -> Prop) (f : A -> B) : forall xs ys,
  Forall2 P (map f xs) ys -> Forall2 (fun x y => P (f x) y) xs ys.
Proof.
  induction xs as [|x xs IH]; intros ys F; cbn in F.
  - inversion F. constructor.
  - inversion F as [|a b l l' H1 H2 E1 E2]. subst. constructor; [exact H1|apply IH; exact H2].
Qed.

Lemma db_close_waits cs : Forall (fun c => db_counts c = false) cs ->
  forall is ts, run (goroutines (map db_locks cs)) is = Some ts -> stuck ts ->
  Forall2 (fun c t => th_prog t = [] \/ syncs c = true /\ waits_for Sync t) cs ts.
Proof.
  intros F is ts E S.
  assert (G : Forall2 ok (map needs cs) (goroutines (map db_locks cs))).
  { apply starts_ok. apply (Forall_impl _ (P := fun c => db_counts c = false)); [|exact F].
    intros c H. exact (db_ok c H). }
  pose proof (run_ok _ _ _ _ G E) as O.
  assert (A : forall t, In t ts -> th_prog t = [] \/ waits_for Sync t)
    by (intros t I; exact (stuck_waits _ _ _ O S I)).
  apply forall2_map_l in O. clear - O A.
  induction O as [|c t cs ts H O IH]; constructor.
  - destruct (A t (or_introl eq_refl)) as [P|P]; [left; exact P|right]. split; [|exact P].
    destruct P as [[m [p P]] _]. unfold ok in H. rewrite P in H. cbn in H. destruct H as [H _].
    unfold low in H. destruct (syncs c); [reflexivity|lia].
  - apply IH. intros u I. apply A. right. exact I.
Qed.
