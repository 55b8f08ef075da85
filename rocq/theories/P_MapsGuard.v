(* Every use of a guarded map is made with the locks that guard it, and then no two
   goroutines use it at the same time when one of them writes. *)

From Coq Require Import List Arith Bool Lia.
Import ListNotations.
From Verif Require Import M_Locks M_Maps S_Locks S_Maps.

(* ---- lists of operations that keep to the guards ---- *)

Section Guard.
(* The locks of a map: a reader holds one of them, a writer holds all of them for
   writing; None: the map is not guarded. *)
Variable G : gmap -> option (list lock).

Definition reads_ok (h : list (lock * mode)) (m : gmap) : Prop :=
  match G m with None => True | Some ls => exists l, In l ls /\ (In (l, R) h \/ In (l, W) h) end.

Definition writes_ok (h : list (lock * mode)) (m : gmap) : Prop :=
  match G m with None => True | Some ls => (exists l, In l ls) /\ forall l, In l ls -> In (l, W) h end.

Fixpoint gd (h : list (lock * mode)) (p : list mact) : Prop :=
  match p with
  | [] => True
  | L (Acq l m) :: r => gd ((l, m) :: h) r
  | L (Rel l m) :: r => gd (drop_one (l, m) h) r
  | Rd m :: r => reads_ok h m /\ gd h r
  | Wr m :: r => writes_ok h m /\ gd h r
  end.

(* [p] keeps to the guards and gives back the locks it takes. *)
Definition safe (h : list (lock * mode)) (p : list mact) : Prop := forall q, gd h q -> gd h (p ++ q).

Lemma safe_gd h p : safe h p -> gd h p.
Proof. intros H. rewrite <- (app_nil_r p). apply H. exact I. Qed.

Lemma safe_nil h : safe h [].
Proof. intros q H. exact H. Qed.

Lemma safe_app h p q : safe h p -> safe h q -> safe h (p ++ q).
Proof. intros Hp Hq r Hr. rewrite <- app_assoc. apply Hp, Hq, Hr. Qed.

Lemma safe_br h l m p : safe ((l, m) :: h) p -> safe h (gbr l m p).
Proof.
  intros Hp q Hq. unfold gbr. cbn [app gd]. rewrite <- app_assoc. apply Hp. cbn [app gd].
  cbn [drop_one]. destruct (item_eq_dec (l, m) (l, m)) as [_|n]; [exact Hq|]. exfalso. apply n. reflexivity.
Qed.

Lemma safe_rd h m p : reads_ok h m -> safe h p -> safe h (Rd m :: p).
Proof. intros H Hp q Hq. cbn [app gd]. split; [exact H|]. apply Hp, Hq. Qed.

Lemma safe_wr h m p : writes_ok h m -> safe h p -> safe h (Wr m :: p).
Proof. intros H Hp q Hq. cbn [app gd]. split; [exact H|]. apply Hp, Hq. Qed.

Lemma safe_flat {A} h (f : A -> list mact) xs : (forall x, safe h (f x)) -> safe h (flat_map f xs).
Proof.
  intros H. induction xs as [|x xs IH]; [apply safe_nil|]. cbn [flat_map]. apply safe_app; [apply H | exact IH].
Qed.

Lemma plain_br l m p : plain (br l m p) = gbr l m (plain p).
Proof. unfold plain, br, gbr. cbn [map]. rewrite map_app. reflexivity. Qed.

Lemma plain_app p q : plain (p ++ q) = plain p ++ plain q.
Proof. apply map_app. Qed.

Lemma plain_flat {A} (f : A -> list act) xs : plain (flat_map f xs) = flat_map (fun x => plain (f x)) xs.
Proof. induction xs as [|x xs IH]; [reflexivity|]. cbn [flat_map]. rewrite plain_app, IH. reflexivity. Qed.

(* ---- runs ---- *)

Definition excl (ts : list gthread) : Prop :=
  forall i j ti tj l m, i <> j -> nth_error ts i = Some ti -> nth_error ts j = Some tj ->
    In (l, W) (gt_held ti) -> ~ In (l, m) (gt_held tj).

Definition ginv (ts : list gthread) : Prop :=
  excl ts /\ forall i t, nth_error ts i = Some t -> gd (gt_held t) (gt_prog t).

Lemma nth_set {A} (x : A) : forall ts i j,
  nth_error (set_nth i x ts) j = if Nat.eq_dec i j then (match nth_error ts j with Some _ => Some x | None => None end)
                                 else nth_error ts j.
Proof.
  induction ts as [|y ts IH]; intros i j.
  - destruct i as [|i], j as [|j]; cbn [set_nth nth_error]; try reflexivity; destruct (Nat.eq_dec (S i) (S j)); reflexivity.
  - destruct i as [|i], j as [|j]; cbn [set_nth nth_error]; try reflexivity.
    rewrite IH. destruct (Nat.eq_dec i j), (Nat.eq_dec (S i) (S j)); try lia; reflexivity.
Qed.

Lemma holds_none l m ts j t :
  existsb (gholds l m) ts = false -> nth_error ts j = Some t -> ~ In (l, m) (gt_held t).
Proof.
  intros H Hn Hin. apply nth_error_In in Hn.
  assert (X : existsb (gholds l m) ts = true); [|congruence].
  apply existsb_exists. exists t. split; [exact Hn|]. unfold gholds. apply existsb_exists.
  exists (l, m). split; [exact Hin|]. destruct (item_eq_dec (l, m) (l, m)); [reflexivity|congruence].
Qed.

Lemma in_drop x y h : In x (drop_one y h) -> In x h.
Proof.
  induction h as [|z h IH]; cbn [drop_one]; [auto|]. destruct (item_eq_dec z y); cbn [In]; tauto.
Qed.

(* A step of a goroutine: its locks afterwards are among those before, but for one
   that nobody else holds against it. *)
Lemma step_held ts t t' :
  gthread_step ts t = Some t' ->
  forall l m, In (l, m) (gt_held t') -> In (l, m) (gt_held t) \/
    (existsb (gholds l W) ts = false /\ (m = W -> existsb (gholds l R) ts = false)).
Proof.
  unfold gthread_step. intros H l m Hin.
  destruct (gt_prog t) as [|[a|m'|m'] p]; try discriminate H.
  - destruct a as [l' [|]|l' md].
    + destruct (existsb (gholds l' W) ts) eqn:E; [discriminate H|]. cbn [orb] in H.
      destruct (existsb (gannounced l') ts); [discriminate H|]. injection H as <-. cbn [gt_held In] in Hin.
      destruct Hin as [E1|Hin]; [|left; exact Hin]. injection E1 as <- <-. right. split; [exact E|discriminate].
    + destruct (gt_ann t).
      * destruct (existsb (gholds l' W) ts) eqn:E; [discriminate H|]. cbn [orb] in H.
        destruct (existsb (gholds l' R) ts) eqn:E2; [discriminate H|]. injection H as <-. cbn [gt_held In] in Hin.
        destruct Hin as [E1|Hin]; [|left; exact Hin]. injection E1 as <- <-. right. split; [exact E|intros _; exact E2].
      * destruct (existsb (gholds l' W) ts || existsb (gannounced l') ts); [discriminate H|].
        injection H as <-. left. exact Hin.
    + injection H as <-. left. cbn [gt_held] in Hin. exact (in_drop _ _ _ Hin).
  - injection H as <-. left. exact Hin.
  - injection H as <-. left. exact Hin.
Qed.

Lemma step_gd ts t t' :
  gthread_step ts t = Some t' -> gd (gt_held t) (gt_prog t) -> gd (gt_held t') (gt_prog t').
Proof.
  unfold gthread_step. intros H Hg. destruct (gt_prog t) as [|[a|m|m] p]; try discriminate H.
  - destruct a as [l' [|]|l' md]; cbn [gd] in Hg.
    + destruct (_ || _); [discriminate H|]. injection H as <-. exact Hg.
    + destruct (gt_ann t); destruct (_ || _); try discriminate H; injection H as <-; exact Hg.
    + injection H as <-. exact Hg.
  - injection H as <-. apply Hg.
  - injection H as <-. apply Hg.
Qed.

Lemma ginv_step ts i ts' : gstep ts i = Some ts' -> ginv ts -> ginv ts'.
Proof.
  unfold gstep. intros H [Hx Hg]. destruct (nth_error ts i) as [t|] eqn:Ei; [|discriminate H].
  destruct (gthread_step ts t) as [t'|] eqn:Es; [|discriminate H]. injection H as <-.
  split.
  - intros a b ta tb l m Hab Ha Hb Hw Hm. rewrite nth_set in Ha, Hb.
    destruct (Nat.eq_dec i a) as [Ea|Na], (Nat.eq_dec i b) as [Eb|Nb].
    + congruence.
    + subst a. rewrite Ei in Ha. injection Ha as <-.
      destruct (step_held _ _ _ Es l W Hw) as [Ho|[E1 E2]].
      * exact (Hx i b t tb l m Hab Ei Hb Ho Hm).
      * destruct m; [exact (holds_none l R ts b tb (E2 eq_refl) Hb Hm) | exact (holds_none l W ts b tb E1 Hb Hm)].
    + subst b. rewrite Ei in Hb. injection Hb as <-.
      destruct (step_held _ _ _ Es l m Hm) as [Ho|[E1 E2]].
      * exact (Hx a i ta t l m Hab Ha Ei Hw Ho).
      * exact (holds_none l W ts a ta E1 Ha Hw).
    + exact (Hx a b ta tb l m Hab Ha Hb Hw Hm).
  - intros a ta Ha. rewrite nth_set in Ha. destruct (Nat.eq_dec i a) as [Ea|Na].
    + subst a. rewrite Ei in Ha. injection Ha as <-. exact (step_gd _ _ _ Es (Hg i t Ei)).
    + exact (Hg a ta Ha).
Qed.

Lemma ginv_run is : forall ts ts', grun ts is = Some ts' -> ginv ts -> ginv ts'.
Proof.
  induction is as [|i is IH]; intros ts ts' H Hi; cbn [grun] in H.
  - injection H as <-. exact Hi.
  - destruct (gstep ts i) as [t1|] eqn:E; [|discriminate H]. exact (IH _ _ H (ginv_step _ _ _ E Hi)).
Qed.

Lemma ginv_no_race ts m ls : G m = Some ls -> ginv ts -> ~ map_race m ts.
Proof.
  intros HG [Hx Hg] (i & j & ti & tj & Hij & Hi & Hj & [pi Wi] & [pj Uj]).
  pose proof (Hg i ti Hi) as Gi. rewrite Wi in Gi. cbn [gd] in Gi. destruct Gi as [Gi _].
  unfold writes_ok in Gi. rewrite HG in Gi. destruct Gi as [_ Gi].
  pose proof (Hg j tj Hj) as Gj.
  destruct Uj as [Uj|Uj]; rewrite Uj in Gj; cbn [gd] in Gj; destruct Gj as [Gj _];
    [unfold writes_ok in Gj | unfold reads_ok in Gj]; rewrite HG in Gj.
  - destruct Gj as [[l Hl] Gj]. exact (Hx i j ti tj l W Hij Hi Hj (Gi l Hl) (Gj l Hl)).
  - destruct Gj as (l & Hl & [Hr|Hw]); [exact (Hx i j ti tj l R Hij Hi Hj (Gi l Hl) Hr)
                                       | exact (Hx i j ti tj l W Hij Hi Hj (Gi l Hl) Hw)].
Qed.

Lemma guarded_never cs m ls :
  G m = Some ls -> (forall c, In c cs -> gd [] (db_maps c)) -> never_race m cs.
Proof.
  intros HG Hc is ts Hr. apply (ginv_no_race ts m ls HG). apply (ginv_run _ _ _ Hr). split.
  - intros i j ti tj l md _ Hi _ Hw _. apply nth_error_In in Hi. apply in_map_iff in Hi.
    destruct Hi as (c & <- & _). exact Hw.
  - intros i t Hi. apply nth_error_In in Hi. apply in_map_iff in Hi. destruct Hi as (c & <- & Hin).
    exact (Hc c Hin).
Qed.
End Guard.

(* ---- the guards ---- *)

(* [sh]: the one shard of topics; [op]: the database is not closed; [nq]: the maps of
   the query manager are not used at all. *)
Definition guards (sh : option nat) (op nq : bool) (m : gmap) : option (list lock) :=
  match m with
  | TB | TF => Some [Db]
  | TR f => Some [Filter f]
  | BR b => Some [Block b]
  | MK => Some [Mark]
  | CH => Some [Trie]
  | WE k => Some [Wb k]
  | EX k => Some [Exp k]
  | FM => Some [Files]
  | SM => match sh with Some k => Some [Trie; TrieMu k] | None => None end
  | FC k => if op then Some [Lease k] else None
  | QF | QR | QB => if nq then Some [] else None
  end.

Section Calls.
Variable sh : option nat.
Variable op nq : bool.
Notation G := (guards sh op nq).
Notation ok := (safe (guards sh op nq)).

Lemma ok_plain_nil h : ok h (plain []).
Proof. apply safe_nil. Qed.

Ltac grd := cbn [guards reads_ok writes_ok];
  repeat match goal with
         | |- True => exact I
         | H : nq = false |- _ => rewrite H; clear H
         | |- context [match sh with _ => _ end] => destruct sh
         | |- context [if op then _ else _] => destruct op
         | |- exists l, In l _ /\ _ => eexists; split; [left; reflexivity|]
         | |- (exists l, In l _) /\ _ => split; [eexists; left; reflexivity|]
         | |- forall l, In l _ -> _ => intros ? [<-|[]]
         end; unfold reads_ok, writes_ok; cbn [In]; auto 8.

Ltac sf1 := match goal with
  | |- safe _ _ [] => apply safe_nil
  | |- safe _ _ (gbr _ _ _) => apply safe_br
  | |- safe _ _ (Rd _ :: _) => apply safe_rd; [unfold reads_ok; solve [grd] |]
  | |- safe _ _ (Wr _ :: _) => apply safe_wr; [unfold writes_ok; solve [grd] |]
  | |- safe _ _ (flat_map _ _) => apply safe_flat; intros ?
  | |- safe _ _ (_ ++ _) => apply safe_app
  | |- safe _ _ (plain (br _ _ _)) => rewrite plain_br
  | |- safe _ _ (plain (_ ++ _)) => rewrite plain_app
  | |- safe _ _ (plain (flat_map _ _)) => rewrite plain_flat
  | |- safe _ _ (plain []) => apply ok_plain_nil
  | |- safe _ _ (plain (mem_timeID _)) => unfold mem_timeID
  | |- safe _ _ (plain (tiny_id _)) => unfold tiny_id
  end.
Ltac sf := repeat sf1.

Lemma s_add_filter h f fr : ok h (g_add_filter f fr).
Proof. unfold g_add_filter. sf. destruct fr; sf. Qed.

Lemma s_put h t x : ok h (g_put t x).
Proof.
  unfold g_put. sf. destruct x as [[[b f] fr]|]; sf. apply s_add_filter.
Qed.

Lemma s_lookup h b : ok h (g_lookup b).
Proof. unfold g_lookup. sf. destruct b; sf. Qed.

Lemma s_seek_loop h f tries (Hq : nq = false) : ok h (g_seek_loop f tries).
Proof.
  induction tries as [|[[b|] hit] r IH]; cbn [g_seek_loop]; sf; [|exact IH].
  destruct hit; sf. exact IH.
Qed.

Lemma s_seek h f tries (Hq : nq = false) : ok h (g_seek f tries).
Proof. unfold g_seek. sf. apply s_seek_loop. exact Hq. Qed.

Lemma s_get_rest h cur blocks (Hq : nq = false) : ok h (g_get_rest cur blocks).
Proof.
  unfold g_get_rest. destruct cur as [[b []]|]; sf.
  - destruct (snd x); sf.
  - destruct (existsb snd blocks); sf.
  - destruct (snd x); sf.
  - destruct (existsb snd blocks); sf.
Qed.

Lemma s_get_round h x (Hq : nq = false) : ok h (g_get_round x).
Proof.
  destruct x as [[sk cur] blocks]. unfold g_get_round. sf.
  destruct sk as [[f tries]|]; [|apply s_get_rest; exact Hq].
  sf; [apply s_seek; exact Hq|]. destruct (existsb snd tries); [apply s_get_rest; exact Hq | sf].
Qed.

Lemma s_get h rs (Hq : nq = false) : ok h (g_get rs).
Proof. unfold g_get. apply safe_flat. intros x. apply s_get_round. exact Hq. Qed.

Lemma s_release h b n : ok h (g_release_log b n).
Proof. unfold g_release_log. sf. destruct b; sf. Qed.

Lemma s_move h t b : ok h (g_move t b).
Proof. unfold g_move. sf. destruct b; sf. Qed.

Lemma s_iterate h t bs : (forall b p h', In (Some b, p) bs -> ok h' p) -> ok h (g_iterate t bs).
Proof.
  intros H. unfold g_iterate. apply safe_app; [sf|]. apply safe_app; [sf|].
  induction bs as [|[b p] bs IH]; cbn [flat_map fst snd]; [apply safe_nil|].
  apply safe_app; [|apply IH; intros b' p' h' Hin; apply (H b' p' h'); right; exact Hin].
  sf. destruct b as [b|]; sf. apply (H b p). left. reflexivity.
Qed.

Lemma s_delete h f t tries hit : ok h (g_delete f t tries hit).
Proof.
  unfold g_delete. sf.
  - destruct x; sf.
  - destruct hit as [[[[tl b] e] nx]|]; sf.
    + destruct e; sf.
    + destruct nx; [apply s_release | apply s_move].
Qed.

Lemma s_tiny_write h tl t b : ok h (g_tiny_write tl t b).
Proof. unfold g_tiny_write. sf. destruct b as [[b []]|]; sf. Qed.

Lemma s_tiny_commit h tl t b m : ok h (g_tiny_commit tl t b m).
Proof. unfold g_tiny_commit. sf; [apply s_tiny_write|]. destruct m; sf. Qed.

Lemma s_tick h t fl w : ok h (g_tick t fl w).
Proof. unfold g_tick. sf; [destruct fl as [[b|]|]; sf | destruct w; sf]. Qed.

Lemma s_batch_put h t x : ok h (g_batch_put t x).
Proof. unfold g_batch_put. sf. destruct x as [[[b f] fr]|]; sf. apply s_add_filter. Qed.

Lemma s_mem h c : (nq = true -> gets (DMem c) = false) -> ok h (mem_maps c).
Proof.
  intros Hg.
  destruct c; cbn [mem_maps].
  - apply s_put.
  - apply s_get. destruct nq; [discriminate (Hg eq_refl)|reflexivity].
  - apply s_lookup.
  - apply s_delete.
  - apply s_iterate. intros b p h' Hin. apply in_map_iff in Hin. destruct Hin as (x & E & _). injection E as E1 E2. subst p. apply safe_nil.
  - apply s_release.
  - apply s_tick.
  - apply s_tiny_commit.
  - unfold g_batch_new. sf.
  - apply s_batch_put.
  - unfold g_batch_write, g_batch_new. sf.
  - unfold g_batch_commit, g_batch_write, g_batch_new. sf.
  - unfold g_batch_abort. sf. apply s_release.
  - unfold g_keys. sf.
  - unfold g_size. sf.
Qed.

Lemma s_trie_add h m ps : (forall k, sh = Some k -> m = k) -> ok h (g_trie_add m ps).
Proof.
  intros H. unfold g_trie_add. apply safe_br. apply safe_rd.
  - unfold reads_ok, guards. destruct sh as [k|]; [|exact I]. rewrite (H k eq_refl).
    exists (TrieMu k). cbn [In]. auto.
  - destruct ps as [ps|]; [|apply safe_nil]. apply safe_app.
    + apply safe_flat. intros []; sf.
    + apply safe_br. apply safe_wr; [|apply safe_nil].
      unfold writes_ok, guards. destruct sh as [k|]; [|exact I]. rewrite (H k eq_refl). split.
      * exists Trie. left. reflexivity.
      * intros l [<-|[<-|[]]]; cbn [In]; auto.
Qed.

Lemma s_add_expiry h k : ok h (g_add_expiry k).
Proof. unfold g_add_expiry. sf. Qed.

Lemma s_window_lookup h x : ok h (g_window_lookup x).
Proof.
  destruct x as [[w mem] file]. unfold g_window_lookup. sf; [apply s_add_expiry|].
  destruct file; sf. apply s_add_expiry.
Qed.

Lemma s_sync_block h b n ls tp rl rf : ok h (g_sync_block b n ls tp rl rf).
Proof. unfold g_sync_block. sf; try apply s_lookup; apply s_release. Qed.

Lemma s_lock_all n : forall h k, ok h (g_lock_all k n).
Proof. induction n as [|n IH]; intros h k; cbn [g_lock_all]; [apply safe_nil|]. sf. apply IH. Qed.

Lemma gd_call c :
  (forall k, sh = Some k -> topic_shard k c) -> (op = true -> closes c = false) ->
  (nq = true -> gets c = false) ->
  gd G [] (db_maps c).
Proof.
  intros Hs Ho Hg. destruct c; cbn [db_maps].
  - apply safe_gd. unfold g_db_put. apply safe_app.
    { apply safe_br, safe_rd; [|apply safe_nil]. unfold reads_ok, guards. destruct sh; [|exact I].
      exists Trie. cbn [In]. auto. }
    apply safe_app; [apply s_put|]. apply safe_app; [unfold g_window_add; sf|].
    destruct topic as [[m ps]|]; [|apply safe_nil]. apply s_trie_add. exact Hs.
  - apply safe_gd. unfold g_db_get. sf; [apply s_window_lookup | apply s_get].
    destruct nq; [discriminate (Hg eq_refl)|reflexivity].
  - apply safe_gd. unfold g_db_delete. apply safe_app; [apply s_delete|].
    destruct disk; sf. destruct synced; sf.
  - apply safe_gd. unfold g_db_sync. apply safe_br. destruct work as [[[t n] bs]|]; [|apply safe_nil].
    sf. apply s_iterate. intros b p h' Hin. apply in_map_iff in Hin. destruct Hin as (x & E & _).
    injection E as E1 E2. subst p. rewrite E1. apply s_sync_block.
  - apply safe_gd. unfold g_db_expire. sf. apply s_lock_all.
  - destruct op; [exfalso; specialize (Ho eq_refl); discriminate Ho|].
    unfold g_db_close. cbn [gd].
    set (h := [(Sync, W)]). clearbody h. generalize (seq 0 nShards). intros ks.
    induction ks as [|k ks IH]; cbn [map app gd]; [|split; [exact I|exact IH]].
    apply safe_gd. sf.
  - apply safe_gd, s_mem. exact Hg.
Qed.
End Calls.

(* ---- calls ---- *)

Lemma guarded_maps cs m :
  of_query m = false -> of_lease m = false -> m <> SM -> never_race m cs.
Proof.
  intros H1 H2 H3.
  destruct (guards None false false m) as [ls|] eqn:E.
  - apply (guarded_never (guards None false false) cs m ls E). intros c _.
    apply gd_call; discriminate.
  - destruct m; cbn in *; congruence.
Qed.

Lemma lease_maps cs m : of_lease m = true -> forallb (fun c => negb (closes c)) cs = true -> never_race m cs.
Proof.
  intros H1 H2. destruct m as [| | | | | | | | | | | | |k]; try discriminate H1.
  apply (guarded_never (guards None true false) cs (FC k) [Lease k] eq_refl). intros c Hc.
  apply gd_call; try discriminate. intros _. rewrite forallb_forall in H2. specialize (H2 c Hc).
  destruct (closes c); [discriminate H2|reflexivity].
Qed.

Lemma summary_map cs k : (forall c, In c cs -> topic_shard k c) -> never_race SM cs.
Proof.
  intros H. apply (guarded_never (guards (Some k) false false) cs SM [Trie; TrieMu k] eq_refl). intros c Hc.
  apply gd_call; try discriminate. intros k' E. injection E as <-. exact (H c Hc).
Qed.

(* The goroutines of the calls that are not Gets. *)
Definition qinv (cs : list dbcall) (ts : list gthread) : Prop :=
  forall i c t, nth_error cs i = Some c -> nth_error ts i = Some t -> gets c = false ->
    gd (guards None false true) (gt_held t) (gt_prog t).

Lemma qinv_run cs is : forall ts ts', grun ts is = Some ts' -> qinv cs ts -> qinv cs ts'.
Proof.
  induction is as [|i is IH]; intros ts ts' H Hi; cbn [grun] in H.
  - injection H as <-. exact Hi.
  - destruct (gstep ts i) as [t1|] eqn:E; [|discriminate H]. apply (IH _ _ H). clear IH H.
    unfold gstep in E. destruct (nth_error ts i) as [t|] eqn:Ei; [|discriminate E].
    destruct (gthread_step ts t) as [t'|] eqn:Es; [|discriminate E]. injection E as <-.
    intros a c x Hc Hx Hg. rewrite nth_set in Hx. destruct (Nat.eq_dec i a) as [Ea|Na].
    + subst a. rewrite Ei in Hx. injection Hx as <-. exact (step_gd _ _ _ _ Es (Hi i c t Hc Ei Hg)).
    + exact (Hi a c x Hc Hx Hg).
Qed.

Lemma grun_length is : forall ts ts', grun ts is = Some ts' -> length ts' = length ts.
Proof.
  induction is as [|i is IH]; intros ts ts' H; cbn [grun] in H.
  - injection H as <-. reflexivity.
  - destruct (gstep ts i) as [t1|] eqn:E; [|discriminate H]. rewrite (IH _ _ H).
    unfold gstep in E. destruct (nth_error ts i) as [t|]; [|discriminate E].
    destruct (gthread_step ts t) as [t'|]; [|discriminate E]. injection E as <-.
    clear. revert i. induction ts as [|y ts IH]; intros [|i]; cbn; try reflexivity. f_equal. apply IH.
Qed.

Lemma two_of {A} (f : A -> bool) : forall xs i j x y,
  length (filter f xs) <= 1 -> i < j -> nth_error xs i = Some x -> nth_error xs j = Some y ->
  f x = false \/ f y = false.
Proof.
  induction xs as [|z xs IH]; intros i j x y Hl Hij Hi Hj; [destruct i; discriminate Hi|].
  destruct j as [|j]; [lia|]. cbn [nth_error] in Hj. destruct i as [|i].
  - injection Hi as <-. cbn [filter] in Hl. destruct (f z) eqn:E; [|left; reflexivity]. right.
    cbn [length] in Hl. destruct (f y) eqn:Ey; [|reflexivity]. apply nth_error_In in Hj.
    assert (X : In y (filter f xs)) by (apply filter_In; auto).
    destruct (filter f xs); [destruct X|cbn in Hl; lia].
  - cbn [nth_error] in Hi. apply (IH i j); try assumption; [|lia].
    cbn [filter] in Hl. destruct (f z); cbn [length] in Hl; lia.
Qed.

Lemma query_maps cs m : of_query m = true -> length (filter gets cs) <= 1 -> never_race m cs.
Proof.
  intros Hm Hl is ts Hr (i & j & ti & tj & Hij & Hi & Hj & [pi Wi] & [pj Uj]).
  assert (Q : qinv cs ts).
  { apply (qinv_run cs _ _ _ Hr). intros a c t Hc Ht Hg.
    rewrite (map_nth_error (fun c => gstart (db_maps c)) a cs Hc) in Ht. injection Ht as <-.
    cbn [gt_held gt_prog gstart]. apply gd_call; try discriminate. intros _. exact Hg. }
  assert (N : length ts = length cs) by (rewrite (grun_length _ _ _ Hr), map_length; reflexivity).
  assert (Ni : i < length cs) by (rewrite <- N; apply nth_error_Some; congruence).
  assert (Nj : j < length cs) by (rewrite <- N; apply nth_error_Some; congruence).
  destruct (nth_error cs i) as [ci|] eqn:Ci; [|apply nth_error_None in Ci; lia].
  destruct (nth_error cs j) as [cj|] eqn:Cj; [|apply nth_error_None in Cj; lia].
  assert (X : gets ci = false \/ gets cj = false).
  { destruct (Nat.lt_trichotomy i j) as [H|[H|H]]; [|contradiction|].
    - exact (two_of gets cs i j ci cj Hl H Ci Cj).
    - destruct (two_of gets cs j i cj ci Hl H Cj Ci); auto. }
  assert (E : guards None false true m = Some []) by (destruct m; try discriminate Hm; reflexivity).
  destruct X as [X|X].
  - pose proof (Q i ci ti Ci Hi X) as P. rewrite Wi in P. cbn [gd] in P. destruct P as [P _].
    unfold writes_ok in P. rewrite E in P. destruct P as [[l []] _].
  - pose proof (Q j cj tj Cj Hj X) as P. destruct Uj as [Uj|Uj]; rewrite Uj in P; cbn [gd] in P; destruct P as [P _];
      [unfold writes_ok in P|unfold reads_ok in P]; rewrite E in P.
    + destruct P as [[l []] _].
    + destruct P as (l & [] & _).
Qed.
