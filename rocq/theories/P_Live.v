(* Puts and Gets at the same time as a Sync: the chains of window blocks. *)

From Coq Require Import List Arith Bool Lia.
Import ListNotations.
From Verif Require Import M_Live S_Live.

(* ---- maps ---- *)

Lemma nfind_in {A} (m : list (nat * A)) k x : nfind m k = Some x -> In (k, x) m.
Proof.
  induction m as [|[q y] r IH]; cbn [nfind]; [discriminate|]. destruct (Nat.eqb_spec q k) as [->|_].
  - intros [= ->]. now left.
  - intros H. right. auto.
Qed.
Lemma nfind_none {A} (m : list (nat * A)) k : nfind m k = None <-> ~ In k (map fst m).
Proof.
  induction m as [|[q y] r IH]; cbn [nfind map fst]; [split; [intros _ []|reflexivity]|].
  destruct (Nat.eqb_spec q k) as [->|Hn].
  - split; [discriminate|]. intros H. exfalso. apply H. now left.
  - rewrite IH. split; [intros H [E|E]; [congruence|auto]|]. intros H E. apply H. now right.
Qed.
Lemma in_nfind {A} (m : list (nat * A)) k x : NoDup (map fst m) -> In (k, x) m -> nfind m k = Some x.
Proof.
  induction m as [|[q y] r IH]; cbn [nfind map fst]; [intros _ []|]. intros Hn [E|E].
  - injection E as -> ->. now rewrite Nat.eqb_refl.
  - inversion Hn; subst. destruct (Nat.eqb_spec q k) as [->|_]; [|auto].
    exfalso. apply H1. apply in_map_iff. now exists (k, x).
Qed.
Lemma nset_find {A} (m : list (nat * A)) k x j : nfind (nset m k x) j = if Nat.eqb k j then Some x else nfind m j.
Proof.
  induction m as [|[q y] r IH]; cbn [nset nfind]; [reflexivity|].
  destruct (Nat.eqb_spec q k) as [->|Hn]; cbn [nfind].
  - destruct (Nat.eqb k j); reflexivity.
  - rewrite IH. destruct (Nat.eqb_spec q j) as [->|]; [|reflexivity]. destruct (Nat.eqb_spec k j); [congruence|reflexivity].
Qed.
Lemma nset_in {A} (m : list (nat * A)) k x j : In j (map fst (nset m k x)) -> j = k \/ In j (map fst m).
Proof.
  induction m as [|[q y] r IH]; cbn [nset map fst]; [intros [E|[]]; auto|].
  destruct (Nat.eqb q k); cbn [map fst In]; [tauto|]. intros [E|E]; [tauto|]. destruct (IH E); tauto.
Qed.
Lemma nset_keys {A} (m : list (nat * A)) k x : NoDup (map fst m) -> NoDup (map fst (nset m k x)).
Proof.
  induction m as [|[q y] r IH]; cbn [nset map fst].
  - intros _. constructor; [intros []|constructor].
  - intros H. inversion H; subst. destruct (Nat.eqb_spec q k) as [E|Hn]; cbn [map fst].
    + now constructor.
    + constructor; [|auto]. intros E. destruct (nset_in _ _ _ _ E); contradiction.
Qed.
Lemma nfind_app {A} (m m' : list (nat * A)) k : nfind (m ++ m') k = match nfind m k with Some x => Some x | None => nfind m' k end.
Proof. induction m as [|[q y] r IH]; cbn [app nfind]; [reflexivity|]. destruct (Nat.eqb q k); [reflexivity|exact IH]. Qed.
Lemma nfind_filter {A} (m : list (nat * A)) t j :
  nfind (filter (fun e => negb (Nat.eqb (fst e) t)) m) j = if Nat.eqb j t then None else nfind m j.
Proof.
  induction m as [|[q y] r IH]; cbn [filter nfind fst]; [now destruct (Nat.eqb j t)|].
  destruct (Nat.eqb_spec q t) as [E|Hn]; cbn [negb].
  - rewrite IH. destruct (Nat.eqb_spec j t) as [E2|Hk]; [reflexivity|]. destruct (Nat.eqb_spec q j); [congruence|reflexivity].
  - cbn [nfind]. rewrite IH. destruct (Nat.eqb_spec q j) as [E2|]; [|reflexivity]. destruct (Nat.eqb_spec j t); [congruence|reflexivity].
Qed.
Lemma filter_keys {A} (f : nat * A -> bool) (m : list (nat * A)) : NoDup (map fst m) -> NoDup (map fst (filter f m)).
Proof.
  induction m as [|e r IH]; cbn [filter map]; [auto|]. intros H. inversion H; subst.
  destruct (f e); [|auto]. cbn [map]. constructor; [|auto]. intros E. apply H2.
  apply in_map_iff in E as (x & Ex & Hx). apply filter_In in Hx as [Hx _]. apply in_map_iff. eauto.
Qed.
Lemma supd_nth {A} (xs : list A) i x j : nth_error (supd i x xs) j =
  if Nat.eqb i j then (match nth_error xs i with Some _ => Some x | None => None end) else nth_error xs j.
Proof.
  revert i j. induction xs as [|y r IH]; intros [|i] [|j]; cbn [supd nth_error Nat.eqb]; try reflexivity.
  - destruct (Nat.eqb i j); reflexivity.
  - apply IH.
Qed.
Lemma supd_same {A} (xs : list A) i x y : nth_error xs i = Some y -> nth_error (supd i x xs) i = Some x.
Proof. intros H. rewrite supd_nth, Nat.eqb_refl, H. reflexivity. Qed.
Lemma supd_other {A} (xs : list A) i x j : j <> i -> nth_error (supd i x xs) j = nth_error xs j.
Proof. intros H. rewrite supd_nth. destruct (Nat.eqb_spec i j); [congruence|reflexivity]. Qed.
Lemma nth_snoc {A} (xs : list A) y j : nth_error (xs ++ [y]) j =
  if Nat.ltb j (length xs) then nth_error xs j else if Nat.eqb j (length xs) then Some y else None.
Proof.
  destruct (Nat.ltb_spec j (length xs)); [now apply nth_error_app1|]. rewrite nth_error_app2 by lia.
  destruct (Nat.eqb_spec j (length xs)) as [->|]; [now rewrite Nat.sub_diag|].
  destruct (j - length xs) as [|k] eqn:E; [lia|]. cbn. now destruct k.
Qed.
Lemma snoc_old {A} (xs : list A) y j x : nth_error xs j = Some x -> nth_error (xs ++ [y]) j = Some x.
Proof. intros H. rewrite nth_error_app1; [exact H|]. apply nth_error_Some. congruence. Qed.
Lemma snoc_inv {A} (xs : list A) y j x : nth_error (xs ++ [y]) j = Some x -> nth_error xs j = Some x \/ x = y.
Proof.
  rewrite nth_snoc. destruct (Nat.ltb j (length xs)); [auto|]. destruct (Nat.eqb j (length xs)); [|discriminate].
  intros [= ->]. auto.
Qed.

(* ---- the file ---- *)

Definition view (f : lfile) (pend : list (nat * lblock)) (p : nat) : option lblock :=
  match pfind pend p with Some b => Some b | None => read_at f p end.

Lemma read_write f p b q : read_at (write_at f p b) q = if Nat.eqb p q then Some b else read_at f q.
Proof.
  unfold read_at. revert f q. induction p as [|p IH]; intros [|x r] [|q]; cbn [write_at nth_error Nat.eqb]; try reflexivity.
  - now destruct q.
  - rewrite IH. destruct (Nat.eqb p q); [reflexivity|]. now destruct q.
  - apply IH.
Qed.
Lemma write_view f pend p : read_at (w_write f pend) p = view f pend p.
Proof.
  unfold view. induction pend as [|[q b] r IH]; cbn [w_write fold_right pfind fst snd]; [reflexivity|].
  fold (w_write f r). rewrite read_write. destruct (Nat.eqb q p); [reflexivity|exact IH].
Qed.

Inductive chain (v : nat -> option lblock) (h : nat) : nat -> list nat -> Prop :=
| ch_end : chain v h 0 []
| ch_block : forall off b l, v off = Some b -> lb_hash b = h -> lb_next b < off ->
    chain v h (lb_next b) l -> chain v h off (rev (lb_ents b) ++ l).

Lemma chain_ext v v' h off l : chain v h off l ->
  (forall p b, v p = Some b -> lb_hash b = h -> p <= off -> v' p = Some b) -> chain v' h off l.
Proof.
  induction 1 as [|off b l Hv Hh Hn Hc IH]; intros E; [constructor|].
  apply ch_block; auto. apply IH. intros p b' Hp Hb Hl. apply E; auto. lia.
Qed.
Lemma chain_zero v h l : chain v h 0 l -> l = [].
Proof. inversion 1; [reflexivity|lia]. Qed.
Lemma chain_walk f h : (forall b, read_at f 0 = Some b -> lb_hash b <> h) ->
  forall off l, chain (read_at f) h off l -> forall fuel, off < fuel -> walk fuel f h off = l.
Proof.
  intros H0. induction 1 as [|off b l Hv Hh Hn Hc IH]; intros [|n] Hf; try lia; cbn [walk].
  - destruct (read_at f 0) as [b|] eqn:E; [|reflexivity]. destruct (Nat.eqb_spec (lb_hash b) h); [|reflexivity].
    exfalso. now apply (H0 b).
  - rewrite Hv. destruct (Nat.eqb_spec (lb_hash b) h); [|contradiction]. f_equal.
    destruct (Nat.eqb_spec (lb_next b) 0) as [E|E].
    + rewrite E in Hc. symmetry. eapply chain_zero, Hc.
    + apply IH. lia.
Qed.
Lemma chain_len f h off l : chain (read_at f) h off l -> off < S (length f).
Proof.
  inversion 1; subst; [lia|]. unfold read_at in H0. destruct (nth_error f off) eqn:E; [|discriminate].
  assert (off < length f) by (apply nth_error_Some; congruence). lia.
Qed.

Definition below (v : nat -> option lblock) (n : nat) : Prop := forall p b, v p = Some b -> p <= n.

Lemma view_cons f pend p b q : view f ((p, b) :: pend) q = if Nat.eqb p q then Some b else view f pend q.
Proof. unfold view. cbn [pfind]. destruct (Nat.eqb p q); reflexivity. Qed.

(* What filling a block and its successors does. *)
Lemma fill_ok W h f es : forall idx pend p b l,
  below (view f pend) idx -> 0 < p <= idx -> (forall b', view f pend p = Some b' -> lb_hash b' = h) ->
  lb_hash b = h -> lb_next b < p -> chain (view f pend) h (lb_next b) l ->
  forall w' p', fill W h idx pend p b es = (w', p') ->
  below (view f (lw_pend w')) (lw_idx w') /\ 0 < p' <= lw_idx w' /\ idx <= lw_idx w' /\
  chain (view f (lw_pend w')) h p' (rev es ++ rev (lb_ents b) ++ l) /\
  (forall q b', view f pend q = Some b' -> lb_hash b' <> h -> view f (lw_pend w') q = Some b') /\
  (forall q b', view f (lw_pend w') q = Some b' -> view f pend q = Some b' \/ (0 < q /\ lb_hash b' = h /\ incl (lb_ents b') (lb_ents b ++ es))).
Proof.
  induction es as [|e r IH]; intros idx pend p b l Hbe Hp Hv Hh Hn Hc w' p'; cbn [fill].
  - intros [= <- <-]. cbn [lw_idx lw_pend].
    assert (C : chain (view f ((p, b) :: pend)) h (lb_next b) l).
    { eapply chain_ext; [exact Hc|]. intros q b' Hq _ Hl. rewrite view_cons. destruct (Nat.eqb_spec p q); [lia|exact Hq]. }
    split. { intros q b'. rewrite view_cons. destruct (Nat.eqb_spec p q); [lia|apply Hbe]. }
    split; [exact Hp|]. split; [lia|]. split.
    { change (rev [] ++ rev (lb_ents b) ++ l) with (rev (lb_ents b) ++ l). apply ch_block; auto.
      rewrite view_cons, Nat.eqb_refl. reflexivity. }
    split.
    + intros q b' Hq Hne. rewrite view_cons. destruct (Nat.eqb_spec p q) as [<-|]; [|exact Hq]. exfalso. apply Hne. now apply Hv.
    + intros q b'. rewrite view_cons. destruct (Nat.eqb_spec p q) as [<-|]; [|auto]. intros [= <-]. right.
      split; [lia|]. split; [exact Hh|]. rewrite app_nil_r. apply incl_refl.
  - destruct (Nat.eqb (length (lb_ents b)) W).
    + intros E.
      assert (C1 : chain (view f ((p, b) :: pend)) h p (rev (lb_ents b) ++ l)).
      { apply ch_block; auto; [rewrite view_cons, Nat.eqb_refl; reflexivity|].
        eapply chain_ext; [exact Hc|]. intros q b' Hq _ Hl. rewrite view_cons. destruct (Nat.eqb_spec p q); [lia|exact Hq]. }
      assert (B1 : below (view f ((p, b) :: pend)) idx).
      { intros q b'. rewrite view_cons. destruct (Nat.eqb_spec p q); [lia|apply Hbe]. }
      specialize (IH (S idx) ((p, b) :: pend) (S idx) (LB h [e] p) (rev (lb_ents b) ++ l)). cbn [lb_hash lb_next lb_ents] in IH.
      destruct (IH) with (w' := w') (p' := p') as (R1 & R2 & R3 & R4 & R5 & R6); try assumption; try reflexivity; try lia.
      { intros q b' Hq. apply B1 in Hq. lia. }
      { intros b' Hb'. apply B1 in Hb'. lia. }
      split; [exact R1|]. split; [exact R2|]. split; [lia|]. split.
      { cbn [rev]. rewrite <- app_assoc. exact R4. }
      split.
      * intros q b' Hq Hne. apply R5; [|exact Hne]. rewrite view_cons. destruct (Nat.eqb_spec p q) as [<-|]; [|exact Hq].
        exfalso. apply Hne. now apply Hv.
      * intros q b' Hq. destruct (R6 q b' Hq) as [Hq'|(Q1 & Q2 & Q3)].
        -- rewrite view_cons in Hq'. destruct (Nat.eqb_spec p q) as [<-|]; [|now left]. injection Hq' as <-. right.
           split; [lia|]. split; [exact Hh|]. apply incl_appl, incl_refl.
        -- right. split; [exact Q1|]. split; [exact Q2|]. intros x Hx. apply in_or_app. right. apply Q3 in Hx. cbn [app] in Hx. exact Hx.
    + intros E. specialize (IH idx pend p (LB h (lb_ents b ++ [e]) (lb_next b)) l). cbn [lb_hash lb_next lb_ents] in IH.
      destruct (IH) with (w' := w') (p' := p') as (R1 & R2 & R3 & R4 & R5 & R6); try assumption; try reflexivity.
      split; [exact R1|]. split; [exact R2|]. split; [exact R3|]. split.
      { rewrite rev_app_distr in R4. cbn [rev app] in *. rewrite <- app_assoc. exact R4. }
      split; [exact R5|]. intros q b' Hq. destruct (R6 q b' Hq) as [Hq'|(Q1 & Q2 & Q3)]; [now left|]. right.
      split; [exact Q1|]. split; [exact Q2|]. rewrite <- app_assoc in Q3. exact Q3.
Qed.

(* ... and an append. *)
Lemma append_ok W w f h off es l : below (view f (lw_pend w)) (lw_idx w) -> 
  chain (view f (lw_pend w)) h off l -> (forall x, In x es -> forall b p, view f (lw_pend w) p = Some b -> lb_hash b = h -> True) ->
  exists w' off', w_append W w f h off es = Some (w', off') /\
  below (view f (lw_pend w')) (lw_idx w') /\ chain (view f (lw_pend w')) h off' (rev es ++ l) /\
  (forall q b', view f (lw_pend w) q = Some b' -> lb_hash b' <> h -> view f (lw_pend w') q = Some b') /\
  (forall q b', view f (lw_pend w') q = Some b' -> view f (lw_pend w) q = Some b' \/
     (0 < q /\ lb_hash b' = h /\ exists b0, incl (lb_ents b') (b0 ++ es) /\ (b0 = [] \/ exists b1 p1, view f (lw_pend w) p1 = Some b1 /\ lb_hash b1 = h /\ b0 = lb_ents b1 /\ 0 < p1))).
Proof.
  intros Hbe Hc _. unfold w_append. destruct (Nat.eqb_spec off 0) as [->|Hoff].
  - apply chain_zero in Hc as ->. destruct (fill W h (S (lw_idx w)) (lw_pend w) (S (lw_idx w)) (LB h [] 0) es) as [w' off'] eqn:E.
    apply (fill_ok W h f) with (l := []) in E; cbn [lb_hash lb_next lb_ents] in *; try reflexivity; try lia.
    + destruct E as (R1 & R2 & R3 & R4 & R5 & R6). exists w', off'. split; [reflexivity|]. split; [exact R1|]. split; [exact R4|]. split; [exact R5|].
      intros q b' Hq. destruct (R6 q b' Hq) as [|(Q1 & Q2 & Q3)]; [now left|]. right. split; [exact Q1|]. split; [exact Q2|]. exists []. auto.
    + intros p b Hp. apply Hbe in Hp. lia.
    + intros b Hb. apply Hbe in Hb. lia.
    + constructor.
  - inversion Hc; subst; [contradiction|].
    assert (R : exists w' off', fill W (lb_hash b) (lw_idx w) (lw_pend w) off (LB (lb_hash b) (lb_ents b) (lb_next b)) es = (w', off') /\
      below (view f (lw_pend w')) (lw_idx w') /\ chain (view f (lw_pend w')) (lb_hash b) off' (rev es ++ rev (lb_ents b) ++ l0) /\
      (forall q b', view f (lw_pend w) q = Some b' -> lb_hash b' <> lb_hash b -> view f (lw_pend w') q = Some b') /\
      (forall q b', view f (lw_pend w') q = Some b' -> view f (lw_pend w) q = Some b' \/
        (0 < q /\ lb_hash b' = lb_hash b /\ exists b0, incl (lb_ents b') (b0 ++ es) /\ (b0 = [] \/ exists b1 p1, view f (lw_pend w) p1 = Some b1 /\ lb_hash b1 = lb_hash b /\ b0 = lb_ents b1 /\ 0 < p1)))).
    { destruct (fill W (lb_hash b) (lw_idx w) (lw_pend w) off (LB (lb_hash b) (lb_ents b) (lb_next b)) es) as [w' off'] eqn:E.
      apply (fill_ok W (lb_hash b) f) with (l := l0) in E; cbn [lb_hash lb_next lb_ents] in *; try reflexivity; try assumption.
      - destruct E as (R1 & R2 & R3 & R4 & R5 & R6). exists w', off'. split; [reflexivity|]. split; [exact R1|]. split; [exact R4|]. split; [exact R5|].
        intros q b' Hq. destruct (R6 q b' Hq) as [|(Q1 & Q2 & Q3)]; [now left|]. right. split; [exact Q1|]. split; [exact Q2|].
        exists (lb_ents b). split; [exact Q3|]. right. exists b, off. split; [exact H|]. split; [reflexivity|]. split; [reflexivity|]. lia.
      - apply Hbe in H. lia.
      - intros b' Hb'. rewrite H in Hb'. now injection Hb' as <-. }
    destruct R as (w' & off' & Ef & R). exists w', off'. split; [|exact R].
    pose proof (Hbe _ _ H) as Hle. unfold view in H. destruct (pfind (lw_pend w) off) as [b2|]; [injection H as ->; now rewrite Ef|].
    destruct (Nat.leb_spec off (lw_idx w)); [|lia]. unfold read_at in H. destruct (nth_error f off) as [[b2|]|]; try discriminate.
    injection H as ->. now rewrite Ef.
Qed.
