(** Lemmas about [M_Patricia]. *)
From Verif Require Import M_Bytes M_Patricia.
From Coq Require Import Lia.
Open Scope N_scope.

Definition starts (s b : bytes) : Prop := exists r, b = s ++ r.
(** What a node built from [strs] should say. *)
Definition accepts (strs : list bytes) (b : bytes) (prefix : bool) : Prop :=
  exists s, In s strs /\ (if prefix then starts s b else b = s).

Lemma bytes_eqb_spec a b : bytes_eqb a b = true <-> a = b.
Proof. unfold bytes_eqb. destruct (list_eq_dec N.eq_dec a b); split; congruence. Qed.

Lemma common_spec first : forall i bss s, In s bss -> starts (skipn i s) (skipn i s) ->
  exists t, skipn i s = common first i bss ++ t.
Proof.
  induction first as [|c r IH]; intros i bss s Hs _; cbn [common].
  - eexists. reflexivity.
  - destruct (forallb _ bss) eqn:E; [|eexists; reflexivity].
    rewrite forallb_forall in E. specialize (E s Hs).
    destruct (nth_error s i) as [x|] eqn:Ex; [|discriminate]. apply N.eqb_eq in E. subst x.
    destruct (IH (S i) bss s Hs) as [t Ht]; [exists []; rewrite app_nil_r; reflexivity|].
    exists t. cbn [app]. rewrite <- Ht. clear -Ex. revert i Ex. induction s as [|y s IHs]; intros [|i] Ex; try discriminate.
    + cbn in *. congruence.
    + cbn [nth_error] in Ex. cbn [skipn]. apply IHs, Ex.
Qed.

(** Splitting: every string is the prefix followed by its rest. *)
Lemma splitPrefix_spec bss p rest : (2 <= length bss)%nat -> splitPrefix bss = (p, rest) -> bss = map (app p) rest.
Proof.
  intros H E. destruct bss as [|b0 [|b1 bss]]; cbn in H; try lia.
  destruct b0 as [|c b0].
  - cbn in E. injection E as <- <-. symmetry. apply map_id.
  - unfold splitPrefix in E. set (p' := common (c :: b0) 0 ((c :: b0) :: b1 :: bss)) in *.
    assert (A : forall s, In s ((c :: b0) :: b1 :: bss) -> s = p' ++ skipn (length p') s).
    { intros s Hs. destruct (common_spec (c :: b0) 0 _ s Hs) as [t Ht]; [exists []; rewrite app_nil_r; reflexivity|].
      cbn [skipn] in Ht. fold p' in Ht. rewrite Ht at 2. rewrite skipn_app, skipn_all, Nat.sub_diag. exact Ht. }
    pose proof (f_equal fst E) as E1. pose proof (f_equal snd E) as E2. cbn [fst snd] in E1, E2. subst p rest. rewrite map_map.
    rewrite <- map_id at 1. apply map_ext_in. exact A.
Qed.

Lemma splitPrefix_len bss p rest : splitPrefix bss = (p, rest) -> length rest = length bss.
Proof.
  intros E. destruct bss as [|b0 bss]; [injection E as <- <-; reflexivity|]. unfold splitPrefix in E.
  destruct b0 as [|c b0]; [injection E as <- <-; reflexivity|].
  destruct bss as [|b1 bss]; [injection E as <- <-; reflexivity|].
  pose proof (f_equal snd E) as E2. cbn [snd] in E2. subst rest. apply map_length.
Qed.

(** Groups *)
Definition in_grp (g : list (N * list bytes)) (c : N) (s : bytes) : Prop :=
  exists l, find (fun e => fst e =? c) g = Some (c, l) /\ In s l.
Lemma find_key (g : list (N * list bytes)) c e : find (fun e => fst e =? c) g = Some e -> fst e = c.
Proof. intros H. apply find_some in H. apply N.eqb_eq, H. Qed.
Lemma grp_add_find g c r d : find (fun e => fst e =? d) (grp_add g c r) =
  if c =? d then Some (c, match find (fun e => fst e =? c) g with Some (_, l) => l | None => [] end ++ [r])
  else find (fun e => fst e =? d) g.
Proof.
  induction g as [|[x l] g IH]; cbn.
  - destruct (c =? d); reflexivity.
  - destruct (N.eqb_spec x c) as [->|Nx]; cbn.
    + destruct (c =? d); reflexivity.
    + rewrite IH. destruct (N.eqb_spec x d) as [->|Nd].
      * destruct (N.eqb_spec c d); [congruence|reflexivity].
      * reflexivity.
Qed.
Lemma grp_add_in g c r d s : in_grp (grp_add g c r) d s <-> in_grp g d s \/ (d = c /\ s = r).
Proof.
  unfold in_grp. rewrite grp_add_find. destruct (N.eqb_spec c d) as [->|Nc].
  - destruct (find (fun e => fst e =? d) g) as [[x l]|] eqn:E.
    + apply find_key in E. cbn in E. subst x. split.
      * intros (l' & [= <-] & H). apply in_app_or in H. destruct H as [H|[<-|[]]]; [left; exists l; auto|right; auto].
      * intros [(l' & [= <-] & H)|[_ ->]]; exists (l ++ [r]); (split; [reflexivity|]); apply in_or_app; [left; exact H|right; left; reflexivity].
    + split.
      * intros (l' & [= <-] & [<-|[]]). right. auto.
      * intros [(l' & H & _)|[_ ->]]; [discriminate|]. exists [r]. split; [reflexivity|left; reflexivity].
  - split; [intros H; left; exact H|]. intros [H|[-> _]]; [exact H|congruence].
Qed.
Lemma grp_in strs : forall g d s, in_grp (grp strs g) d s <-> in_grp g d s \/ In (d :: s) strs.
Proof.
  induction strs as [|[|c t] strs IH]; intros g d s; cbn [grp].
  - cbn. tauto.
  - rewrite IH. cbn. split; [tauto|]. intros [H|[H|H]]; [tauto|discriminate|tauto].
  - rewrite IH, grp_add_in. cbn. split.
    + intros [[H|[-> ->]]|H]; tauto.
    + intros [H|[[= -> ->]|H]]; tauto.
Qed.
Lemma grp_nonempty strs : forall g, (forall e, In e g -> snd e <> []) -> forall e, In e (grp strs g) -> snd e <> [].
Proof.
  induction strs as [|[|c t] strs IH]; intros g Hg e He; cbn [grp] in He.
  - apply Hg, He.
  - eapply IH; eassumption.
  - eapply IH; [|exact He]. clear -Hg. induction g as [|[x l] g IHg]; intros e He; cbn in He.
    + destruct He as [<-|[]]. discriminate.
    + destruct (x =? c).
      * destruct He as [<-|He]; [cbn; destruct l; discriminate|]. apply Hg. right. exact He.
      * destruct He as [<-|He]; [apply (Hg (x, l)); left; reflexivity|]. apply IHg; [|exact He]. intros e' H'. apply Hg. right. exact H'.
Qed.

(** Size of the groups *)
Definition gtotal (g : list (N * list bytes)) : nat :=
  fold_right (fun e n => (total (snd e) + length (snd e) + n)%nat) O g.
Lemma total_app a b : total (a ++ b) = (total a + total b)%nat.
Proof. unfold total. induction a as [|x a IH]; cbn; [reflexivity|]. rewrite IH. lia. Qed.
Lemma gtotal_add g c r : gtotal (grp_add g c r) = (gtotal g + length r + 1)%nat.
Proof.
  induction g as [|[x l] g IH]; cbn [grp_add]; [cbn; lia|].
  destruct (x =? c); cbn [gtotal fold_right snd]; fold (gtotal g).
  - rewrite total_app, app_length. cbn. lia.
  - fold (gtotal (grp_add g c r)). rewrite IH. lia.
Qed.
Lemma gtotal_grp strs : forall g, gtotal (grp strs g) = (gtotal g + total strs)%nat.
Proof.
  induction strs as [|[|c t] strs IH]; intros g; cbn [grp].
  - cbn. lia.
  - rewrite IH. reflexivity.
  - rewrite IH, gtotal_add. change (total ((c :: t) :: strs)) with (S (length t) + total strs)%nat. lia.
Qed.
Lemma gtotal_in g e : In e g -> (total (snd e) + length (snd e) <= gtotal g)%nat.
Proof. induction g as [|x g IH]; [intros []|]. intros [<-|H]; cbn [gtotal fold_right]; fold (gtotal g); [lia|]. apply IH in H. lia. Qed.

Lemma total_map_app p rest : (total rest <= total (map (app p) rest))%nat.
Proof. induction rest as [|r rest IH]; [cbn; lia|]. cbn [map total fold_right]; fold (total rest). fold (total (map (app p) rest)). rewrite app_length. lia. Qed.

(** The lookup among the children. *)
Fixpoint look (next : list (N * ptnode)) (c : N) (b : bytes) (prefix : bool) : bool :=
  match next with
  | [] => false
  | (d, nx) :: r => if d =? c then node_match nx b prefix else look r c b prefix
  end.
Lemma node_match_eq p next t b prefix : node_match (PT p next t) b prefix =
  let l := Nat.min (length p) (length b) in
  if ((Nat.ltb 0 (length p)) && negb (bytes_eqb (firstn l b) p))%bool then false
  else if (t && (prefix || Nat.eqb (length p) (length b)))%bool then true
  else if Nat.leb (length b) l then false
  else look next (nth l b 0) (skipn (S l) b) prefix.
Proof.
  cbn [node_match]. cbv zeta. destruct (_ && _)%bool; [reflexivity|]. destruct (_ && _)%bool; [reflexivity|].
  destruct (Nat.leb _ _); [reflexivity|]. induction next as [|[d nx] next IH]; [reflexivity|].
  cbn [look]. destruct (d =? _); [reflexivity|exact IH].
Qed.

(** A node with prefix p: the input must start with p. *)
Lemma match_prefix p next t b prefix : node_match (PT p next t) b prefix = true <->
  exists r, b = p ++ r /\
    ((t = true /\ (prefix = true \/ r = [])) \/
     (exists c r', r = c :: r' /\ look next c r' prefix = true)).
Proof.
  rewrite node_match_eq. cbv zeta.
  destruct (Nat.ltb 0 (length p) && negb (bytes_eqb (firstn (Nat.min (length p) (length b)) b) p))%bool eqn:E.
  - split; [discriminate|]. intros (r & -> & _). exfalso. apply andb_prop in E. destruct E as [_ E].
    rewrite app_length, Nat.min_l in E by lia. rewrite firstn_app, firstn_all, Nat.sub_diag, firstn_O, app_nil_r in E.
    rewrite (proj2 (bytes_eqb_spec p p) eq_refl) in E. discriminate.
  - assert (P : exists r, b = p ++ r).
    { destruct (Nat.ltb_spec 0 (length p)) as [Hp|Hp].
      - cbn in E. apply negb_false_iff, bytes_eqb_spec in E.
        exists (skipn (Nat.min (length p) (length b)) b). rewrite <- E at 1. symmetry. apply firstn_skipn.
      - destruct p; [exists b; reflexivity|cbn in Hp; lia]. }
    destruct P as (r & ->). rewrite app_length, Nat.min_l by lia.
    replace (Nat.eqb (length p) (length p + length r)) with (is_nil r).
    2:{ destruct r; cbn [length is_nil]; symmetry; [apply Nat.eqb_eq|apply Nat.eqb_neq]; lia. }
    destruct (t && (prefix || is_nil r))%bool eqn:E2.
    + split; [intros _|reflexivity]. exists r. split; [reflexivity|]. left. apply andb_prop in E2. destruct E2 as [-> E2].
      split; [reflexivity|]. apply orb_prop in E2. destruct E2 as [->|E2]; [left; reflexivity|right].
      destruct r; [reflexivity|discriminate].
    + destruct r as [|c r'].
      * rewrite (proj2 (Nat.leb_le _ _)) by (cbn; lia). split; [discriminate|]. intros (r & Er & H).
        apply app_inv_head in Er. subst r.
        destruct H as [[-> _]|(c & r' & H & _)]; [|discriminate]. cbn in E2. rewrite orb_true_r in E2. discriminate.
      * rewrite (proj2 (Nat.leb_gt _ _)) by (cbn; lia).
        rewrite app_nth2, Nat.sub_diag by lia. cbn [nth].
        replace (skipn (S (length p)) (p ++ c :: r')) with r'.
        2:{ rewrite skipn_app, skipn_all2 by lia. replace (S (length p) - length p)%nat with 1%nat by lia. reflexivity. }
        split.
        -- intros H. exists (c :: r'). split; [reflexivity|]. right. exists c, r'. auto.
        -- intros (r & Er & H). apply app_inv_head in Er. subst r.
           destruct H as [[-> [->|H]]|(c' & r'' & [= <- <-] & H)]; [discriminate|discriminate|exact H].
Qed.

Lemma look_map (f : list bytes -> ptnode) g c b prefix :
  look (map (fun e => (fst e, f (snd e))) g) c b prefix =
  match find (fun e => fst e =? c) g with Some e => node_match (f (snd e)) b prefix | None => false end.
Proof. induction g as [|[d l] g IH]; [reflexivity|]. cbn. destruct (d =? c); [reflexivity|exact IH]. Qed.

Lemma existsb_nil strs : existsb is_nil strs = true <-> In [] strs.
Proof.
  rewrite existsb_exists. split; [intros (x & H & E); destruct x; [exact H|discriminate]|].
  intros H. exists []. auto.
Qed.

(** A tree accepts what one of its strings accepts. *)
Lemma newNode_spec fuel : forall strs b prefix, strs <> [] -> (total strs < fuel)%nat ->
  node_match (newNode fuel strs) b prefix = true <-> accepts strs b prefix.
Proof.
  induction fuel as [|fuel IH]; intros strs b prefix Hne Hf; [lia|].
  destruct strs as [|s0 [|s1 strs]]; [congruence| |].
  - cbn [newNode]. rewrite match_prefix. unfold accepts, starts. split.
    + intros (r & -> & [[_ [->| ->]]|(c & r' & _ & H)]).
      * exists s0. split; [left; reflexivity|]. exists r. reflexivity.
      * exists s0. split; [left; reflexivity|]. rewrite app_nil_r. destruct prefix; [exists []; rewrite app_nil_r; reflexivity|reflexivity].
      * discriminate.
    + intros (s & [<-|[]] & H). destruct prefix.
      * destruct H as (r & ->). exists r. auto.
      * subst b. exists []. rewrite app_nil_r. auto.
  - cbn [newNode]. destruct (splitPrefix (s0 :: s1 :: strs)) as [p rest] eqn:Es.
    pose proof (splitPrefix_len _ _ _ Es) as El. apply splitPrefix_spec in Es; [|cbn; lia].
    rewrite match_prefix. rewrite Es in Hf |- *. clear Es.
    pose proof (total_map_app p rest) as TM.
    assert (AC : forall b', accepts (map (app p) rest) b' prefix <-> exists r, b' = p ++ r /\ accepts rest r prefix).
    { intros b'. unfold accepts, starts. split.
      - intros (s & Hs & H). apply in_map_iff in Hs. destruct Hs as (s' & <- & Hs). destruct prefix.
        + destruct H as (r & ->). exists (s' ++ r). rewrite <- app_assoc. split; [reflexivity|]. exists s'. split; [exact Hs|exists r; reflexivity].
        + subst b'. exists s'. split; [reflexivity|]. exists s'. auto.
      - intros (r & -> & s & Hs & H). exists (p ++ s). split; [apply in_map, Hs|]. destruct prefix.
        + destruct H as (r' & ->). exists r'. rewrite app_assoc. reflexivity.
        + subst r. reflexivity. }
    rewrite AC. clear AC.
    split; intros (r & -> & H); exists r; (split; [reflexivity|]).
    + destruct H as [[Ht Hr]|(c & r' & -> & H)].
      * apply existsb_nil in Ht. exists []. split; [exact Ht|]. unfold starts. destruct Hr as [->| ->]; [exists r; reflexivity|].
        destruct prefix; [exists []; reflexivity|reflexivity].
      * rewrite look_map in H. destruct (find (fun e => fst e =? c) (grp rest [])) as [e|] eqn:Ef; [|discriminate].
        pose proof (find_key _ _ _ Ef) as Ek. pose proof (find_some _ _ Ef) as [Hin _].
        apply IH in H.
        -- destruct H as (s & Hs & H). exists (c :: s). split.
           ++ pose proof (proj1 (grp_in rest [] c s)) as G. destruct G as [G|G]; [exists (snd e)|destruct G as (l & G & _); discriminate|exact G].
              split; [rewrite Ef; f_equal; rewrite <- Ek; destruct e; reflexivity|exact Hs].
           ++ unfold starts in *. destruct prefix; [destruct H as (q & ->); exists q; reflexivity|congruence].
        -- eapply grp_nonempty; [|exact Hin]. intros ? [].
        -- apply gtotal_in in Hin. rewrite gtotal_grp in Hin. change (gtotal []) with O in Hin. cbn [snd] in Hin.
           assert (snd e <> []) by (eapply grp_nonempty; [|apply (find_some _ _ Ef)]; intros ? []).
           destruct (snd e); [congruence|]. cbn [length] in Hin. lia.
    + destruct H as (s & Hs & H). destruct s as [|c s].
      * left. split; [apply existsb_nil, Hs|]. destruct prefix; [left; reflexivity|right; exact H].
      * right. assert (Hr : exists r', r = c :: r' /\ if prefix then starts s r' else r' = s).
        { unfold starts in *. destruct prefix.
          - destruct H as (q & ->). exists (s ++ q). split; [reflexivity|]. exists q. reflexivity.
          - subst r. exists s. auto. }
        destruct Hr as (r' & -> & Hr). exists c, r'. split; [reflexivity|]. rewrite look_map.
        destruct (proj2 (grp_in rest [] c s) (or_intror Hs)) as (l & Ef & Hl). rewrite Ef. cbn [snd].
        pose proof (find_some _ _ Ef) as [Hin _]. apply IH.
        -- intros ->. destruct Hl.
        -- apply gtotal_in in Hin. rewrite gtotal_grp in Hin. change (gtotal []) with O in Hin. cbn [snd] in Hin.
           destruct l; [destruct Hl|]. cbn [length] in Hin. lia.
        -- exists s. auto.
Qed.

Lemma max_len_in strs s : In s strs -> (length s <= max_len strs)%nat.
Proof. induction strs as [|x strs IH]; [intros []|]; intros [<-|H]; cbn [max_len fold_right]; fold (max_len strs); [lia|]. apply IH in H. lia. Qed.

Lemma matchPrefix_spec strs r : strs <> [] ->
  matchPrefix (newPatriciaTree strs) r = true <-> exists s rest, In s strs /\ r = s ++ rest.
Proof.
  intros Hne. unfold matchPrefix, newPatriciaTree. cbn [pt_root pt_maxDepth].
  rewrite newNode_spec by (exact Hne || lia). unfold accepts, starts. split.
  - intros (s & Hs & (q & Hq)). exists s, (q ++ skipn (S (max_len strs)) r). split; [exact Hs|].
    rewrite app_assoc, <- Hq. symmetry. apply firstn_skipn.
  - intros (s & rest & Hs & ->). exists s. split; [exact Hs|]. pose proof (max_len_in _ _ Hs).
    rewrite firstn_app. rewrite (firstn_all2 s) by lia. eexists. reflexivity.
Qed.
Lemma matchExact_spec strs r : strs <> [] -> matchExact (newPatriciaTree strs) r = true <-> In r strs.
Proof.
  intros Hne. unfold matchExact, newPatriciaTree. cbn [pt_root pt_maxDepth].
  rewrite newNode_spec by (exact Hne || lia). unfold accepts. split.
  - intros (s & Hs & E). pose proof (max_len_in _ _ Hs) as L. rewrite <- E in L. rewrite firstn_length in L.
    rewrite (firstn_all2 r) in E by lia. congruence.
  - intros H. exists r. split; [exact H|]. pose proof (max_len_in _ _ H). apply firstn_all2. lia.
Qed.
