(** Proofs about the topic tree: histories, exact lookups, wildcards. *)
From Verif Require Import M_Bytes P_Bytes M_Hash P_Hash P_Bloom M_Topic M_Trie S_Trie P_Trie P_Topic.
From Coq Require Import Lia ZifyBool ZifyNat ZifyN.
Open Scope N_scope.

Definition fparts (c : N) (txt : bytes) : list part := t_parts (filed c txt).
Definition fdepth (c : N) (txt : bytes) : N := t_depth (filed c txt).

(** The parts and depth as stored. *)
Definition sparts (c : N) (txt : bytes) : list part := match stored c txt with Some (ps, _) => ps | None => [] end.
Definition sdepth (c : N) (txt : bytes) : N := match stored c txt with Some (_, d) => d | None => 0 end.

Record tinv (t : trie) (m : tghost) : Prop := mkTInv {
  ti_wf : nwf (t_root t);
  ti_sum : forall h, sum_find (t_summary t) h = match m h with Some (c, txt, _) => Some (sparts c txt) | None => None end;
  ti_tops : forall h o ps, In (h, o) (ntops (t_root t) ps) <-> exists c txt, m h = Some (c, txt, o) /\ ps = sparts c txt;
  ti_nodup : forall ps, NoDup (map fst (ntops (t_root t) ps));
  ti_at : forall h c txt o, m h = Some (c, txt, o) -> node_at (t_root t) (sparts c txt) <> None;
  ti_dep : forall h c txt o, m h = Some (c, txt, o) -> exists h' c' txt' o',
     m h' = Some (c', txt', o') /\ sparts c' txt' = sparts c txt /\ ndep (t_root t) (sparts c txt) = sdepth c' txt'
}.

Lemma addUnique_new l t x : ~ In (fst t) (map fst l) -> (In x (addUnique l t) <-> In x l \/ x = t).
Proof.
  induction l as [|v l IH]; cbn [addUnique map fst]; intros H; [cbn; intuition|].
  destruct (N.eqb_spec (fst v) (fst t)) as [E|E]; [exfalso; apply H; now left|]. cbn [In]. rewrite IH; [tauto|]. intros Hi; apply H; now right.
Qed.
Lemma addUnique_keys l t : map fst (addUnique l t) = map fst l \/
  (map fst (addUnique l t) = map fst l ++ [fst t] /\ ~ In (fst t) (map fst l)).
Proof.
  induction l as [|v l IH]; cbn [addUnique map fst]; [right; split; [reflexivity|intros []]|].
  destruct (N.eqb_spec (fst v) (fst t)) as [E|E]; cbn [map fst]; [left; now rewrite E|].
  destruct IH as [->|[-> Hni]]; [now left|right]. split; [reflexivity|]. intros [?|?]; [congruence|contradiction].
Qed.
Lemma addUnique_nodup l t : NoDup (map fst l) -> NoDup (map fst (addUnique l t)).
Proof. intros H. destruct (addUnique_keys l t) as [->|[-> Hni]]; [exact H|now apply nodup_app_one]. Qed.
Lemma addUnique_set l h o x : NoDup (map fst l) ->
  (In x (addUnique l (h, o)) <-> x = (h, o) \/ (In x l /\ fst x <> h)).
Proof.
  induction l as [|v l IH]; cbn [addUnique map fst]; intros Hnd; [cbn; intuition|].
  inversion Hnd as [|? ? Hni Hnd']; subst. destruct (N.eqb_spec (fst v) h) as [E|E]; cbn [In].
  - split; [intros [<-|Hin]; [now left|]|intros [->|[[<-|Hin] Hx]]; [now left|contradiction|now right]].
    right. split; [now right|]. intros Hx. apply Hni. rewrite E, <- Hx. now apply in_map.
  - rewrite IH by assumption. split; [intros [<-|[?|[? ?]]]; tauto|intros [->|[[<-|?] ?]]; tauto].
Qed.

Lemma sum_find_cons k p s h : sum_find ((k, p) :: s) h = if k =? h then Some p else sum_find s h.
Proof. reflexivity. Qed.

Lemma tries_inv t m : tries t m -> tinv t m.
Proof.
  induction 1 as [|t m c txt off ps depth t' _ IH Hst Ha|t m c txt off ps depth t' _ IH Hst Ha|t m h off t' c txt o _ IH Hm Hs].
  - constructor; cbn; try congruence; try discriminate.
    + apply nwf_empty.
    + intros h o ps. rewrite ntops_empty. split; [intros []|intros (c & txt & E & _); discriminate].
    + intros ps. rewrite ntops_empty. constructor.
  - unfold trie_add in Ha. cbn [fst] in Ha. set (h := get_hash c (filed c txt)) in *.
    clearbody h. assert (ps = sparts c txt /\ depth = sdepth c txt) as [-> ->] by (unfold sparts, sdepth; rewrite Hst; split; reflexivity). clear Hst.
    destruct (sum_find (t_summary t) h) eqn:Es; [discriminate|]. assert (Ht' : t' = mkTrie ((h, sparts c txt) :: t_summary t) (node_add (t_root t) (sparts c txt) (h, off) (sdepth c txt))) by congruence.
    clear Ha. subst t'. destruct IH as [Hwf Hsum Htops Hnd Hat Hdep].
    assert (Hmh : m h = None) by (rewrite Hsum in Es; destruct (m h) as [[[? ?] ?]|]; [discriminate|reflexivity]).
    assert (Hni : forall ps, ~ In h (map fst (ntops (t_root t) ps))).
    { intros ps Hin. apply in_map_iff in Hin. destruct Hin as ((h' & o') & E & Hin). cbn in E; subst h'.
      apply Htops in Hin. destruct Hin as (c' & txt' & E & _). congruence. }
    assert (Hput : forall k, k <> h -> tput m h (c, txt, off) k = m k) by (intros k Hk; unfold tput; now replace (k =? h) with false by lia).
    assert (Hputh : tput m h (c, txt, off) h = Some (c, txt, off)) by (unfold tput; now rewrite N.eqb_refl).
    constructor; cbn [t_root t_summary].
    + now apply node_add_wf.
    + intros k. rewrite sum_find_cons. destruct (N.eqb_spec h k) as [<-|Hk]; [now rewrite Hputh|]. rewrite Hput by congruence. apply Hsum.
    + intros k o ps. destruct (node_add_tops (sparts c txt) (t_root t) (h, off) (sdepth c txt) ps) as [-> _].
      destruct (parts_dec ps (sparts c txt)) as [->|Hps].
      * rewrite addUnique_new by apply Hni. rewrite Htops. split.
        -- intros [(c' & txt' & E & Eps)|E].
           ++ exists c', txt'. split; [|exact Eps]. rewrite Hput; [exact E|congruence].
           ++ assert (k = h /\ o = off) as [-> ->] by (split; congruence). exists c, txt. auto.
        -- intros (c' & txt' & E & Eps). destruct (N.eq_dec k h) as [->|Hk].
           ++ right. rewrite Hputh in E. congruence.
           ++ left. rewrite Hput in E by assumption. eauto.
      * rewrite Htops. split.
        -- intros (c' & txt' & E & Eps). exists c', txt'. split; [|exact Eps]. rewrite Hput; [exact E|congruence].
        -- intros (c' & txt' & E & Eps). destruct (N.eq_dec k h) as [->|Hk].
           ++ rewrite Hputh in E. assert (c' = c /\ txt' = txt) as [-> ->] by (split; congruence). contradiction.
           ++ rewrite Hput in E by assumption. eauto.
    + intros ps. destruct (node_add_tops (sparts c txt) (t_root t) (h, off) (sdepth c txt) ps) as [-> _].
      destruct (parts_dec ps (sparts c txt)); [now apply addUnique_nodup|apply Hnd].
    + intros k c' txt' o' E. destruct (N.eq_dec k h) as [->|Hk].
      * rewrite Hputh in E. assert (c' = c /\ txt' = txt) as [-> ->] by (split; congruence). apply node_add_at.
      * rewrite Hput in E by assumption. intros Hn. 
        assert (Hin : In (k, o') (ntops (t_root t) (sparts c' txt'))) by (apply Htops; eauto).
        assert (Hin' : In (k, o') (ntops (node_add (t_root t) (sparts c txt) (h, off) (sdepth c txt)) (sparts c' txt'))).
        { destruct (node_add_tops (sparts c txt) (t_root t) (h, off) (sdepth c txt) (sparts c' txt')) as [-> _].
          destruct (parts_dec (sparts c' txt') (sparts c txt)) as [Ep|]; [|exact Hin].
          rewrite addUnique_new by apply Hni. left. now rewrite <- Ep. }
        unfold ntops in Hin'. rewrite Hn in Hin'. contradiction.
    + intros k c' txt' o' E. destruct (node_add_tops (sparts c txt) (t_root t) (h, off) (sdepth c txt) (sparts c' txt')) as [_ ->].
      destruct (parts_dec (sparts c' txt') (sparts c txt)) as [Ep|Ep].
      * exists h, c, txt, off. auto.
      * destruct (N.eq_dec k h) as [->|Hk].
        -- rewrite Hputh in E. assert (c' = c /\ txt' = txt) as [-> ->] by (split; congruence). contradiction.
        -- rewrite Hput in E by assumption. destruct (Hdep k c' txt' o' E) as (h2 & c2 & x2 & o2 & E2 & Ep2 & Ed2).
           exists h2, c2, x2, o2. split; [|auto]. rewrite Hput; [exact E2|congruence].
  - unfold trie_add in Ha. destruct (sum_find (t_summary t) _); [|discriminate]. assert (t' = t) by congruence. now subst.
  - unfold setOffset in Hs. cbn [fst] in Hs. destruct IH as [Hwf Hsum Htops Hnd Hat Hdep].
    rewrite Hsum, Hm in Hs. assert (Ht' : t' = mkTrie (t_summary t) (node_set (t_root t) (sparts c txt) (h, off))) by congruence.
    clear Hs. subst t'.
    assert (Hput : forall k, k <> h -> tput m h (c, txt, off) k = m k) by (intros k Hk; unfold tput; now replace (k =? h) with false by lia).
    assert (Hputh : tput m h (c, txt, off) h = Some (c, txt, off)) by (unfold tput; now rewrite N.eqb_refl).
    pose proof (fun qs => node_set_tops (sparts c txt) (t_root t) (h, off) qs (Hat _ _ _ _ Hm)) as Hst.
    constructor; cbn [t_root t_summary].
    + now apply node_set_wf.
    + intros k. rewrite Hsum. destruct (N.eq_dec k h) as [->|Hk]; [now rewrite Hputh, Hm|now rewrite Hput by assumption].
    + intros k o' ps. destruct (Hst ps) as [-> _]. destruct (parts_dec ps (sparts c txt)) as [->|Hps].
      * rewrite addUnique_set by apply Hnd. cbn [fst]. rewrite Htops. split.
        -- intros [E|[(c' & txt' & E & Eps) Hk]].
           ++ assert (k = h /\ o' = off) as [-> ->] by (split; congruence). exists c, txt. auto.
           ++ exists c', txt'. now rewrite Hput by assumption.
        -- intros (c' & txt' & E & Eps). destruct (N.eq_dec k h) as [->|Hk].
           ++ left. rewrite Hputh in E. congruence.
           ++ right. rewrite Hput in E by assumption. eauto.
      * rewrite Htops. split.
        -- intros (c' & txt' & E & Eps). exists c', txt'. split; [|exact Eps]. rewrite Hput; [exact E|]. intros ->. congruence.
        -- intros (c' & txt' & E & Eps). destruct (N.eq_dec k h) as [->|Hk].
           ++ rewrite Hputh in E. assert (c' = c /\ txt' = txt) as [-> ->] by (split; congruence). contradiction.
           ++ rewrite Hput in E by assumption. eauto.
    + intros ps. destruct (Hst ps) as [-> _]. destruct (parts_dec ps (sparts c txt)); [now apply addUnique_nodup|apply Hnd].
    + intros k c' txt' o' E Hn.
      assert (Hin : exists x, In (k, x) (ntops (node_set (t_root t) (sparts c txt) (h, off)) (sparts c' txt'))).
      { destruct (Hst (sparts c' txt')) as [-> _]. destruct (N.eq_dec k h) as [->|Hk].
        - rewrite Hputh in E. assert (c' = c /\ txt' = txt) as [-> ->] by (split; congruence).
          destruct (parts_dec (sparts c txt) (sparts c txt)); [|congruence]. exists off. rewrite addUnique_set by apply Hnd. now left.
        - rewrite Hput in E by assumption. exists o'. destruct (parts_dec (sparts c' txt') (sparts c txt)) as [Ep|].
          + rewrite addUnique_set by apply Hnd. right. split; [|exact Hk]. apply Htops. eauto.
          + apply Htops. eauto. }
      destruct Hin as [x Hin]. unfold ntops in Hin. rewrite Hn in Hin. contradiction.
    + intros k c' txt' o' E. destruct (Hst (sparts c' txt')) as [_ ->].
      assert (Em : exists o2, m k = Some (c', txt', o2)).
      { destruct (N.eq_dec k h) as [->|Hk]; [|rewrite Hput in E by assumption; eauto].
        rewrite Hputh in E. assert (c' = c /\ txt' = txt) as [-> ->] by (split; congruence). eauto. }
      destruct Em as [o2 Em]. destruct (Hdep k c' txt' o2 Em) as (h3 & c3 & x3 & o3 & E3 & Ep3 & Ed3).
      destruct (N.eq_dec h3 h) as [->|Hk3].
      * exists h, c, txt, off. rewrite Hm in E3. assert (c3 = c /\ x3 = txt) as [-> ->] by (split; congruence). auto.
      * exists h3, c3, x3, o3. rewrite Hput by assumption. auto.
Qed.

(** Offsets: the one stored last. *)
Lemma top_find_in l h o : NoDup (map fst l) -> In (h, o) l -> top_find l h = Some o.
Proof.
  unfold top_find. induction l as [|v l IH]; cbn [map fst find]; intros Hnd; [intros []|].
  inversion Hnd as [|? ? Hni Hnd']; subst. intros [->|Hin]; cbn [fst].
  - now rewrite N.eqb_refl.
  - destruct (N.eqb_spec (fst v) h) as [E|]; [|auto]. exfalso. apply Hni. rewrite E. apply (in_map fst) in Hin. exact Hin.
Qed.
Lemma tries_offset t m h : tries t m -> getOffset t h = match m h with Some (_, _, o) => Some o | None => None end.
Proof.
  intros H. pose proof (tries_inv t m H) as [Hwf Hsum Htops Hnd Hat Hdep]. unfold getOffset. rewrite Hsum.
  destruct (m h) as [[[c txt] o]|] eqn:Em; [|reflexivity].
  pose proof (Hat h c txt o Em) as Ha. destruct (node_at (t_root t) (sparts c txt)) as [[d ts ch]|] eqn:En; [|congruence].
  assert (Hin : In (h, o) (ntops (t_root t) (sparts c txt))) by (apply Htops; eauto).
  pose proof (Hnd (sparts c txt)) as Hn. unfold ntops in Hin, Hn. rewrite En in Hin, Hn. now apply top_find_in.
Qed.

Definition is_static (ty : ttype) : bool := match ty with TStatic => true | _ => false end.

Lemma tries_lookup t m c q h o : tries t m ->
  (In (h, o) (find_topics t c q) <-> exists c1 txt1 r, m h = Some (c1, txt1, o) /\
     walk (sparts c1 txt1) (fparts c q) = Some r /\
     hit (is_static (t_type (filed c q))) (fdepth c q) (ndep (t_root t) (sparts c1 txt1)) (last (sparts c1 txt1) (mkPart 0 0))).
Proof.
  intros H. pose proof (tries_inv t m H) as [Hwf Hsum Htops Hnd Hat Hdep].
  pose (F := fun k => match m k with Some (_, _, x) => x | None => 0%Z end).
  assert (Hc : forall ps, consistent F (ntops (t_root t) ps)).
  { intros ps k x Hin. apply Htops in Hin. destruct Hin as (c' & x' & E & _). unfold F. now rewrite E. }
  unfold find_topics, trie_lookup.
  destruct (ilookup_in F (is_static (t_type (filed c q))) (fdepth c q) (t_root t) Hwf (mkPart 0 0) (fparts c q) [] (h, o)
              ltac:(intros ? ? []) Hc) as [Hiff _].
  unfold fdepth, fparts in Hiff. unfold is_static in Hiff at 1. rewrite Hiff. unfold found. split.
  - intros [[]|(ps & r & Hw & Hh & Hin)]. apply Htops in Hin. destruct Hin as (c1 & txt1 & E & ->). exists c1, txt1, r. auto.
  - intros (c1 & txt1 & r & E & Hw & Hh). right. exists (sparts c1 txt1), r. split; [exact Hw|]. split; [exact Hh|]. apply Htops. eauto.
Qed.

(** * Plain patterns *)
Lemma compiled_len c ls ps : compiled c ls ps -> fold_right (fun p a => 1 + p_wild p + a) 0 ps = N.of_nat (length ls).
Proof.
  induction 1 as [|n k ls ps H IH]; [reflexivity|]. cbn [fold_right p_wild length]. rewrite IH, app_length, repeat_length. lia.
Qed.
Definition pdepth (ps : list part) : N := fold_right (fun p a => 1 + p_wild p + a) 0 ps.
Lemma pdepth_app a b : pdepth (a ++ b) = pdepth a + pdepth b.
Proof. unfold pdepth. induction a as [|x a IH]; cbn [fold_right app]; [reflexivity|]. rewrite IH. lia. Qed.

Lemma filed_plain c p txt : plain c p -> spells txt p ->
  exists ps, compiled c (pt_levels p) ps /\
    fparts c txt = mkPart c 0 :: ps ++ (if pt_multi p then [mkPart Wildcard 0] else []) /\
    fdepth c txt = N.of_nat (length (pt_levels p)) + b2n (pt_multi p) /\
    t_type (filed c txt) = (if (pt_multi p || has_star (pt_levels p))%bool then TWildcard else TStatic).
Proof.
  intros Hp Hs. destruct (parse_plain c p txt Hp Hs) as (ps & H1 & H2 & H3 & H4). exists ps.
  unfold fparts, fdepth, filed, add_contract. cbn [t_parts t_depth t_type]. rewrite H2. auto.
Qed.
Lemma plain_depth c p txt : plain c p -> spells txt p -> 1 + fdepth c txt = pdepth (fparts c txt).
Proof.
  intros Hp Hs. destruct (filed_plain c p txt Hp Hs) as (ps & H1 & H2 & H3 & _). rewrite H2, H3.
  change (pdepth (mkPart c 0 :: ?x)) with (1 + 0 + pdepth x). cbn [pdepth fold_right p_wild].
  fold (pdepth (ps ++ (if pt_multi p then [mkPart Wildcard 0] else []))). rewrite pdepth_app.
  unfold pdepth at 1. rewrite (compiled_len c _ _ H1). destruct (pt_multi p); cbn; lia.
Qed.

(** * The stored form *)
Lemma le4_len v : length (le 4 v) = 4%nat. Proof. reflexivity. Qed.
Definition part_ok (p : part) : Prop := p_hash p < 2 ^ 32 /\ p_wild p < 256.
Lemma parts_roundtrip ps : forall n, Forall part_ok ps -> (length ps <= n)%nat ->
  parts_unmarshal n (concat (map part_marshal ps)) = Some ps.
Proof.
  induction ps as [|p ps IH]; intros n Hok Hn; [destruct n; reflexivity|].
  destruct n as [|n]; [cbn in Hn; lia|]. inversion Hok as [|? ? [Hh Hw] Hok']; subst.
  cbn [map concat]. unfold part_marshal at 1. rewrite <- app_comm_cons.
  change (parts_unmarshal (S n) (?w :: ?r)) with
    (if Nat.ltb (length r) 4 then None else match parts_unmarshal n (skipn 4 r) with
       None => None | Some ps => Some (mkPart (unle (firstn 4 r)) w :: ps) end).
  rewrite app_length, le4_len. replace (Nat.ltb _ 4) with false by lia.
  rewrite skipn_app, firstn_app, le4_len, Nat.sub_diag, (skipn_all2 (le 4 _)) by reflexivity.
  rewrite firstn_all2 by reflexivity. cbn [skipn app firstn]. rewrite app_nil_r, IH; [|assumption|cbn in Hn; lia].
  rewrite unle_le4 by exact Hh. unfold u8. rewrite N.mod_small by exact Hw. now destruct p.
Qed.

Lemma update_forall {A} (P : A -> Prop) l i x : Forall P l -> P x -> Forall P (update l i x).
Proof.
  intros Hl Hx. unfold update. rewrite <- (firstn_skipn i l) in Hl. apply Forall_app in Hl. destruct Hl as [H1 H2].
  apply Forall_app. split; [exact H1|]. destruct (skipn i l); [constructor|]. inversion H2; subst. constructor; assumption.
Qed.
Lemma set_wild_ok ps i w : Forall part_ok ps -> w < 256 -> Forall part_ok (set_wild ps i w) /\ length (set_wild ps i w) = length ps.
Proof.
  intros H Hw. unfold set_wild. destruct (nth_error ps i) as [p|] eqn:E; [|split; [exact H|reflexivity]].
  split; [|apply update_length]. apply update_forall; [exact H|]. split; [|exact Hw]. cbn.
  rewrite Forall_forall in H. apply nth_error_In in E. apply (H p E).
Qed.
Lemma u8_lt x : u8 x < 256. Proof. unfold u8. apply N.mod_lt. discriminate. Qed.

Lemma loop_ok c ws : forall s, Forall part_ok (lp_parts s) -> lp_wild s < 256 ->
  let s' := fold_left (loop_step c) ws s in
  Forall part_ok (lp_parts s') /\ lp_wild s' < 256 /\
  (length (lp_parts s') <= length (lp_parts s) + length ws)%nat /\
  (lp_depth s + N.of_nat (length ws) < 256 -> lp_depth s' = lp_depth s + N.of_nat (length ws)).
Proof.
  induction ws as [|w ws IH]; intros s Hp Hw; cbv zeta; cbn [fold_left length].
  - repeat split; auto; lia.
  - assert (Hnew : Forall part_ok (lp_parts s ++ [mkPart (hash_salt w c) 0])).
    { apply Forall_app. split; [exact Hp|]. constructor; [|constructor]. split; [apply hash_salt_bound|]. cbn. lia. }
    assert (Hlen : length (lp_parts s ++ [mkPart (hash_salt w c) 0]) = (length (lp_parts s) + 1)%nat) by (now rewrite app_length).
    assert (Hs : Forall part_ok (lp_parts (loop_step c s w)) /\ lp_wild (loop_step c s w) < 256 /\
                 (length (lp_parts (loop_step c s w)) <= length (lp_parts s) + 1)%nat /\
                 lp_depth (loop_step c s w) = u8 (lp_depth s + 1)).
    { unfold loop_step. destruct (has_suffix w [cStar]).
      - cbn [lp_parts lp_wild lp_depth]. destruct (Nat.eqb (lp_idx s) 0); (split; [assumption|]); (split; [apply u8_lt|]); split; lia.
      - destruct (lp_wild s =? 0); cbn [lp_parts lp_wild lp_depth]; [repeat split; auto; lia|].
        match goal with |- context [set_wild ?a ?b ?d] => destruct (set_wild_ok a b d Hnew Hw) as [H1 H2] end.
        repeat split; auto; lia. }
    destruct Hs as (H1 & H2 & H3 & H4). destruct (IH _ H1 H2) as (G1 & G2 & G3 & G4).
    repeat split; auto; [lia|]. intros Hd.
    assert (Hu : u8 (lp_depth s + 1) = lp_depth s + 1) by (unfold u8; apply N.mod_small; change (2 ^ 8) with 256; lia).
    rewrite Hu in H4. rewrite G4; rewrite H4; lia.
Qed.

(** Levels are at most one more than the dots. *)
Definition dots (l : bytes) : nat := count_occ N.eq_dec l cDot.
Lemma fields_dots l : forall cur, (length (fields_loop cDot cur l) <= dots l + 1)%nat.
Proof.
  unfold dots. induction l as [|x l IH]; intros cur; cbn [fields_loop].
  - destruct cur; cbn; lia.
  - destruct (N.eqb_spec x cDot) as [->|Hne].
    + rewrite count_occ_cons_eq by reflexivity. destruct cur; cbn [length]; specialize (IH []); lia.
    + rewrite count_occ_cons_neq by assumption. apply IH.
Qed.
Lemma dots_app a b : dots (a ++ b) = (dots a + dots b)%nat.
Proof. apply count_occ_app. Qed.
Lemma fields_inf sep l : forall cur w, In w (fields_loop sep cur l) -> exists a b, rev cur ++ l = a ++ w ++ b.
Proof.
  induction l as [|x l IH]; intros cur w; cbn [fields_loop].
  - destruct cur as [|y cur]; [intros []|]. intros [<-|[]]. exists [], []. now rewrite !app_nil_r.
  - destruct (x =? sep).
    + destruct cur as [|y cur].
      * intros Hin. apply IH in Hin. destruct Hin as (a & b & E). exists (x :: a), b. cbn in *. now rewrite E.
      * intros [<-|Hin]; [exists [], (x :: l); reflexivity|]. apply IH in Hin. destruct Hin as (a & b & E).
        exists (rev (y :: cur) ++ x :: a), b. cbn in E. rewrite E, <- app_assoc. reflexivity.
    + intros Hin. apply IH in Hin. destruct Hin as (a & b & E). exists a, b. rewrite <- E. cbn [rev]. now rewrite <- app_assoc.
Qed.
Lemma key_dots txt : (dots (fst (parse_key txt)) <= dots txt)%nat.
Proof.
  unfold parse_key. pose proof (fields_inf cQuest txt []) as H. unfold fields.
  assert (forall w, In w (fields_loop cQuest [] txt) -> (dots w <= dots txt)%nat) as Hw.
  { intros w Hin. destruct (H w Hin) as (a & b & E). cbn in E. rewrite E, !dots_app. lia. }
  destruct (fields_loop cQuest [] txt) as [|x [|y l]]; cbn [fst]; [cbn; lia| |]; apply Hw; now left.
Qed.
Lemma drop_dots_spec l : exists k, l = repeat cDot k ++ drop_dots l.
Proof.
  induction l as [|x l [k E]]; [exists O; reflexivity|]. cbn [drop_dots]. destruct (N.eqb_spec x cDot) as [->|].
  - exists (S k). cbn [repeat app]. now rewrite <- E.
  - exists O. reflexivity.
Qed.
Lemma drop_dots_head l x r : drop_dots l = x :: r -> x <> cDot.
Proof. induction l as [|y l IH]; cbn [drop_dots]; [discriminate|]. destruct (N.eqb_spec y cDot); [exact IH|]. intros E. congruence. Qed.
Lemma repeat_rev {A} (x : A) k : rev (repeat x k) = repeat x k.
Proof.
  induction k as [|k IH]; [reflexivity|]. cbn [repeat rev]. rewrite IH. clear IH. induction k as [|k IH]; [reflexivity|]. cbn. now rewrite IH.
Qed.
Lemma dots_repeat k : dots (repeat cDot k) = k.
Proof. unfold dots. induction k as [|k IH]; [reflexivity|]. cbn [repeat]. rewrite count_occ_cons_eq by reflexivity. now rewrite IH. Qed.
Lemma trim_dots l : has_suffix l [cDot; cDot; cDot] = true -> (dots (trim_right_dots l) + 3 <= dots l)%nat.
Proof.
  intros H. unfold has_suffix in H. destruct (list_eq_dec _ _ _) as [E|]; [|discriminate]. cbn [length] in E, H.
  assert (El : l = firstn (length l - 3) l ++ [cDot; cDot; cDot]) by (rewrite <- E; now rewrite firstn_skipn).
  set (x := firstn (length l - 3) l) in *. clearbody x. clear E H. subst l. unfold trim_right_dots. rewrite rev_app_distr.
  cbn [rev app drop_dots]. change (cDot =? cDot) with true. cbv iota.
  destruct (drop_dots_spec (rev x)) as [k Ek]. 
  assert (Ex : x = rev (drop_dots (rev x)) ++ repeat cDot k).
  { rewrite <- (rev_involutive x) at 1. rewrite Ek at 1. now rewrite rev_app_distr, repeat_rev. }
  apply (f_equal dots) in Ex. rewrite dots_app in Ex. rewrite dots_app. change (dots [cDot; cDot; cDot]) with 3%nat. lia.
Qed.

Lemma parse_ok c txt : (dots txt < 255)%nat ->
  Forall part_ok (t_parts (parse_topic c txt)) /\ t_depth (parse_topic c txt) < 256 /\
  (length (t_parts (parse_topic c txt)) <= N.to_nat (t_depth (parse_topic c txt)))%nat.
Proof.
  intros Hd. pose proof (key_dots txt) as Hk. unfold parse_topic. destruct (parse_key txt) as [name opts]. cbn [fst] in Hk.
  set (multi := has_suffix name [cDot; cDot; cDot]) in *.
  set (nm := if multi then trim_right_dots name else name).
  assert (Hn : (length (fields cDot nm) + (if multi then 1 else 0) < 256)%nat).
  { pose proof (fields_dots nm []) as Hf. fold (fields cDot nm) in Hf. unfold nm in *. clear nm.
    destruct multi eqn:E; [|lia]. pose proof (trim_dots name E). lia. }
  clearbody nm.
  destruct (loop_ok c (fields cDot nm) (mkLS 0 [] 0 0 (if multi then 1 else 0) false)) as (H1 & H2 & H3 & H4);
    [constructor|cbn; lia|]. cbn [lp_parts lp_depth length] in H3, H4.
  set (s := fold_left _ _ _) in *. clearbody s. cbn [t_parts t_depth].
  specialize (H4 ltac:(destruct multi; lia)). rewrite H4.
  set (ps := if lp_wild s =? 0 then lp_parts s else set_wild (lp_parts s) (length (lp_parts s) - 1) (lp_wild s)).
  assert (Hps : Forall part_ok ps /\ (length ps <= length (fields cDot nm))%nat).
  { unfold ps. destruct (lp_wild s =? 0); [split; [assumption|lia]|].
    destruct (set_wild_ok (lp_parts s) (length (lp_parts s) - 1) (lp_wild s) H1 H2) as [G1 G2]. split; [exact G1|lia]. }
  clearbody ps. destruct Hps as [G1 G2]. destruct multi.
  - split; [|split; [lia|rewrite app_length; cbn [length]; lia]]. apply Forall_app. split; [exact G1|].
    constructor; [|constructor]. split; cbn; unfold Wildcard; lia.
  - split; [exact G1|]. split; lia.
Qed.

Lemma stored_same c txt : c < 2 ^ 32 -> (dots txt < 255)%nat -> stored c txt = Some (fparts c txt, fdepth c txt).
Proof.
  intros Hc Hd. destruct (parse_ok c txt Hd) as (H1 & H2 & H3). unfold stored, fparts, fdepth, filed, add_contract in *.
  cbn [t_parts t_depth] in *. unfold topic_marshal, topic_unmarshal.
  rewrite parts_roundtrip; [reflexivity| |cbn [length]; lia]. constructor; [|exact H1]. split; cbn; [exact Hc|lia].
Qed.

Lemma stored_plain c p txt : plain c p -> spells txt p -> stored c txt = Some (fparts c txt, fdepth c txt).
Proof.
  intros Hp Hs. destruct (filed_plain c p txt Hp Hs) as (ps & H1 & H2 & H3 & _).
  assert (Hf : Forall part_ok (fparts c txt)).
  { destruct Hp as (Hc & _ & _ & _ & Hl & _). rewrite H2. constructor; [split; cbn; [exact Hc|lia]|].
    apply Forall_app. split.
    - assert (Hl' : (length (pt_levels p) < 256)%nat) by lia. revert Hl'. clear - H1.
      induction H1 as [|n k ls ps H IH]; intros Hl; constructor.
      + split; cbn; [apply hash_salt_bound|]. cbn [length] in Hl. rewrite app_length, repeat_length in Hl. lia.
      + apply IH. cbn [length] in Hl. rewrite app_length in Hl. lia.
    - destruct (pt_multi p); constructor; [|constructor]. split; cbn; unfold Wildcard; lia. }
  unfold stored. fold (fparts c txt) (fdepth c txt). unfold topic_marshal, topic_unmarshal.
  rewrite parts_roundtrip; [reflexivity|exact Hf|]. rewrite H2, H3. cbn [length]. rewrite app_length.
  assert (length ps <= length (pt_levels p))%nat.
  { clear - H1. induction H1 as [|n k ls ps H IH]; cbn [length]; [lia|]. rewrite app_length. lia. }
  destruct (pt_multi p); cbn [length b2n]; lia.
Qed.
Lemma sparts_plain c p txt : plain c p -> spells txt p -> sparts c txt = fparts c txt /\ sdepth c txt = fdepth c txt.
Proof. intros Hp Hs. unfold sparts, sdepth. rewrite (stored_plain c p txt Hp Hs). split; reflexivity. Qed.


Lemma plain_ndep t m h c txt o : tries t m -> all_plain m -> m h = Some (c, txt, o) ->
  sparts c txt = fparts c txt /\ ndep (t_root t) (fparts c txt) = fdepth c txt.
Proof.
  intros Ht Hap Hm. pose proof (ti_dep _ _ (tries_inv t m Ht) h c txt o Hm) as (h' & c' & txt' & o' & Hm' & Hp & Hd).
  destruct (Hap _ _ _ _ Hm) as (p & Hs & Hpl). destruct (Hap _ _ _ _ Hm') as (p' & Hs' & Hpl').
  destruct (sparts_plain c p txt Hpl Hs) as [E1 E2]. destruct (sparts_plain c' p' txt' Hpl' Hs') as [E3 E4].
  rewrite E1, E3, E4 in *. split; [reflexivity|]. rewrite Hd. clear E1 E2 E3 E4 Hd.
  pose proof (plain_depth c p txt Hpl Hs). pose proof (plain_depth c' p' txt' Hpl' Hs'). rewrite Hp in *. lia.
Qed.

Lemma walk_self ps : walk ps ps = Some [].
Proof.
  induction ps as [|p ps IH]; [reflexivity|]. cbn [walk wstep]. now rewrite !N.eqb_refl.
Qed.

(** A filed topic is found by its own text. *)
Lemma lookup_self t m h c txt o : tries t m -> all_plain m -> m h = Some (c, txt, o) ->
  In (h, o) (find_topics t c txt).
Proof.
  intros Ht Hap Hm. apply (tries_lookup t m c txt h o Ht). exists c, txt, []. split; [exact Hm|].
  destruct (plain_ndep t m h c txt o Ht Hap Hm) as [-> ->]. split; [apply walk_self|]. now left.
Qed.

(** Eating levels of a query. *)
Fixpoint eat (c : N) (ls : list level) (q : list bytes) : option (list bytes) :=
  match ls, q with
  | [], _ => Some q
  | Star :: ls', _ :: q' => eat c ls' q'
  | Lit n :: ls', x :: q' => if hash_salt n c =? hash_salt x c then eat c ls' q' else None
  | _ :: _, [] => None
  end.
Lemma eat_covers c ls : forall multi q, covers (same_hash c) ls multi q <->
  exists r, eat c ls q = Some r /\ (if multi then r <> [] else r = []).
Proof.
  induction ls as [|[n|] ls IH]; intros multi [|x q]; cbn [covers eat].
  - split; [intros ->; eauto|intros (r & E & H)]. destruct multi; [congruence|reflexivity].
  - split; [intros ->; eexists; split; [reflexivity|discriminate]|intros (r & E & H)]. destruct multi; [reflexivity|congruence].
  - split; [intros []|intros (r & E & _); discriminate].
  - unfold same_hash. destruct (N.eqb_spec (hash_salt n c) (hash_salt x c)) as [E|E].
    + rewrite IH. tauto.
    + split; [intros [? _]; contradiction|intros (r & E' & _); discriminate].
  - split; [intros []|intros (r & E & _); discriminate].
  - apply IH.
Qed.
Lemma eat_len c ls : forall q r, eat c ls q = Some r -> length q = (length ls + length r)%nat.
Proof.
  induction ls as [|[n|] ls IH]; intros [|x q] r; cbn [eat length]; try discriminate.
  - intros [= <-]. reflexivity.
  - intros [= <-]. reflexivity.
  - destruct (_ =? _); [|discriminate]. intros H. apply IH in H. lia.
  - intros H. apply IH in H. lia.
Qed.
Lemma eat_stars c k : forall ls q, eat c (repeat Star k ++ ls) q =
  if Nat.leb k (length q) then eat c ls (skipn k q) else None.
Proof.
  induction k as [|k IH]; intros ls q; [destruct q; reflexivity|]. cbn [repeat app]. destruct q as [|x q]; cbn [eat length skipn Nat.leb]; [reflexivity|].
  apply IH.
Qed.

Definition lit (c : N) (n : bytes) : part := mkPart (hash_salt n c) 0.

Lemma walk_compiled c ls ps : compiled c ls ps -> (length ls < 255)%nat ->
  (forall n, In (Lit n) ls -> hash_salt n c <> Wildcard) ->
  forall post q, (length q < 256)%nat ->
  walk (ps ++ post) (map (lit c) q) = match eat c ls q with Some r => walk post (map (lit c) r) | None => None end.
Proof.
  induction 1 as [|n k ls ps H IH]; intros Hlen Hw post q Hq; [destruct q; reflexivity|].
  cbn [app eat]. destruct q as [|x q]; [reflexivity|]. rewrite eat_stars.
  cbn [length] in Hlen, Hq. rewrite app_length, repeat_length in Hlen.
  change (walk (?p :: ?r) ?qq) with (match wstep p qq with Some q => walk r q | None => None end).
  unfold wstep. cbn [map]. cbn [p_hash p_wild]. change (p_hash (lit c x)) with (hash_salt x c). change (p_wild (lit c x)) with 0.
  cbn [length]. rewrite map_length.
  assert (Hu1 : u8 (N.of_nat k + 1) = N.of_nat k + 1) by (unfold u8; apply N.mod_small; lia).
  assert (Hu2 : u8 (N.of_nat (S (length q))) = N.of_nat (S (length q))) by (unfold u8; apply N.mod_small; lia).
  rewrite Hu1, Hu2.
  assert (Hn : hash_salt n c <> Wildcard) by (apply Hw; now left).
  replace (hash_salt n c =? Wildcard) with false by lia.
  assert (IH' : forall q', (length q' <= length q)%nat -> walk (ps ++ post) (map (lit c) q') =
            match eat c ls q' with Some r => walk post (map (lit c) r) | None => None end).
  { intros q' Hq'. apply IH; [lia|intros n' Hin; apply Hw; right; apply in_or_app; now right|lia]. }
  destruct (N.eqb_spec (hash_salt n c) (hash_salt x c)) as [E|E]; cbn [andb]; [|reflexivity].
  destruct (N.eqb_spec 0 (N.of_nat k)) as [Ek|Ek].
  - assert (k = O) by lia. subst k. cbn [repeat Nat.leb skipn]. apply IH'. lia.
  - destruct (N.leb_spec (N.of_nat k + 1) (N.of_nat (S (length q)))) as [Hle|Hle].
    + replace (Nat.leb k (length q)) with true by lia.
      replace (N.to_nat (N.of_nat k + 1)) with (S k) by lia. cbn [skipn]. rewrite skipn_map. apply IH'. rewrite skipn_length. lia.
    + replace (Nat.leb k (length q)) with false by lia. reflexivity.
Qed.

Lemma compiled_static c names : exists ps, compiled c (map Lit names) ps /\ ps = map (lit c) names.
Proof.
  induction names as [|n names (ps & H & E)]; [exists []; split; [constructor|reflexivity]|].
  exists (lit c n :: ps). split; [|now rewrite E]. change (map Lit (n :: names)) with (Lit n :: repeat Star 0 ++ map Lit names).
  unfold lit. change 0 with (N.of_nat 0). now constructor.
Qed.

(** Parsing a static query; up to 255 levels. *)
Lemma loop_static c names : Forall name_ok names -> forall s, lp_wild s = 0 -> lp_star s = false ->
  let s' := fold_left (loop_step c) names s in
  lp_parts s' = lp_parts s ++ map (lit c) names /\ lp_wild s' = 0 /\ lp_star s' = false /\
  u8 (lp_depth s') = u8 (lp_depth s + N.of_nat (length names)) /\ (names <> [] -> lp_depth s' < 256).
Proof.
  induction 1 as [|n names Hn Hns IH]; intros s Hw Hs; cbn [fold_left map].
  - cbv zeta. rewrite app_nil_r, N.add_0_r. repeat split; auto. congruence.
  - cbv zeta. set (s1 := loop_step c s n).
    assert (E1 : s1 = mkLS (S (lp_idx s)) (lp_parts s ++ [lit c n]) 0 (lp_count s) (u8 (lp_depth s + 1)) false).
    { unfold s1, loop_step. rewrite name_suffix by exact Hn. rewrite Hw. cbn [N.eqb]. now rewrite Hs. }
    destruct (IH s1) as (Hp & Hw' & Hs' & Hd & Hlt); [now rewrite E1|now rewrite E1|].
    rewrite E1 in Hp, Hd. cbn [lp_parts lp_depth] in Hp, Hd. repeat split; auto.
    + rewrite E1, Hp, <- app_assoc. reflexivity.
    + rewrite E1, Hd. unfold u8. rewrite N.add_mod_idemp_l by lia. f_equal. cbn [length]. lia.
    + intros _. destruct names as [|n' names]; [|apply Hlt; discriminate]. cbn [fold_left]. rewrite E1. cbn. unfold u8. apply N.mod_lt. discriminate.
Qed.

Lemma filed_static c names txt : names <> [] -> Forall name_ok names -> (length names < 256)%nat ->
  spells txt (static names) ->
  fparts c txt = mkPart c 0 :: map (lit c) names /\ fdepth c txt = N.of_nat (length names) /\
  t_type (filed c txt) = TStatic.
Proof.
  intros Hne Hok Hlen Hs.
  assert (Hl : Forall level_ok (pt_levels (static names))) by (cbn; rewrite Forall_map; exact Hok).
  assert (Hmap : map level_text (map Lit names) = names) by (rewrite map_map; cbn; apply map_id).
  assert (Hwords : Forall word_ok names).
  { eapply Forall_impl; [|exact Hok]. intros n Hn. exact (level_word (Lit n) Hn). }
  assert (Htext : text (static names) = join names) by (unfold text, static; cbn; rewrite Hmap; apply app_nil_r).
  destruct (join_last names Hne Hwords) as (x & ch & E & Hch).
  assert (Htne : text (static names) <> []) by (rewrite Htext, E; destruct x; discriminate).
  pose proof (parse_key_spells txt _ Hs Htne Hl) as Hkey.
  unfold fparts, fdepth, filed, add_contract, parse_topic. destruct (parse_key txt) as [name opts]. cbn [fst] in Hkey.
  rewrite Hkey, Htext.
  assert (has_suffix (join names) [cDot; cDot; cDot] = false) as ->
    by (rewrite E; apply (has_suffix_last x ch [cDot; cDot]); exact Hch).
  rewrite fields_join by assumption.
  destruct (loop_static c names Hok (mkLS 0 [] 0 0 0 false) eq_refl eq_refl) as (Hp & Hw & Hst & Hd & Hlt).
  cbn [t_parts t_depth t_type]. rewrite Hw, Hst, Hp. cbn [lp_parts app N.eqb orb].
  repeat split. cbn [lp_depth] in Hd. rewrite N.add_0_l in Hd. unfold u8 in Hd.
  rewrite !N.mod_small in Hd; [exact Hd|change (2 ^ 8) with 256; lia|change (2 ^ 8) with 256; now apply Hlt].
Qed.

Lemma last_app_one {A} (l : list A) x d : last (l ++ [x]) d = x.
Proof. induction l as [|y l IH]; [reflexivity|]. cbn [app]. destruct (l ++ [x]) eqn:E; [destruct l; discriminate|]. exact IH. Qed.

Lemma wstep_wild x r : exists r2, wstep (mkPart Wildcard 0) (x :: r) = Some r2.
Proof.
  unfold wstep. cbn [p_hash p_wild]. rewrite N.eqb_refl. destruct (_ && _)%bool; [eauto|]. destruct (_ && _)%bool; eauto.
Qed.

(** Exactly the patterns that cover the query are found. *)
Lemma lookup_static t m c names txt h o : tries t m -> all_plain m -> c < 2 ^ 32 ->
  names <> [] -> Forall name_ok names -> (length names < 256)%nat -> spells txt (static names) ->
  (In (h, o) (find_topics t c txt) <->
   exists txt1 p, m h = Some (c, txt1, o) /\ spells txt1 p /\ plain c p /\
     covers (same_hash c) (pt_levels p) (pt_multi p) names).
Proof.
  intros Ht Hap Hc Hne Hok Hlen Hs. rewrite (tries_lookup t m c txt h o Ht).
  destruct (filed_static c names txt Hne Hok Hlen Hs) as (Hq & Hd & Hty). rewrite Hq, Hd, Hty. cbn [is_static].
  assert (Key : forall c1 txt1 p r, m h = Some (c1, txt1, o) -> spells txt1 p -> plain c1 p ->
    (walk (sparts c1 txt1) (mkPart c 0 :: map (lit c) names) = Some r ->
     hit true (N.of_nat (length names)) (ndep (t_root t) (sparts c1 txt1)) (last (sparts c1 txt1) (mkPart 0 0)) ->
     c1 = c /\ covers (same_hash c) (pt_levels p) (pt_multi p) names)).
  { intros c1 txt1 p r Hm Hs1 Hp1 Hw Hh. destruct (plain_ndep t m h c1 txt1 o Ht Hap Hm) as [Esp End]. rewrite Esp in Hw, Hh. rewrite End in Hh.
    destruct (filed_plain c1 p txt1 Hp1 Hs1) as (ps & Hcmp & Hfp & Hfd & _). rewrite Hfp in Hw.
    destruct Hp1 as (Hc1 & Hc1w & Hlok & Hfirst & Hl & Hnw).
    change (walk (?p :: ?r) ?qq) with (match wstep p qq with Some q => walk r q | None => None end) in Hw.
    cbn [wstep p_hash p_wild] in Hw. change (0 =? 0) with true in Hw. rewrite andb_true_r in Hw.
    replace (c1 =? Wildcard) with false in Hw by lia.
    destruct (N.eqb_spec c1 c) as [->|Hcc]; [|cbn [andb] in Hw; discriminate]. split; [reflexivity|].
    apply eat_covers. rewrite (walk_compiled c _ ps Hcmp ltac:(lia) Hnw _ names Hlen) in Hw.
    destruct (eat c (pt_levels p) names) as [r'|] eqn:Ee; [|discriminate]. exists r'. split; [reflexivity|].
    pose proof (eat_len c _ _ _ Ee) as HL. rewrite Hfd in Hh. unfold b2n in Hh. destruct (pt_multi p) eqn:Em.
    - intros ->. cbn in Hw. discriminate.
    - destruct Hh as [Hh|[_ Hh]].
      + destruct r'; [reflexivity|]. cbn [length] in HL. lia.
      + exfalso. rewrite Hfp, app_nil_r in Hh. destruct Hcmp as [|n k ls ps' Hcmp']; [cbn in Hh; contradiction|].
        assert (Hlast : forall l q, compiled c l q -> q <> [] -> exists n', In (Lit n') l /\ p_hash (last q (mkPart 0 0)) = hash_salt n' c).
        { clear. induction 1 as [|n k ls ps H IH]; intros Hne; [congruence|]. destruct ps as [|q ps].
          - exists n. split; [now left|reflexivity].
          - destruct IH as (n' & Hin & E); [discriminate|]. exists n'. split; [right; apply in_or_app; now right|exact E]. }
        destruct (Hlast _ _ (cp_lit c n k ls ps' Hcmp') ltac:(discriminate)) as (n' & Hin & E).
        cbn [last] in Hh. cbn [last] in E.
        apply (Hnw n' Hin). rewrite <- E. exact Hh. }
  split.
  - intros (c1 & txt1 & r & Hm & Hw & Hh). destruct (Hap _ _ _ _ Hm) as (p & Hs1 & Hp1).
    destruct (Key c1 txt1 p r Hm Hs1 Hp1 Hw Hh) as [-> Hcov]. exists txt1, p. auto.
  - intros (txt1 & p & Hm & Hs1 & Hp1 & Hcov). apply eat_covers in Hcov. destruct Hcov as (r & Ee & Hr).
    destruct (filed_plain c p txt1 Hp1 Hs1) as (ps & Hcmp & Hfp & Hfd & _).
    pose proof (eat_len c _ _ _ Ee) as HL.
    exists c, txt1. destruct (plain_ndep t m h c txt1 o Ht Hap Hm) as [-> ->]. rewrite Hfd, Hfp.
    destruct Hp1 as (Hc1 & Hc1w & Hlok & Hfirst & Hl & Hnw).
    change (walk (?p :: ?r) ?qq) with (match wstep p qq with Some q => walk r q | None => None end).
    cbn [wstep p_hash p_wild]. rewrite N.eqb_refl. cbn [andb]. change (0 =? 0) with true. cbv iota.
    rewrite (walk_compiled c _ ps Hcmp ltac:(lia) Hnw _ names Hlen), Ee. destruct (pt_multi p).
    + destruct r as [|x r]; [congruence|]. cbn [map].
      destruct (wstep_wild (lit c x) (map (lit c) r)) as [r2 Er2].
      change (walk [?p] ?qq) with (match wstep p qq with Some q => Some q | None => None end).
      exists r2. split; [exact Hm|]. rewrite Er2. split; [reflexivity|]. right. split; [reflexivity|].
      rewrite app_comm_cons, last_app_one. reflexivity.
    + subst r. exists []. split; [exact Hm|]. split; [reflexivity|]. left. cbn [length b2n] in *. lia.
Qed.
