(** Proofs about topic texts and their parts. *)
From Verif Require Import M_Bytes P_Bytes M_Hash M_Topic M_Trie S_Trie.
From Coq Require Import Lia ZifyBool ZifyNat ZifyN.
Open Scope N_scope.

(** * Splitting *)
Lemma fields_word sep w : forall cur r, Forall (fun c => c <> sep) w ->
  fields_loop sep cur (w ++ r) = fields_loop sep (rev w ++ cur) r.
Proof.
  induction w as [|c w IH]; intros cur r H; [reflexivity|]. inversion H; subst. cbn [app fields_loop].
  destruct (N.eqb_spec c sep); [contradiction|]. rewrite IH by assumption. cbn [rev]. now rewrite <- app_assoc.
Qed.
Lemma fields_sep sep cur r : cur <> [] -> fields_loop sep cur (sep :: r) = rev cur :: fields sep r.
Proof. intros H. cbn [fields_loop]. rewrite N.eqb_refl. destruct cur; [congruence|reflexivity]. Qed.
Lemma rev_ne {A} (l : list A) : l <> [] -> rev l <> [].
Proof. intros H E. apply H. rewrite <- (rev_involutive l), E. reflexivity. Qed.

Lemma fields_one sep w : w <> [] -> Forall (fun c => c <> sep) w -> fields sep w = [w].
Proof.
  intros Hne H. unfold fields. rewrite <- (app_nil_r w) at 1. rewrite fields_word, app_nil_r by assumption.
  cbn [fields_loop]. pose proof (rev_ne w Hne). destruct (rev w) eqn:E; [congruence|]. rewrite <- E. now rewrite rev_involutive.
Qed.
Lemma fields_two sep w r : w <> [] -> Forall (fun c => c <> sep) w -> fields sep (w ++ sep :: r) = w :: fields sep r.
Proof.
  intros Hne H. unfold fields at 1. rewrite fields_word, app_nil_r by assumption.
  rewrite fields_sep by now apply rev_ne. now rewrite rev_involutive.
Qed.

Definition word_ok (w : bytes) : Prop := w <> [] /\ Forall (fun c => c <> cDot /\ c <> cQuest) w.
Lemma word_nodot w : word_ok w -> Forall (fun c => c <> cDot) w.
Proof. intros [_ H]. eapply Forall_impl; [|exact H]. cbn. tauto. Qed.
Lemma word_noquest w : word_ok w -> Forall (fun c => c <> cQuest) w.
Proof. intros [_ H]. eapply Forall_impl; [|exact H]. cbn. tauto. Qed.
Lemma level_word l : level_ok l -> word_ok (level_text l).
Proof.
  destruct l as [n|]; cbn.
  - intros [H1 H2]. split; [exact H1|]. eapply Forall_impl; [|exact H2]. cbn. tauto.
  - intros _. split; [discriminate|]. repeat constructor; discriminate.
Qed.

Lemma join_cons w w' ws : join (w :: w' :: ws) = w ++ cDot :: join (w' :: ws).
Proof. reflexivity. Qed.

Lemma fields_join ws : Forall word_ok ws -> fields cDot (join ws) = ws.
Proof.
  induction ws as [|w ws IH]; intros H; [reflexivity|]. inversion H as [|? ? Hw Hws]; subst.
  destruct ws as [|w' ws].
  - cbn [join]. apply fields_one; [apply Hw|now apply word_nodot].
  - rewrite join_cons, fields_two; [|apply Hw|now apply word_nodot]. f_equal. now apply IH.
Qed.
Lemma join_noquest ws : Forall word_ok ws -> Forall (fun c => c <> cQuest) (join ws).
Proof.
  induction ws as [|w ws IH]; intros H; [constructor|]. inversion H as [|? ? Hw Hws]; subst.
  destruct ws as [|w' ws]; [now apply word_noquest|]. rewrite join_cons.
  apply Forall_app. split; [now apply word_noquest|]. constructor; [discriminate|now apply IH].
Qed.
(** The last character of a joined text is not a dot. *)
Lemma join_last ws : ws <> [] -> Forall word_ok ws -> exists x c, join ws = x ++ [c] /\ c <> cDot.
Proof.
  induction ws as [|w ws IH]; intros Hne H; [congruence|]. inversion H as [|? ? Hw Hws]; subst.
  destruct ws as [|w' ws].
  - cbn [join]. destruct Hw as [Hwne Hw]. destruct (exists_last Hwne) as (x & c & ->). exists x, c. split; [reflexivity|].
    apply Forall_app in Hw. destruct Hw as [_ Hc]. inversion Hc; tauto.
  - destruct IH as (x & c & E & Hc); [discriminate|assumption|]. rewrite join_cons, E. exists (w ++ cDot :: x), c. split; [|exact Hc].
    now rewrite <- app_assoc.
Qed.

Lemma has_suffix_app l s : has_suffix (l ++ s) s = true.
Proof.
  unfold has_suffix. rewrite app_length. replace (length l + length s - length s)%nat with (length l) by lia.
  rewrite skipn_app, skipn_all, Nat.sub_diag. cbn [skipn app]. destruct (list_eq_dec N.eq_dec s s); [lia|congruence].
Qed.
Lemma has_suffix_last l c s d : c <> d -> has_suffix (l ++ [c]) (s ++ [d]) = false.
Proof.
  intros H. unfold has_suffix. rewrite !app_length. cbn [length].
  destruct (list_eq_dec N.eq_dec (skipn _ (l ++ [c])) (s ++ [d])) as [E|]; [|reflexivity].
  exfalso. replace (length l + 1 - (length s + 1))%nat with (length l - length s)%nat in E by lia.
  rewrite skipn_app in E. replace (length l - length s - length l)%nat with O in E by lia. cbn [skipn] in E.
  apply app_inj_tail in E. destruct E. contradiction.
Qed.
Lemma trim_app l c : c <> cDot -> trim_right_dots ((l ++ [c]) ++ [cDot; cDot; cDot]) = l ++ [c].
Proof.
  intros H. unfold trim_right_dots. rewrite !rev_app_distr. cbn [rev app drop_dots].
  rewrite N.eqb_refl. destruct (N.eqb_spec c cDot); [contradiction|]. cbn [rev]. now rewrite rev_involutive.
Qed.

(** The key of a spelled topic is its text without options. *)
Lemma text_noquest p : Forall level_ok (pt_levels p) -> Forall (fun c => c <> cQuest) (text p).
Proof.
  intros H. unfold text. apply Forall_app. split.
  - apply join_noquest. rewrite Forall_map. eapply Forall_impl; [|exact H]. intros l. apply level_word.
  - destruct (pt_multi p); repeat constructor; discriminate.
Qed.
Lemma parse_key_spells txt p : spells txt p -> text p <> [] -> Forall level_ok (pt_levels p) ->
  fst (parse_key txt) = text p.
Proof.
  intros Hs Hne Hl. pose proof (text_noquest p Hl) as Hq. unfold parse_key. destruct Hs as [->|[o ->]].
  - now rewrite fields_one.
  - rewrite fields_two by assumption. destruct (fields cQuest o); reflexivity.
Qed.

(** * Parts of a pattern whose first level is a name *)
(** Number of "*" at the front, and the rest. *)
Fixpoint stars (ls : list level) : nat * list level :=
  match ls with
  | Star :: r => let (k, t) := stars r in (S k, t)
  | _ => (O, ls)
  end.
Lemma stars_spec ls : let (k, t) := stars ls in ls = repeat Star k ++ t /\ match t with Star :: _ => False | _ => True end.
Proof.
  induction ls as [|[n|] ls IH]; cbn [stars]; [split; auto|split; auto|].
  destruct (stars ls) as [k t]. destruct IH as [-> Ht]. split; [reflexivity|exact Ht].
Qed.

Inductive compiled (c : N) : list level -> list part -> Prop :=
| cp_nil : compiled c [] []
| cp_lit n k ls ps : compiled c ls ps ->
    compiled c (Lit n :: repeat Star k ++ ls) (mkPart (hash_salt n c) (N.of_nat k) :: ps).

(** State of the loop after levels that end with a name followed by [k] stars. *)
Definition after (c : N) (s : lstate) (d0 : N) (ls : list level) (ps0 : list part) (h : N) (k : nat) : Prop :=
  (exists l0 n, ls = l0 ++ Lit n :: repeat Star k /\ compiled c l0 ps0 /\ h = hash_salt n c) /\
  lp_idx s = length ls /\ lp_parts s = ps0 ++ [mkPart h 0] /\ lp_wild s = N.of_nat k /\
  (lp_count s + length ps0 + 1 = length ls)%nat /\ lp_depth s = d0 + N.of_nat (length ls).

Lemma compiled_app c l1 p1 : compiled c l1 p1 -> forall n k, 
  compiled c (l1 ++ Lit n :: repeat Star k) (p1 ++ [mkPart (hash_salt n c) (N.of_nat k)]).
Proof.
  induction 1 as [|n' k' ls ps H IH]; intros n k; cbn [app].
  - rewrite <- (app_nil_r (repeat Star k)). repeat constructor.
  - rewrite <- app_assoc. constructor. apply IH.
Qed.

Lemma star_suffix : has_suffix [cStar] [cStar] = true. Proof. reflexivity. Qed.
Lemma name_suffix n : name_ok n -> has_suffix n [cStar] = false.
Proof.
  intros [Hne H]. destruct (exists_last Hne) as (x & c & ->). apply Forall_app in H. destruct H as [_ Hc].
  inversion Hc; subst. apply (has_suffix_last x c []). tauto.
Qed.

Lemma set_wild_last ps q w : set_wild (ps ++ [q]) (length ps) w = ps ++ [mkPart (p_hash q) w].
Proof.
  unfold set_wild. rewrite nth_error_app2, Nat.sub_diag by lia. cbn [nth_error]. unfold update.
  rewrite firstn_app, firstn_all, Nat.sub_diag, skipn_app, skipn_all, Nat.sub_diag. cbn [firstn skipn app]. now rewrite app_nil_r.
Qed.
Lemma set_wild_last2 ps q r w : set_wild (ps ++ [q; r]) (length ps) w = ps ++ [mkPart (p_hash q) w; r].
Proof.
  unfold set_wild. rewrite nth_error_app2, Nat.sub_diag by lia. cbn [nth_error]. unfold update.
  rewrite firstn_app, firstn_all, Nat.sub_diag, skipn_app, skipn_all, Nat.sub_diag. cbn [firstn skipn app]. now rewrite app_nil_r.
Qed.

Lemma loop_after c d0 ls2 : forall s ls ps0 h k, Forall level_ok ls2 ->
  d0 <= 1 -> (length ls + length ls2 < 255)%nat -> after c s d0 ls ps0 h k ->
  exists s' ps' h' k', fold_left (loop_step c) (map level_text ls2) s = s' /\ after c s' d0 (ls ++ ls2) ps' h' k' /\
    lp_star s' = (lp_star s || existsb (fun l => match l with Star => true | _ => false end) ls2)%bool.
Proof.
  induction ls2 as [|l ls2 IH]; intros s ls ps0 h k Hok Hd Hlen Haf; cbn [map fold_left].
  - exists s, ps0, h, k. rewrite app_nil_r. cbn. rewrite orb_false_r. auto.
  - inversion Hok as [|? ? Hl Hok']; subst. cbn [length] in Hlen.
    destruct Haf as ((l0 & n0 & El & Hcmp & Hh) & Hidx & Hparts & Hwild & Hcount & Hdep).
    assert (Hk : (k < length ls)%nat) by (rewrite El, app_length; cbn [length]; rewrite repeat_length; lia).
    assert (Hstep : exists ps1 h1 k1, after c (loop_step c s (level_text l)) d0 (ls ++ [l]) ps1 h1 k1 /\
              lp_star (loop_step c s (level_text l)) = (lp_star s || match l with Star => true | _ => false end)%bool).
    { destruct l as [n|]; cbn [level_text].
      - exists (ps0 ++ [mkPart h (N.of_nat k)]), (hash_salt n c), O.
        unfold loop_step. rewrite name_suffix by exact Hl. rewrite Hwild, Hidx, Hparts, Hdep.
        assert (Hd8 : u8 (d0 + N.of_nat (length ls) + 1) = d0 + N.of_nat (length (ls ++ [Lit n]))).
        { rewrite app_length; cbn [length]. unfold u8. rewrite N.mod_small; lia. }
        assert (Hex : exists l1 m, ls ++ [Lit n] = l1 ++ Lit m :: repeat Star 0 /\ compiled c l1 (ps0 ++ [mkPart h (N.of_nat k)])
                        /\ hash_salt n c = hash_salt m c).
        { exists ls, n. split; [reflexivity|]. split; [|reflexivity]. rewrite El, Hh. now apply compiled_app. }
        destruct (N.of_nat k =? 0) eqn:Ek; cbn [lp_star].
        + split; [|now rewrite orb_false_r]. repeat split; cbn [lp_idx lp_parts lp_wild lp_count lp_depth].
          * exact Hex.
          * rewrite app_length; cbn [length]; lia.
          * replace (N.of_nat k) with 0 by lia. reflexivity.
          * rewrite !app_length; cbn [length]; lia.
          * exact Hd8.
        + split; [|now rewrite orb_false_r]. repeat split; cbn [lp_idx lp_parts lp_wild lp_count lp_depth].
          * exact Hex.
          * rewrite app_length; cbn [length]; lia.
          * replace (Nat.leb (lp_count s + 1) (length ls)) with true by lia.
            replace (length ls - lp_count s - 1)%nat with (length ps0) by lia.
            rewrite <- app_assoc. cbn [app]. rewrite set_wild_last2. now rewrite <- app_assoc.
          * rewrite !app_length; cbn [length]; lia.
          * exact Hd8.
      - exists ps0, h, (S k). unfold loop_step. rewrite star_suffix. cbn [lp_star]. split; [|now rewrite orb_true_r].
        rewrite Hwild, Hidx, Hparts, Hdep.
        repeat split; cbn [lp_idx lp_parts lp_wild lp_count lp_depth].
        + exists l0, n0. split; [|auto]. rewrite El, <- app_assoc. cbn [app]. f_equal. f_equal.
          change (repeat Star (S k)) with (Star :: repeat Star k). apply eq_sym, repeat_cons.
        + rewrite app_length; cbn [length]; lia.
        + now replace (Nat.eqb (length ls) 0) with false by lia.
        + unfold u8. rewrite N.mod_small; lia.
        + rewrite app_length; cbn [length]; lia.
        + rewrite app_length; cbn [length]. unfold u8. rewrite N.mod_small; lia. }
    destruct Hstep as (ps1 & h1 & k1 & Haf1 & Hst1).
    destruct (IH (loop_step c s (level_text l)) (ls ++ [l]) ps1 h1 k1) as (s' & ps' & h' & k' & E & Haf' & Hst'); auto.
    { rewrite app_length; cbn [length]; lia. }
    exists s', ps', h', k'. split; [exact E|]. split; [now rewrite <- app_assoc in Haf'|].
    rewrite Hst', Hst1. cbn [existsb]. now rewrite orb_assoc.
Qed.

Definition has_star (ls : list level) : bool := existsb (fun l => match l with Star => true | _ => false end) ls.
Definition b2n (b : bool) : N := if b then 1 else 0.

Lemma text_ne c p : plain c p -> text p <> [].
Proof.
  intros (_ & _ & Hok & Hf & _). unfold text. destruct (pt_levels p) as [|l ls]; [rewrite Hf; discriminate|].
  cbn [map]. inversion Hok as [|? ? Hl Hok']; subst. pose proof (proj1 (level_word l Hl)) as Hne.
  destruct (level_text l) as [|x y]; [congruence|]. destruct (map level_text ls); discriminate.
Qed.

Lemma parse_plain c p txt : plain c p -> spells txt p ->
  exists ps, compiled c (pt_levels p) ps /\
    t_parts (parse_topic c txt) = ps ++ (if pt_multi p then [mkPart Wildcard 0] else []) /\
    t_depth (parse_topic c txt) = N.of_nat (length (pt_levels p)) + b2n (pt_multi p) /\
    t_type (parse_topic c txt) = (if (pt_multi p || has_star (pt_levels p))%bool then TWildcard else TStatic).
Proof.
  intros Hp Hs. pose proof (text_ne c p Hp) as Hne. destruct Hp as (Hc1 & Hc2 & Hok & Hf & Hlen & Hw).
  pose proof (parse_key_spells txt p Hs Hne Hok) as Hkey. unfold parse_topic.
  destruct (parse_key txt) as [name opts]. cbn [fst] in Hkey. subst name.
  assert (Hwords : Forall word_ok (map level_text (pt_levels p)))
    by (rewrite Forall_map; eapply Forall_impl; [|exact Hok]; intros l; apply level_word).
  assert (Hname : has_suffix (text p) [cDot; cDot; cDot] = pt_multi p /\
    fields cDot (if has_suffix (text p) [cDot; cDot; cDot] then trim_right_dots (text p) else text p) = map level_text (pt_levels p)).
  { unfold text in *. destruct (pt_multi p) eqn:Em.
    - rewrite has_suffix_app. split; [reflexivity|].
      destruct (pt_levels p) as [|l ls] eqn:El; [reflexivity|].
      destruct (join_last (map level_text (l :: ls))) as (x & ch & E & Hch); [discriminate|assumption|].
      rewrite E, trim_app, <- E by exact Hch. now apply fields_join.
    - rewrite app_nil_r in *. destruct (pt_levels p) as [|l ls] eqn:El; [cbn in Hne; congruence|].
      destruct (join_last (map level_text (l :: ls))) as (x & ch & E & Hch); [discriminate|assumption|].
      assert (has_suffix (join (map level_text (l :: ls))) [cDot; cDot; cDot] = false) as ->
        by (rewrite E; apply (has_suffix_last x ch [cDot; cDot]); exact Hch).
      split; [reflexivity|]. now apply fields_join. }
  destruct Hname as [Hm Hfl]. rewrite Hfl, Hm. clear Hfl Hm.
  set (s0 := mkLS 0 [] 0 0 (if pt_multi p then 1 else 0) false).
  destruct (pt_levels p) as [|l ls] eqn:El.
  - cbn [map fold_left]. unfold s0. cbn. exists []. split; [constructor|]. rewrite Hf. cbn. auto.
  - destruct l as [n|]; [|contradiction]. cbn [map fold_left level_text].
    inversion Hok as [|? ? Hn Hok']; subst.
    assert (Haf : after c (loop_step c s0 n) (b2n (pt_multi p)) [Lit n] [] (hash_salt n c) 0 /\ lp_star (loop_step c s0 n) = false).
    { unfold loop_step, s0. rewrite name_suffix by exact Hn. cbn. split; [|reflexivity]. repeat split; cbn.
      - exists [], n. split; [reflexivity|]. split; [constructor|reflexivity].
      - destruct (pt_multi p); reflexivity. }
    destruct Haf as [Haf Hst]. cbn [length] in Hlen.
    destruct (loop_after c (b2n (pt_multi p)) ls (loop_step c s0 n) [Lit n] [] (hash_salt n c) O Hok' ltac:(destruct (pt_multi p); cbn; lia) ltac:(cbn [length]; lia) Haf)
      as (s' & ps' & h' & k' & E & Haf' & Hst').
    cbn [app] in Haf'. rewrite E. rewrite Hst in Hst'. cbn [orb] in Hst'.
    destruct Haf' as ((l0 & n0 & El0 & Hcmp & Hh) & Hidx & Hparts & Hwild & Hcount & Hdep).
    exists (ps' ++ [mkPart h' (N.of_nat k')]). split; [rewrite El0, Hh; now apply compiled_app|].
    cbn [t_parts t_depth t_type]. rewrite Hst', Hdep, Hwild, Hparts. split; [|split; [lia|reflexivity]].
    assert (Ewild : (if N.of_nat k' =? 0 then ps' ++ [mkPart h' 0]
       else set_wild (ps' ++ [mkPart h' 0]) (length (ps' ++ [mkPart h' 0]) - 1) (N.of_nat k')) = ps' ++ [mkPart h' (N.of_nat k')]).
    { destruct (N.of_nat k' =? 0) eqn:Ek; [now replace (N.of_nat k') with 0 by lia|].
      rewrite app_length. cbn [length]. replace (length ps' + 1 - 1)%nat with (length ps') by lia. apply set_wild_last. }
    rewrite Ewild. destruct (pt_multi p); [reflexivity|now rewrite app_nil_r].
Qed.
