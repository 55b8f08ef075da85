(** Topics for which the topic tree does not do what is documented. *)
From Verif Require Import M_Bytes M_Hash M_Topic M_Trie S_Trie P_Trie P_Topic P_Trie2.
From Coq Require Import Lia ZifyBool ZifyNat ZifyN.
Open Scope N_scope.

Definition put1 (t : trie) (c : N) (txt : bytes) (off : Z) : trie :=
  match stored c txt with
  | Some (ps, d) => fst (trie_add t (get_hash c (filed c txt), off) ps d)
  | None => t
  end.
Definition put1_ok (t : trie) (c : N) (txt : bytes) (off : Z) : bool :=
  match stored c txt with
  | Some (ps, d) => snd (trie_add t (get_hash c (filed c txt), off) ps d)
  | None => false
  end.
Lemma put1_tries t m c txt off : tries t m -> put1_ok t c txt off = true ->
  tries (put1 t c txt off) (tput m (get_hash c (filed c txt)) (c, txt, off)).
Proof.
  intros Ht Hok. unfold put1_ok in Hok. unfold put1. destruct (stored c txt) as [[ps d]|] eqn:E; [|discriminate].
  destruct (trie_add t (get_hash c (filed c txt), off) ps d) as [t' b] eqn:Ea. cbn [snd fst] in *. subst b.
  exact (tr_add t m c txt off ps d t' Ht E Ea).
Qed.

Definition master : N := 3376684800.
Definition tA : bytes := [97].
Definition tB : bytes := [98].
Definition tD : bytes := [100].
Definition tX : bytes := [120].

Lemma name_ok_dec n : (match n with [] => false | _ => true end && forallb (fun c => negb (c =? cDot) && negb (c =? cQuest) && negb (c =? cStar)) n)%bool = true -> name_ok n.
Proof.
  intros H. apply andb_prop in H. destruct H as [H1 H2]. split; [destruct n; congruence|].
  rewrite Forall_forall. rewrite forallb_forall in H2. intros x Hx. specialize (H2 x Hx). lia.
Qed.

(** 256 levels *)
Definition long : list bytes := repeat tA 256.
Lemma long_lost : exists ps d, stored master (text (static long)) = Some (ps, d) /\
  length ps = 1%nat /\ length (t_parts (filed master (text (static long)))) = 257%nat.
Proof.
  assert (E : stored master (text (static long)) = Some ([mkPart master 0], 0)) by (vm_compute; reflexivity).
  exists [mkPart master 0], 0. split; [exact E|]. split; [reflexivity|]. vm_compute. reflexivity.
Qed.

(** "*.b.d" and then "*.b.*.d" *)
Definition star1 : pattern := mkPattern [Star; Lit tB; Lit tD] false.
Definition star2 : pattern := mkPattern [Star; Lit tB; Star; Lit tD] false.
Definition trie12 : trie := put1 (put1 newTrie master (text star1) 0) master (text star2) 0.
Definition h_of (p : pattern) : N := get_hash master (filed master (text p)).
Definition m12 : tghost := tput (tput (fun _ => None) (h_of star1) (master, text star1, 0%Z)) (h_of star2) (master, text star2, 0%Z).
Lemma trie12_ok : tries trie12 m12.
Proof. apply put1_tries; [apply put1_tries; [constructor|]|]; vm_compute; reflexivity. Qed.
Lemma star1_lost : m12 (h_of star1) = Some (master, text star1, 0%Z) /\
  find_topics trie12 master (text star1) = [].
Proof. split; vm_compute; reflexivity. Qed.

(** "*.b" *)
Definition star3 : pattern := mkPattern [Star; Lit tB] false.
Definition trie3 : trie := put1 newTrie master (text star3) 0.
Definition m3 : tghost := tput (fun _ => None) (h_of star3) (master, text star3, 0%Z).
Lemma trie3_ok : tries trie3 m3.
Proof. apply put1_tries; [constructor|vm_compute; reflexivity]. Qed.
Lemma star3_missed : m3 (h_of star3) = Some (master, text star3, 0%Z) /\
  find_topics trie3 master (text (static [tA; tB])) = [] /\
  In (h_of star3, 0%Z) (find_topics trie3 master (text (static [tB; tX]))).
Proof. split; [vm_compute; reflexivity|]. split; [vm_compute; reflexivity|]. vm_compute. now left. Qed.

(** "a.b" and "b.a" *)
Definition ab : list bytes := [tA; tB].
Definition ba : list bytes := [tB; tA].
Definition trie_ab : trie := put1 newTrie master (text (static ab)) 0.
Definition m_ab : tghost := tput (fun _ => None) (h_of (static ab)) (master, text (static ab), 0%Z).
Lemma trie_ab_ok : tries trie_ab m_ab.
Proof. apply put1_tries; [constructor|vm_compute; reflexivity]. Qed.
Lemma ab_ba : h_of (static ab) = h_of (static ba) /\
  In (h_of (static ba), 0%Z) (find_topics trie_ab master (text (static ab))) /\
  put1 trie_ab master (text (static ba)) 0 = trie_ab /\
  find_topics trie_ab master (text (static ba)) = [].
Proof. split; [vm_compute; reflexivity|]. split; [vm_compute; now left|]. split; vm_compute; reflexivity. Qed.

(** The contract equal to the wildcard value. *)
Definition ax : list bytes := [tA; tX].
Definition trie_w : trie := put1 newTrie Wildcard (text (static ax)) 0.
Definition h_w : N := get_hash Wildcard (filed Wildcard (text (static ax))).
Definition m_w : tghost := tput (fun _ => None) h_w (Wildcard, text (static ax), 0%Z).
Lemma trie_w_ok : tries trie_w m_w.
Proof. apply put1_tries; [constructor|vm_compute; reflexivity]. Qed.
Lemma w_leaks : hash_salt tA 0 <> Wildcard /\ hash_salt tA 0 < 2 ^ 32 /\
  In (h_w, 0%Z) (find_topics trie_w (hash_salt tA 0) (text (static [tX; tB]))).
Proof. split; [vm_compute; congruence|]. split; [vm_compute; reflexivity|]. vm_compute. now left. Qed.

(** Isolation when the tree holds the topic under its own text. *)
Lemma covers_static c ns : forall q, covers (same_hash c) (map Lit ns) false q -> Forall2 (same_hash c) ns q.
Proof.
  induction ns as [|n ns IH]; intros [|x q] H; cbn [map covers] in H; try contradiction; try discriminate; [constructor|].
  destruct H. constructor; auto.
Qed.
Lemma static_spells names txt p : spells txt (static names) -> Forall name_ok names -> names <> [] ->
  Forall level_ok (pt_levels p) -> text p <> [] -> spells txt p -> text p = text (static names).
Proof.
  intros Hs Hn Hne Hl Ht Hp.
  assert (Hl' : Forall level_ok (pt_levels (static names))) by (cbn; rewrite Forall_map; exact Hn).
  rewrite <- (parse_key_spells txt p Hp Ht Hl). apply parse_key_spells; auto.
  intros E. assert (Hw : Forall word_ok names) by (eapply Forall_impl; [|exact Hn]; intros n H; exact (level_word (Lit n) H)).
  destruct (join_last names Hne Hw) as (x & ch & E' & _). unfold text, static in E. cbn [pt_levels pt_multi] in E.
  rewrite map_map, map_id, app_nil_r in E. rewrite E in E'. destruct x; discriminate.
Qed.
Lemma map_lit_inj ls ns : map level_text ls = ns -> Forall name_ok ns -> ls = map Lit ns.
Proof.
  intros <-. induction ls as [|l ls IH]; cbn [map]; intros H; [reflexivity|]. inversion H as [|? ? Hl Hls]; subst.
  rewrite <- IH by assumption. destruct l as [n|]; [reflexivity|]. exfalso. destruct Hl as [_ Hl]. inversion Hl as [|? ? (_ & _ & Hs) _]. now apply Hs.
Qed.
Lemma text_static p names : Forall level_ok (pt_levels p) -> Forall name_ok names -> names <> [] ->
  text p = text (static names) -> p = static names.
Proof.
  intros Hl Hn Hne E.
  assert (Hw : Forall word_ok names) by (eapply Forall_impl; [|exact Hn]; intros n H; exact (level_word (Lit n) H)).
  assert (Hwl : Forall word_ok (map level_text (pt_levels p))) by (rewrite Forall_map; eapply Forall_impl; [|exact Hl]; apply level_word).
  assert (Et : text (static names) = join names) by (unfold text, static; cbn; rewrite map_map, map_id; apply app_nil_r).
  rewrite Et in E. destruct p as [ls multi]. unfold text in E. cbn [pt_levels pt_multi] in *. destruct multi.
  - exfalso. destruct (join_last names Hne Hw) as (x & ch & E' & Hch). rewrite E' in E.
    change (join (map level_text ls) ++ [cDot; cDot; cDot]) with (join (map level_text ls) ++ [cDot; cDot] ++ [cDot]) in E.
    rewrite app_assoc in E. apply app_inj_tail in E. destruct E as [_ E]. congruence.
  - rewrite app_nil_r in E. apply (f_equal (fields cDot)) in E. rewrite !fields_join in E by assumption.
    unfold static. f_equal. now apply map_lit_inj.
Qed.

Lemma isolated t m c1 names1 txt1 c names txt h o : tries t m -> all_plain m ->
  names1 <> [] -> Forall name_ok names1 -> spells txt1 (static names1) ->
  c < 2 ^ 32 -> names <> [] -> Forall name_ok names -> (length names < 256)%nat -> spells txt (static names) ->
  m h = Some (c1, txt1, o) -> In (h, o) (find_topics t c txt) ->
  c1 = c /\ Forall2 (same_hash c) names1 names.
Proof.
  intros Ht Hap Hne1 Hok1 Hs1 Hc Hne Hok Hlen Hs Hm Hin.
  apply (lookup_static t m c names txt h o Ht Hap Hc Hne Hok Hlen Hs) in Hin.
  destruct Hin as (txt1' & p & Hm' & Hsp & Hpl & Hcov).
  assert (c1 = c /\ txt1' = txt1) as [-> ->] by (rewrite Hm in Hm'; split; congruence). split; [reflexivity|].
  assert (Hl : Forall level_ok (pt_levels p)) by apply Hpl.
  assert (E : p = static names1).
  { apply text_static; auto. apply (static_spells names1 txt1 p); auto. exact (text_ne c p Hpl). }
  subst p. now apply covers_static.
Qed.
