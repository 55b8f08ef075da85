(** Topics: stored form, lookup, wildcards, isolation. *)
From Verif Require Import M_Bytes M_Hash M_Topic M_Trie S_Trie P_Trie2 P_TopicCut P_Trie3 M_TrieConc P_TrieConc.
From Coq Require Import Lia.
Open Scope N_scope.

(** C06.  Any text with fewer than 255 dots, whatever else it contains. *)
Theorem C06_roundtrip_partial : forall c txt, c < 2 ^ 32 -> (count_occ N.eq_dec txt cDot < 255)%nat ->
  topic_unmarshal (topic_marshal (t_parts (filed c txt)) (t_depth (filed c txt))) =
  Some (t_parts (filed c txt), t_depth (filed c txt)).
Proof. exact stored_same. Qed.
Print Assumptions C06_roundtrip_partial.
Example C06_example : stored master (text star2) = Some ([mkPart master 0; mkPart Wildcard 1; mkPart 1964278601 0; mkPart 2887970415 0], 4).
Proof. vm_compute. reflexivity. Qed.

(** With 256 levels only the contract is read back. *)
Theorem C06_refuted : exists ps d, stored master (text (static long)) = Some (ps, d) /\
  length ps = 1%nat /\ length (t_parts (filed master (text (static long)))) = 257%nat.
Proof. exact long_lost. Qed.
Print Assumptions C06_refuted.

(** Whatever was stored, data that ends inside a part is refused (by a panic), and
    data that ends between two parts is taken for a shorter topic. *)
Theorem C06_cut : forall ps depth k, Forall (fun p => p_hash p < 2 ^ 32 /\ p_wild p < 256) ps -> N.of_nat (length ps) <= depth + 1 -> (k <= 5 * length ps)%nat ->
  topic_unmarshal (firstn (S k) (topic_marshal ps depth)) = if Nat.eqb (k mod 5) 0 then Some (firstn (k / 5) ps, depth) else None.
Proof. exact topic_cut. Qed.
Print Assumptions C06_cut.
Example C06_cut_example : let ps := [mkPart master 0; mkPart Wildcard 1; mkPart 1964278601 0; mkPart 2887970415 0] in
  topic_unmarshal (firstn 11 (topic_marshal ps 4)) = Some ([mkPart master 0; mkPart Wildcard 1], 4) /\ topic_unmarshal (firstn 15 (topic_marshal ps 4)) = None.
Proof. vm_compute. auto. Qed.

(** C19.  A filed topic is found under its text, and its newest offset is kept. *)
Theorem C19_found_partial : forall t m h c txt o, tries t m -> all_plain m -> m h = Some (c, txt, o) ->
  In (h, o) (find_topics t c txt).
Proof. exact lookup_self. Qed.
Print Assumptions C19_found_partial.

Theorem C19_offset : forall t m h, tries t m ->
  getOffset t h = match m h with Some (_, _, o) => Some o | None => None end.
Proof. exact tries_offset. Qed.
Print Assumptions C19_offset.

(** "*.b.d" is lost when "*.b.*.d" is put after it. *)
Theorem C19_refuted : exists t m h c p o, tries t m /\ m h = Some (c, text p, o) /\ find_topics t c (text p) = [].
Proof. exists trie12, m12, (h_of star1), master, star1, 0%Z. exact (conj trie12_ok star1_lost). Qed.
Print Assumptions C19_refuted.

(** C20.  A query without wildcards finds exactly the filed patterns that cover it. *)
Theorem C20_lookup_partial : forall t m c names txt h o, tries t m -> all_plain m -> c < 2 ^ 32 ->
  names <> [] -> Forall name_ok names -> (length names < 256)%nat -> spells txt (static names) ->
  (In (h, o) (find_topics t c txt) <->
   exists txt1 p, m h = Some (c, txt1, o) /\ spells txt1 p /\ plain c p /\
     covers (same_hash c) (pt_levels p) (pt_multi p) names).
Proof. exact lookup_static. Qed.
Print Assumptions C20_lookup_partial.

(** "a.*.b" and "a..." *)
Definition ex_p1 : pattern := mkPattern [Lit tA; Star; Lit tB] false.
Definition ex_p2 : pattern := mkPattern [Lit tA] true.
Definition ex_trie : trie := put1 (put1 newTrie master (text ex_p1) 0) master (text ex_p2) 5.
Example C20_example :
  find_topics ex_trie master (text (static [tA; tX; tB])) = [(h_of ex_p1, 0%Z); (h_of ex_p2, 5%Z)] /\
  find_topics ex_trie master (text (static [tA; tX])) = [(h_of ex_p2, 5%Z)] /\
  find_topics ex_trie master (text (static [tB; tX; tB])) = [].
Proof. vm_compute. auto. Qed.
Example C20_example_plain : plain master ex_p1 /\ plain master ex_p2 /\
  tries ex_trie (tput (tput (fun _ => None) (h_of ex_p1) (master, text ex_p1, 0%Z)) (h_of ex_p2) (master, text ex_p2, 5%Z)).
Proof.
  split; [|split].
  - split; [reflexivity|]. split; [vm_compute; congruence|]. split; [|split; [first [exact I|reflexivity]|split]].
    + repeat (apply Forall_cons; [first [exact I|apply name_ok_dec; reflexivity]|]); apply Forall_nil.
    + cbn. lia.
    + intros n [E|[E|[E|[]]]]; try discriminate; assert (n = tA \/ n = tB) as [-> | ->] by (inversion E; auto); vm_compute; congruence.
  - split; [reflexivity|]. split; [vm_compute; congruence|]. split; [|split; [first [exact I|reflexivity]|split]].
    + repeat (apply Forall_cons; [first [exact I|apply name_ok_dec; reflexivity]|]); apply Forall_nil.
    + cbn. lia.
    + intros n [E|[]]; assert (n = tA) as -> by (inversion E; auto); vm_compute; congruence.
  - apply put1_tries; [apply put1_tries; [constructor|]|]; vm_compute; reflexivity.
Qed.

(** "*.b" is not found for "a.b", and is found for "b.x". *)
Theorem C20_refuted : exists t m h c p o q1 q2, tries t m /\ m h = Some (c, text p, o) /\
  (covers eq (pt_levels p) (pt_multi p) q1 /\ find_topics t c (text (static q1)) = []) /\
  (~ covers (same_hash c) (pt_levels p) (pt_multi p) q2 /\ In (h, o) (find_topics t c (text (static q2)))).
Proof.
  exists trie3, m3, (h_of star3), master, star3, 0%Z, [tA; tB], [tB; tX].
  destruct star3_missed as (H1 & H2 & H3). split; [exact trie3_ok|]. split; [exact H1|]. split; [split; [|exact H2]|split; [|exact H3]].
  - repeat split.
  - intros (E & _). revert E. vm_compute. discriminate.
Qed.
Print Assumptions C20_refuted.

(** C21.  A topic filed under its own text is found only by queries of its
    contract that agree with it level by level, up to the hash of a level. *)
Theorem C21_isolation_partial : forall t m c1 names1 txt1 c names txt h o, tries t m -> all_plain m ->
  names1 <> [] -> Forall name_ok names1 -> spells txt1 (static names1) ->
  c < 2 ^ 32 -> names <> [] -> Forall name_ok names -> (length names < 256)%nat -> spells txt (static names) ->
  m h = Some (c1, txt1, o) -> In (h, o) (find_topics t c txt) ->
  c1 = c /\ Forall2 (same_hash c) names1 names.
Proof. exact isolated. Qed.
Print Assumptions C21_isolation_partial.
Example C21_example : find_topics trie_ab master (text (static ab)) <> [] /\
  find_topics trie_ab master (text (static [tA; tX])) = [] /\ find_topics trie_ab 7 (text (static ab)) = [].
Proof. vm_compute. repeat split; congruence. Qed.

(** "a.b" and "b.a" share one hash: a query for "a.b" returns messages put to
    "b.a", and "b.a" itself is never entered in the tree. *)
Theorem C21_refuted : exists t m c n1 n2 o, n1 <> n2 /\ tries t m /\
  In (get_hash c (filed c (text (static n2))), o) (find_topics t c (text (static n1))) /\
  put1 t c (text (static n2)) 0 = t /\ find_topics t c (text (static n2)) = [].
Proof.
  exists trie_ab, m_ab, master, ab, ba, 0%Z. split; [discriminate|]. split; [exact trie_ab_ok|]. exact (proj2 ab_ba).
Qed.
Print Assumptions C21_refuted.

(** A topic of the contract 857445537 is returned to another contract. *)
Theorem C21_contract_refuted : exists t m c1 txt1 c2 q h o, tries t m /\ m h = Some (c1, txt1, o) /\ c1 <> c2 /\ c2 < 2 ^ 32 /\
  In (h, o) (find_topics t c2 q).
Proof.
  exists trie_w, m_w, Wildcard, (text (static ax)), (hash_salt tA 0), (text (static [tX; tB])), h_w, 0%Z.
  destruct w_leaks as (H1 & H2 & H3). split; [exact trie_w_ok|]. split; [vm_compute; reflexivity|]. split; [congruence|]. split; assumption.
Qed.
Print Assumptions C21_contract_refuted.

(** C52.  Concurrent first puts: an added topic always has an offset ... *)
Theorem C52_offset_partial : forall jobs x k b, csteps (cinit jobs) x -> In (CDone k b) (cs_callers x) ->
  hgetOffset x k <> None.
Proof. exact conc_offset. Qed.
Print Assumptions C52_offset_partial.

(** ... but may be missing from the tree: "a.b" and "a.x" put at the same time,
    both callers are done, and "a.b" is not found. *)
Theorem C52_refuted : exists x, csteps (cinit jobs2) x /\
  cs_callers x = map (fun j => CDone (fst (fst (fst j))) true) jobs2 /\
  ilookup true 2 (to_node (length (cs_heap x)) (cs_heap x) 0) (mkPart 0 0) (t_parts (filed master (text (static [tA; tB])))) [] = [] /\
  hgetOffset x (get_hash master (filed master (text (static [tA; tB])))) = Some 0%Z.
Proof. exact conc_lost. Qed.
Print Assumptions C52_refuted.
