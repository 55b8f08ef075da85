(** What "last" selects, and which topics have the same number. *)
From Verif Require Import M_Bytes M_Hash M_MsgId M_Topic M_Query S_Trie S_Number P_Number.
From Coq Require Import ZArith Lia.
Open Scope Z_scope.

(** C66.  With the topic option "last" a message passes when it is at most that
    old and does not when it is a second older ... *)
Theorem C66_topic_partial : forall pd now opts txt d def max limit c t seq k,
  get_option opts kLast = Some (txt, 0) -> pd txt = Some d -> 1000000000 <= now - d ->
  Offset * 1000000000 <= t < (Offset + 2 ^ 32) * 1000000000 -> (seq < 2 ^ 64)%N -> (k < 2 ^ 32)%N ->
  let from := snd (parse_limit def max limit c (topic_last pd now opts)) in
  (now - d <= t -> evalPrefix (id_prefix (id_setContract (newID (unix t) seq) k)) k from = true) /\
  (t <= now - d - 1000000000 -> evalPrefix (id_prefix (id_setContract (newID (unix t) seq) k)) k from = false).
Proof. exact last_topic_ok. Qed.
Print Assumptions C66_topic_partial.
(** ... and so with WithLast. *)
Theorem C66_query_partial : forall pd now txt d def max limit c t seq k,
  pd txt = Some d -> 1000000000 <= now - d ->
  Offset * 1000000000 <= t < (Offset + 2 ^ 32) * 1000000000 -> (seq < 2 ^ 64)%N -> (k < 2 ^ 32)%N ->
  let (l, c') := with_last pd now def max txt limit c in
  let from := snd (parse_limit def max l c' None) in
  (now - d <= t -> evalPrefix (id_prefix (id_setContract (newID (unix t) seq) k)) k from = true) /\
  (t <= now - d - 1000000000 -> evalPrefix (id_prefix (id_setContract (newID (unix t) seq) k)) k from = false).
Proof. exact last_with_ok. Qed.
Print Assumptions C66_query_partial.
(** A text that is no duration does not select all messages but those of the
    running second. *)
Theorem C66_refuted : forall pd now opts txt n def max limit c t seq k,
  get_option opts kLast = Some (txt, n) -> n <= 0 -> pd txt = None -> 1000000000 <= now ->
  Offset * 1000000000 <= t < (Offset + 2 ^ 32) * 1000000000 -> (seq < 2 ^ 64)%N -> (k < 2 ^ 32)%N ->
  t <= now - 1000000000 ->
  evalPrefix (id_prefix (id_setContract (newID (unix t) seq) k)) k
    (snd (parse_limit def max limit c (topic_last pd now opts))) = false.
Proof. exact last_unread_none. Qed.
Print Assumptions C66_refuted.
(** "last=1h" asked at 1600007200 s about messages of 1600003600 s and 1600003599 s, and "last=1d". *)
Definition ex_pd (txt : bytes) : option Z := if list_eq_dec N.eq_dec txt [49; 104]%N then Some 3600000000000 else None.
Example C66_example :
  get_option [(kLast, [49; 104]%N)] kLast = Some ([49; 104]%N, 0) /\
  (let from := snd (parse_limit 1000 100000 0 0 (topic_last ex_pd 1600007200000000000 [(kLast, [49; 104]%N)])) in
   evalPrefix (id_prefix (id_setContract (newID 1600003600 1) 9)) 9 from = true /\
   evalPrefix (id_prefix (id_setContract (newID 1600003599 1) 9)) 9 from = false) /\
  (let from := snd (parse_limit 1000 100000 0 0 (topic_last ex_pd 1600007200000000000 [(kLast, [49; 100]%N)])) in
   evalPrefix (id_prefix (id_setContract (newID 1600007199 1) 9)) 9 from = false).
Proof. vm_compute. repeat split. Qed.

(** C67.  Two topics are filed under the same number exactly when their
    contracts agree in 24 bits, they have as many levels and their names mix to
    the same value; so topics with different numbers of levels never meet. *)
Theorem C67_number : forall c1 p1 c2 p2, plain c1 p1 -> plain c2 p2 ->
  get_hash c1 (filed c1 (text p1)) = get_hash c2 (filed c2 (text p2)) <->
  (c1 mod 2 ^ 24 = c2 mod 2 ^ 24)%N /\ levels p1 = levels p2 /\ xor_all (mixed c1 p1) = xor_all (mixed c2 p2).
Proof. exact same_number. Qed.
Print Assumptions C67_number.
Example C67_example :
  let a := mkPattern [Lit [97]%N] false in let ab := mkPattern [Lit [97]%N; Lit [98]%N] false in
  let ba := mkPattern [Lit [98]%N; Lit [97]%N] false in
  (plain 7 a /\ plain 7 ab /\ plain 7 ba) /\
  get_hash 7 (filed 7 (text a)) <> get_hash 7 (filed 7 (text ab)) /\
  get_hash 7 (filed 7 (text ab)) = get_hash 7 (filed 7 (text ba)) /\
  get_hash 7 (filed 7 (text ab)) <> get_hash 8 (filed 8 (text ab)).
Proof. exact number_examples. Qed.
