(** Query limits and expiry times. *)
From Verif Require Import M_Bytes M_Topic M_Query M_Uptime S_Options P_Query P_QueryText.
From Coq Require Import ZArith Lia.
Open Scope Z_scope.

(** C38.  Limits up to the maximum are taken as given, 0 means the default ... *)
Theorem C38_limit_partial : forall def max q c last, 0 < def <= max -> 0 <= q <= max ->
  match last with Some (_, n) => 0 <= n <= q \/ n = 0 | None => True end ->
  fst (parse_limit def max q c last) = if q =? 0 then def else Z.min q max.
Proof. exact limit_partial. Qed.
Print Assumptions C38_limit_partial.
(** ... and with the option "last" the maximum holds for every limit. *)
Theorem C38_last_max_partial : forall def max q c from n, 0 < def <= max -> 0 <= n ->
  fst (parse_limit def max q c (Some (from, n))) <= max.
Proof. exact limit_last. Qed.
Print Assumptions C38_last_max_partial.
Theorem C38_last_number : forall def max q c from n, 0 < def <= max -> 0 < n -> q <= n ->
  fst (parse_limit def max q c (Some (from, n))) = Z.min n max.
Proof. exact limit_partial_last. Qed.
Print Assumptions C38_last_number.
Example C38_example :
  fst (parse_limit defaultQueryLimit maxQueryLimit 0 0 None) = 1000 /\
  fst (parse_limit defaultQueryLimit maxQueryLimit 7 0 (Some (0, 50))) = 50 /\
  fst (parse_limit defaultQueryLimit maxQueryLimit 7 0 (Some (0, 500000))) = 100000 /\
  topic_last (fun _ => None) 0 [(kLast, [53; 48]%N)] = Some (0, 50).
Proof. repeat split. Qed.

(** From the text of the topic: a number after "?last=" is read as it is written;
    one that is not positive is no limit. *)
Theorem C38_text : forall pd now t n def max q c, t <> [] -> ~ In 63%N t -> - 2 ^ 63 <= n < 2 ^ 63 -> 0 < def <= max -> 0 <= q <= max ->
  fst (parse_limit def max q c (topic_last pd now (parse_options (snd (parse_key (t ++ [63]%N ++ kLast ++ [61]%N ++ dec n)))))) =
  if n <=? 0 then (if q =? 0 then def else q) else Z.min max (Z.max n q).
Proof. exact last_text. Qed.
Print Assumptions C38_text.
(** Whatever other options there are, all are read, in their order ... *)
Theorem C38_options : forall t os, t <> [] -> ~ In 63%N t -> Forall words os -> os <> [] ->
  parse_key (t ++ [63]%N ++ options_text os) = (t, options_text os) /\ parse_options (options_text os) = os.
Proof. exact many_options. Qed.
Print Assumptions C38_options.
(** ... and the first "last" counts. *)
Theorem C38_among : forall pd now t n before after def max q c, t <> [] -> ~ In 63%N t -> Forall words (before ++ after) -> (forall o, In o before -> fst o <> kLast) ->
  - 2 ^ 63 <= n < 2 ^ 63 -> 0 < def <= max -> 0 <= q <= max ->
  fst (parse_limit def max q c (topic_last pd now (parse_options (snd (parse_key (t ++ [63]%N ++ options_text (before ++ (kLast, dec n) :: after))))))) =
  if n <=? 0 then (if q =? 0 then def else q) else Z.min max (Z.max n q).
Proof. exact last_options. Qed.
Print Assumptions C38_among.
(** "ttl=1h&last=9" *)
Example C38_among_example : words (kTTL, [49; 104]%N) /\ options_text [(kTTL, [49; 104]%N); (kLast, dec 9)] = [116; 116; 108; 61; 49; 104; 38; 108; 97; 115; 116; 61; 57]%N /\
  topic_last (fun _ => None) 0 (parse_options [116; 116; 108; 61; 49; 104; 38; 108; 97; 115; 116; 61; 57]%N) = Some (0, 9).
Proof. split; [|vm_compute; split; reflexivity]. repeat split; cbn; try discriminate; intuition discriminate. Qed.
(** "a?last=250" and "a?last=-250" *)
Example C38_text_example :
  [97; 63; 108; 97; 115; 116; 61; 50; 53; 48]%N = [97]%N ++ [63]%N ++ kLast ++ [61]%N ++ dec 250 /\
  fst (parse_limit defaultQueryLimit maxQueryLimit 7 0 (topic_last (fun _ => None) 0 (parse_options (snd (parse_key [97; 63; 108; 97; 115; 116; 61; 50; 53; 48]%N))))) = 250 /\
  fst (parse_limit defaultQueryLimit maxQueryLimit 7 0 (topic_last (fun _ => None) 0 (parse_options (snd (parse_key [97; 63; 108; 97; 115; 116; 61; 45; 50; 53; 48]%N))))) = 7.
Proof. vm_compute. repeat split. Qed.

(** Without "last" no maximum is applied. *)
Theorem C38_refuted : forall def max q c, max < q -> q <> 0 -> max < fst (parse_limit def max q c None).
Proof. intros def max q c H1 H2. rewrite (limit_given def max q c H2). exact H1. Qed.
Print Assumptions C38_refuted.

(** C39.  A time to live given as a duration holds to within a second; as a
    topic option ... *)
Theorem C39_topic_partial : forall pd now opts txt d t, get_option opts kTTL = Some (txt, 0) -> pd txt = Some d ->
  1000000000 <= now + d < 2 ^ 32 * 1000000000 -> 0 <= t < 2 ^ 32 * 1000000000 ->
  (now + d <= t -> is_expired (entry_expiry pd now 0 opts) t = true) /\
  (t <= now + d - 1000000000 -> is_expired (entry_expiry pd now 0 opts) t = false).
Proof. exact topic_ttl_partial. Qed.
Print Assumptions C39_topic_partial.
(** ... from the text of the topic, if the duration is not a mere number ... *)
Theorem C39_text_partial : forall pd now t0 txt d t, t0 <> [] -> ~ In 63%N t0 -> txt <> [] -> (forall b, In b [63; 38; 61]%N -> ~ In b txt) ->
  parse_int txt = None -> pd txt = Some d ->
  1000000000 <= now + d < 2 ^ 32 * 1000000000 -> 0 <= t < 2 ^ 32 * 1000000000 ->
  let opts := parse_options (snd (parse_key (t0 ++ [63]%N ++ kTTL ++ [61]%N ++ txt))) in
  (now + d <= t -> is_expired (entry_expiry pd now 0 opts) t = true) /\
  (t <= now + d - 1000000000 -> is_expired (entry_expiry pd now 0 opts) t = false).
Proof. exact ttl_text. Qed.
Print Assumptions C39_text_partial.
(** "a?ttl=1h" *)
Example C39_text_example : parse_int [49; 104]%N = None /\ (forall b, In b [63; 38; 61]%N -> ~ In b [49; 104]%N) /\
  [97; 63; 116; 116; 108; 61; 49; 104]%N = [97]%N ++ [63]%N ++ kTTL ++ [61]%N ++ [49; 104]%N /\
  entry_expiry (fun s => if list_eq_dec N.eq_dec s [49; 104]%N then Some 3600000000000 else None) 1700000000000000000 0
    (parse_options (snd (parse_key [97; 63; 116; 116; 108; 61; 49; 104]%N))) = 1700003600%N.
Proof. split; [reflexivity|]. split; [|vm_compute; split; reflexivity]. intros b H I. cbn in H, I. lia. Qed.
(** ... and with WithTTL. *)
Theorem C39_entry_partial : forall pd now txt d t, pd txt = Some d ->
  1000000000 <= now + d < 2 ^ 32 * 1000000000 -> 0 <= t < 2 ^ 32 * 1000000000 ->
  (now + d <= t -> is_expired (with_ttl pd now txt) t = true) /\
  (t <= now + d - 1000000000 -> is_expired (with_ttl pd now txt) t = false).
Proof. exact with_ttl_partial. Qed.
Print Assumptions C39_entry_partial.
(** "1h" in 2024 *)
Example C39_example : let pd s := if list_eq_dec N.eq_dec s [49; 104]%N then Some 3600000000000 else None in
  let opts := parse_options [116; 116; 108; 61; 49; 104]%N in
  get_option opts kTTL = Some ([49; 104]%N, 0) /\
  entry_expiry pd 1700000000000000000 0 opts = 1700003600%N /\
  is_expired 1700003600 1700003599999999999 = false /\ is_expired 1700003600 1700003600000000000 = true.
Proof. vm_compute. auto. Qed.

(** "ttl=60" is taken for the year 2101 ... *)
Theorem C39_topic_refuted : forall pd now t, 0 <= now -> 0 <= t < 4165425152 * 1000000000 ->
  is_expired (entry_expiry pd now 0 [(kTTL, [54; 48]%N)]) t = false.
Proof. exact ttl60_years. Qed.
Print Assumptions C39_topic_refuted.
(** ... and WithTTL("60") expires the message at once. *)
Theorem C39_entry_refuted : forall (pd : bytes -> option Z) now, pd [54; 48]%N = None ->
  1000000000 <= now < 2 ^ 32 * 1000000000 -> is_expired (with_ttl pd now [54; 48]%N) now = true.
Proof. exact with_ttl60. Qed.
Print Assumptions C39_entry_refuted.
