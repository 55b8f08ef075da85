(** Proofs about the option "last" in the text of a topic (C38). *)
From Verif Require Import M_Bytes M_Topic M_Query M_Uptime S_Options P_Uptime P_Query.
From Coq Require Import ZArith Lia ZifyBool ZifyNat ZifyN.
Open Scope Z_scope.

Lemma fields_run sep l : ~ In sep l -> forall cur r, fields_loop sep cur (l ++ r) = fields_loop sep (rev l ++ cur) r.
Proof.
  induction l as [|c l IH]; intros H cur r; [reflexivity|]. cbn [app fields_loop rev]. destruct (N.eqb_spec c sep) as [->|_]; [destruct H; now left|].
  rewrite IH by (intros I; apply H; now right). now rewrite <- app_assoc.
Qed.
Lemma fields_last sep l : ~ In sep l -> l <> [] -> fields sep l = [l].
Proof.
  intros H Hne. unfold fields. rewrite <- (app_nil_r l) at 1. rewrite fields_run by exact H. rewrite app_nil_r. cbn [fields_loop].
  destruct (rev l) eqn:E; [apply (f_equal (@rev N)) in E; rewrite rev_involutive in E; contradiction|]. rewrite <- E, rev_involutive. reflexivity.
Qed.
Lemma fields_cons sep l r : ~ In sep l -> l <> [] -> fields sep (l ++ [sep] ++ r) = l :: fields sep r.
Proof.
  intros H Hne. unfold fields. rewrite fields_run by exact H. rewrite app_nil_r. cbn [app fields_loop]. rewrite N.eqb_refl.
  destruct (rev l) eqn:E; [apply (f_equal (@rev N)) in E; rewrite rev_involutive in E; contradiction|]. rewrite <- E, rev_involutive. reflexivity.
Qed.

Lemma loop_digits fuel : forall n acc, Forall (fun b => 48 <= b <= 57)%N acc -> Forall (fun b => 48 <= b <= 57)%N (dec_loop fuel n acc).
Proof.
  induction fuel as [|fuel IH]; intros n acc F; cbn [dec_loop]; [exact F|]. pose proof (N.mod_lt n 10 ltac:(lia)).
  assert (Forall (fun b => 48 <= b <= 57)%N ((48 + n mod 10)%N :: acc)) by (constructor; [lia|exact F]). destruct (n / 10 =? 0)%N; [assumption|]. now apply IH.
Qed.
Lemma loop_some fuel : forall n acc, acc <> [] \/ (0 < fuel)%nat -> dec_loop fuel n acc <> [].
Proof.
  induction fuel as [|fuel IH]; intros n acc H; cbn [dec_loop]; [destruct H; [assumption|lia]|]. destruct (n / 10 =? 0)%N; [discriminate|]. apply IH. left. discriminate.
Qed.
Lemma dec_bytes z b : In b (dec z) -> b = 45%N \/ (48 <= b <= 57)%N.
Proof.
  unfold dec. pose proof (loop_digits (S (N.size_nat (Z.abs_N z))) (Z.abs_N z) [] (Forall_nil _)) as F. rewrite Forall_forall in F.
  destruct (z <? 0); [intros [<-|I]; [now left|right; now apply F]|intros I; right; now apply F].
Qed.
Lemma dec_some z : dec z <> [].
Proof. unfold dec. destruct (z <? 0); [discriminate|]. apply loop_some. right. lia. Qed.

Lemma digits_loop : forall fuel n acc a, (n < 10 ^ N.of_nat fuel)%N -> (0 < fuel)%nat ->
  exists k, digits a (dec_loop fuel n acc) = digits (a * 10 ^ Z.of_N k + Z.of_N n) acc.
Proof.
  induction fuel as [|fuel IH]; intros n acc a Hn Hf; [lia|]. cbn [dec_loop].
  pose proof (N.mod_lt n 10 ltac:(lia)) as Hm. pose proof (N.div_mod n 10 ltac:(lia)) as Hd.
  assert (Hr : forall c, digits c ((48 + n mod 10)%N :: acc) = digits (c * 10 + Z.of_N (n mod 10)) acc).
  { intros c. cbn [digits]. replace ((48 <=? 48 + n mod 10)%N && (48 + n mod 10 <=? 57)%N)%bool with true by lia. f_equal. lia. }
  destruct (N.eqb_spec (n / 10) 0) as [E|E].
  - exists 1%N. rewrite Hr. change (10 ^ Z.of_N 1) with 10. f_equal. rewrite E in Hd. lia.
  - assert (Hn' : (n / 10 < 10 ^ N.of_nat fuel)%N).
    { apply N.div_lt_upper_bound; [lia|]. rewrite Nnat.Nat2N.inj_succ, N.pow_succ_r' in Hn. exact Hn. }
    destruct fuel as [|fuel']; [cbn in Hn'; lia|].
    destruct (IH (n / 10)%N ((48 + n mod 10)%N :: acc) a Hn' ltac:(lia)) as (k & ->). exists (k + 1)%N. rewrite Hr. f_equal.
    rewrite N.add_1_r, N2Z.inj_succ, Z.pow_succ_r by lia.
    assert (Hz : Z.of_N n = 10 * Z.of_N (n / 10) + Z.of_N (n mod 10)) by lia. rewrite Hz. ring.
Qed.
Lemma parse_dec z : - 2 ^ 63 <= z < 2 ^ 63 -> parse_int (dec z) = Some z.
Proof.
  intros Hz. pose proof (size_bound (Z.abs_N z)) as Hs. destruct (digits_loop _ (Z.abs_N z) [] 0 Hs ltac:(lia)) as (k & Hk). cbn [digits] in Hk. rewrite Z.mul_0_l, Z.add_0_l in Hk.
  pose proof (loop_some (S (N.size_nat (Z.abs_N z))) (Z.abs_N z) [] ltac:(right; lia)) as Hn.
  pose proof (loop_digits (S (N.size_nat (Z.abs_N z))) (Z.abs_N z) [] (Forall_nil _)) as F.
  unfold dec. remember (dec_loop (S (N.size_nat (Z.abs_N z))) (Z.abs_N z) []) as l eqn:El. clear El.
  destruct l as [|c r]; [contradiction|]. destruct (Z.ltb_spec z 0) as [L|L]; unfold parse_int.
  - change ((45 =? 45)%N) with true. cbv iota. rewrite Hk. cbn [option_map checked]. replace (- Z.of_N (Z.abs_N z)) with z by lia. unfold in_int64. now replace ((- 2 ^ 63 <=? z) && (z <? 2 ^ 63))%bool with true by lia.
  - inversion F; subst. replace (c =? 45)%N with false by lia. replace (c =? 43)%N with false by lia. rewrite Hk. cbn [checked].
    replace (Z.of_N (Z.abs_N z)) with z by lia. unfold in_int64. now replace ((- 2 ^ 63 <=? z) && (z <? 2 ^ 63))%bool with true by lia.
Qed.
Lemma last_option t n : t <> [] -> ~ In 63%N t -> parse_options (snd (parse_key (t ++ [63]%N ++ kLast ++ [61]%N ++ dec n))) = [(kLast, dec n)].
Proof.
  intros Ht Hq.
  assert (D : forall b, (b < 45)%N \/ (57 < b)%N -> ~ In b (dec n)) by (intros b Hb I; apply dec_bytes in I; lia).
  assert (K : forall b, (b = 63 \/ b = 38)%N -> ~ In b (kLast ++ [61]%N ++ dec n)).
  { intros b Hb I. apply in_app_or in I. destruct I as [I|I]; [cbn in I; lia|]. apply in_app_or in I. destruct I as [I|I]; [cbn in I; lia|]. apply (D b); [lia|exact I]. }
  unfold parse_key. change cQuest with 63%N. rewrite fields_cons by assumption. rewrite fields_last by (try apply K; auto; discriminate). cbn [snd].
  unfold parse_options. change cAmp with 38%N. rewrite fields_last by (try apply K; auto; discriminate). cbn [flat_map].
  change cEq with 61%N. rewrite fields_cons; [|cbn; lia|discriminate]. rewrite fields_last; [reflexivity|apply D; lia|apply dec_some].
Qed.
Lemma last_text pd now t n def max q c : t <> [] -> ~ In 63%N t -> - 2 ^ 63 <= n < 2 ^ 63 -> 0 < def <= max -> 0 <= q <= max ->
  fst (parse_limit def max q c (topic_last pd now (parse_options (snd (parse_key (t ++ [63]%N ++ kLast ++ [61]%N ++ dec n)))))) =
  if n <=? 0 then (if q =? 0 then def else q) else Z.min max (Z.max n q).
Proof.
  intros Ht Hq Hn Hd Hl. rewrite last_option by assumption. unfold topic_last, get_option.
  destruct (list_eq_dec N.eq_dec kLast kLast) as [_|C]; [|contradiction]. rewrite parse_dec by exact Hn.
  destruct (Z.leb_spec n 0) as [L|L].
  - replace (0 <? n) with false by lia. unfold parse_limit. destruct (Z.eqb_spec q 0) as [->|Hq0]; cbn [andb].
    + change (0 =? 0) with true. cbn [andb fst]. now replace (def =? 0) with false by lia.
    + replace ((max <? q) || (max <? 0))%bool with false by lia. replace (q <? 0) with false by lia. cbn [fst]. now replace (q =? 0) with false by lia.
  - replace (0 <? n) with true by lia. unfold parse_limit. replace ((q =? 0) && (n =? 0))%bool with false by lia.
    destruct ((max <? q) || (max <? n))%bool eqn:E1; [|destruct (Z.ltb_spec q n)].
    all: cbn [fst]; match goal with |- (if ?x =? 0 then _ else _) = _ => replace (x =? 0) with false by lia end; lia.
Qed.

(** An option by its text. *)
Lemma one_option t k v : t <> [] -> ~ In 63%N t -> k <> [] -> v <> [] ->
  (forall b, In b [63; 38; 61]%N -> ~ In b k /\ ~ In b v) ->
  parse_options (snd (parse_key (t ++ [63]%N ++ k ++ [61]%N ++ v))) = [(k, v)].
Proof.
  intros Ht Hq Hk Hv H.
  assert (K : forall b, (b = 63 \/ b = 38)%N -> ~ In b (k ++ [61]%N ++ v)).
  { intros b Hb I. destruct (H b ltac:(cbn; intuition)) as [A B]. apply in_app_or in I. destruct I as [I|I]; [contradiction|].
    apply in_app_or in I. destruct I as [I|I]; [cbn in I; lia|contradiction]. }
  assert (Ne : k ++ [61]%N ++ v <> []) by (destruct k; [contradiction|discriminate]).
  unfold parse_key. change cQuest with 63%N. rewrite fields_cons by assumption. rewrite fields_last by (try apply K; auto). cbn [snd].
  unfold parse_options. change cAmp with 38%N. rewrite fields_last by (try apply K; auto). cbn [flat_map].
  destruct (H 61%N ltac:(cbn; auto)) as [A B].
  change cEq with 61%N. rewrite fields_cons by assumption. rewrite fields_last by assumption. reflexivity.
Qed.
Lemma ttl_text pd now t0 txt d t : t0 <> [] -> ~ In 63%N t0 -> txt <> [] -> (forall b, In b [63; 38; 61]%N -> ~ In b txt) ->
  parse_int txt = None -> pd txt = Some d ->
  1000000000 <= now + d < 2 ^ 32 * 1000000000 -> 0 <= t < 2 ^ 32 * 1000000000 ->
  let opts := parse_options (snd (parse_key (t0 ++ [63]%N ++ kTTL ++ [61]%N ++ txt))) in
  (now + d <= t -> is_expired (entry_expiry pd now 0 opts) t = true) /\
  (t <= now + d - 1000000000 -> is_expired (entry_expiry pd now 0 opts) t = false).
Proof.
  intros H1 H2 H3 H4 H5 H6 H7 H8. cbv zeta. rewrite one_option; [|assumption|assumption|discriminate|assumption|].
  - apply (topic_ttl_partial pd now _ txt d t); try assumption. unfold get_option. destruct (list_eq_dec N.eq_dec kTTL kTTL) as [_|C]; [|contradiction].
    now rewrite H5.
  - intros b Hb. split; [intros I; cbn in Hb, I; lia|now apply H4].
Qed.

(** Several options. *)
Lemma word_option o : words o -> option_text o <> [] /\ ~ In 63%N (option_text o) /\ ~ In 38%N (option_text o) /\ fields 61 (option_text o) = [fst o; snd o].
Proof.
  intros ((K1 & K2 & K3 & K4) & (V1 & V2 & V3 & V4)). unfold option_text.
  assert (A : forall b, b <> 61%N -> ~ In b (fst o) -> ~ In b (snd o) -> ~ In b (fst o ++ [61]%N ++ snd o)).
  { intros b Hb H1 H2 I. apply in_app_or in I. destruct I as [I|I]; [contradiction|]. cbn in I. destruct I as [I|I]; [congruence|contradiction]. }
  split; [destruct (fst o); [contradiction|discriminate]|]. split; [now apply A|]. split; [now apply A|].
  rewrite fields_cons by assumption. now rewrite fields_last by assumption.
Qed.
Lemma many_fields os : Forall words os -> fields 38 (options_text os) = map option_text os.
Proof.
  induction os as [|o os IH]; intros F; [reflexivity|]. inversion F; subst. destruct (word_option o) as (A & B & C & D); [assumption|].
  destruct os as [|o' os]; [cbn [options_text map]; now apply fields_last|].
  change (options_text (o :: o' :: os)) with (option_text o ++ [38]%N ++ options_text (o' :: os)). rewrite fields_cons by assumption.
  rewrite IH by assumption. reflexivity.
Qed.
Lemma text_mark os : Forall words os -> ~ In 63%N (options_text os).
Proof.
  induction os as [|o os IH]; intros F; [intros []|]. inversion F; subst. destruct (word_option o) as (A & B & C & D); [assumption|].
  destruct os as [|o' os]; [exact B|]. change (options_text (o :: o' :: os)) with (option_text o ++ [38]%N ++ options_text (o' :: os)).
  intros I. apply in_app_or in I. destruct I as [I|I]; [contradiction|]. cbn [app] in I. destruct I as [I|I]; [discriminate|]. now apply IH.
Qed.
Lemma text_some os : Forall words os -> os <> [] -> options_text os <> [].
Proof.
  intros F H. destruct os as [|o os]; [contradiction|]. inversion F; subst. destruct (word_option o) as (A & _); [assumption|].
  destruct os; cbn [options_text]; [exact A|]. destruct (option_text o); [contradiction|discriminate].
Qed.
Lemma many_options t os : t <> [] -> ~ In 63%N t -> Forall words os -> os <> [] ->
  parse_key (t ++ [63]%N ++ options_text os) = (t, options_text os) /\ parse_options (options_text os) = os.
Proof.
  intros Ht Hq F H. split.
  - unfold parse_key. change cQuest with 63%N. rewrite fields_cons by assumption.
    rewrite fields_last; [reflexivity|now apply text_mark|now apply text_some].
  - unfold parse_options. change cAmp with 38%N. rewrite many_fields by exact F. clear H. induction F as [|[k v] os W F IH]; [reflexivity|].
    cbn [map flat_map]. change cEq with 61%N. destruct (word_option (k, v) W) as (_ & _ & _ & ->). cbn [fst snd app]. f_equal. exact IH.
Qed.
Lemma get_first before k v after : (forall o, In o before -> fst o <> k) ->
  get_option (before ++ (k, v) :: after) k = match parse_int v with Some n => Some ([], n) | None => Some (v, 0) end.
Proof.
  induction before as [|[k' v'] before IH]; intros H; cbn [app get_option].
  - destruct (list_eq_dec N.eq_dec k k); [reflexivity|contradiction].
  - destruct (list_eq_dec N.eq_dec k' k) as [->|_]; [destruct (H (k, v') ltac:(now left)); reflexivity|]. apply IH. intros o I. apply H. now right.
Qed.
Lemma dec_word n : word (dec n).
Proof. split; [apply dec_some|]. repeat split; intros I; apply dec_bytes in I; lia. Qed.
Lemma last_options pd now t n before after def max q c : t <> [] -> ~ In 63%N t -> Forall words (before ++ after) -> (forall o, In o before -> fst o <> kLast) ->
  - 2 ^ 63 <= n < 2 ^ 63 -> 0 < def <= max -> 0 <= q <= max ->
  fst (parse_limit def max q c (topic_last pd now (parse_options (snd (parse_key (t ++ [63]%N ++ options_text (before ++ (kLast, dec n) :: after))))))) =
  if n <=? 0 then (if q =? 0 then def else q) else Z.min max (Z.max n q).
Proof.
  intros Ht Hq F Hb Hn Hd Hl. rewrite <- (last_text pd now t n def max q c) by assumption.
  apply Forall_app in F. destruct F as [F1 F2].
  assert (W : Forall words (before ++ (kLast, dec n) :: after)).
  { apply Forall_app. split; [exact F1|]. constructor; [|exact F2]. split; [|apply dec_word]. repeat split; cbn; try discriminate; intuition discriminate. }
  destruct (many_options t _ Ht Hq W) as (-> & E); [destruct before; discriminate|]. cbn [snd]. rewrite E, last_option by assumption.
  unfold topic_last. rewrite get_first by exact Hb. change [(kLast, dec n)] with ([] ++ (kLast, dec n) :: []). rewrite get_first by (intros o []). reflexivity.
Qed.
