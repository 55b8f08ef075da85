(** Proofs about query limits and expiry times. *)
From Verif Require Import M_Bytes M_Topic M_Query.
From Coq Require Import ZArith Lia ZifyBool ZifyNat ZifyN.
Open Scope Z_scope.

(** With an option "last" the limit never exceeds the maximum. *)
Lemma limit_last def max q c from n : 0 < def <= max -> 0 <= n -> fst (parse_limit def max q c (Some (from, n))) <= max.
Proof.
  intros Hd Hn. unfold parse_limit. cbn [fst]. destruct ((q =? 0) && (n =? 0)) eqn:E1; [destruct (def =? 0); lia|].
  destruct ((max <? q) || (max <? n)) eqn:E2; [destruct (max =? 0); lia|].
  destruct (q <? n) eqn:E3; [destruct (n =? 0); lia|]. destruct (q =? 0) eqn:E4; lia.
Qed.
Lemma limit_given def max q c : q <> 0 -> fst (parse_limit def max q c None) = q.
Proof. intros H. unfold parse_limit. cbn [fst]. now replace (q =? 0) with false by lia. Qed.
Lemma limit_default def max c : fst (parse_limit def max 0 c None) = def.
Proof. reflexivity. Qed.

(** The limit as documented. *)
Definition limit_spec (def max q : Z) : Z := if q =? 0 then def else Z.min q max.

Lemma limit_partial def max q c last : 0 < def <= max -> 0 <= q <= max -> match last with Some (_, n) => 0 <= n <= q \/ n = 0 | None => True end ->
  fst (parse_limit def max q c last) = limit_spec def max q.
Proof.
  intros Hd Hq Hl. unfold parse_limit, limit_spec. destruct last as [[from n]|]; cbn [fst].
  - destruct (q =? 0) eqn:E; cbn [andb].
    + assert (n = 0) by lia. subst n. cbn. now replace (def =? 0) with false by lia.
    + replace (max <? q) with false by lia. replace (max <? n) with false by lia. cbn [orb].
      replace (q <? n) with false by lia. rewrite E. lia.
  - destruct (q =? 0) eqn:E; [reflexivity|]. symmetry. apply Z.min_l. lia.
Qed.
Lemma limit_partial_last def max q c from n : 0 < def <= max -> 0 < n -> q <= n ->
  fst (parse_limit def max q c (Some (from, n))) = Z.min n max.
Proof.
  intros Hd Hn Hq. unfold parse_limit. cbn [fst]. replace (n =? 0) with false by lia. rewrite andb_false_r.
  destruct ((max <? q) || (max <? n)) eqn:E2; [replace (max =? 0) with false by lia; lia|].
  destruct (q <? n) eqn:E3; [replace (n =? 0) with false by lia; lia|]. replace (q =? 0) with false by lia. lia.
Qed.

(** * Expiry *)
Lemma expired_iff e now : e <> 0%N -> 0 <= now < 2 ^ 32 * 1000000000 ->
  (is_expired e now = true <-> Z.of_N e <= now / 1000000000).
Proof.
  intros He Hn. unfold is_expired, u32z, unix. replace (e =? 0)%N with false by lia. cbn [negb andb].
  assert (0 <= now / 1000000000 < 2 ^ 32) by (split; [apply Z.div_pos; lia|apply Z.div_lt_upper_bound; lia]).
  rewrite Z.mod_small by assumption. lia.
Qed.

Lemma stored_expiry pd now txt d : pd txt = Some d -> 0 < now + d -> 1000000000 <= now + d < 2 ^ 32 * 1000000000 ->
  Z.of_N (with_ttl pd now txt) = (now + d) / 1000000000.
Proof.
  intros Hp H0 H1. unfold with_ttl, dur0. rewrite Hp. unfold u32z, unix.
  assert (0 <= (now + d) / 1000000000 < 2 ^ 32) by (split; [apply Z.div_pos; lia|apply Z.div_lt_upper_bound; lia]).
  rewrite Z.mod_small by assumption. lia.
Qed.

(** A duration: expired from the end of the duration on, and not more than a
    second before it. *)
Lemma ttl_expires e end_ t : 1000000000 <= end_ -> Z.of_N e = end_ / 1000000000 -> 0 <= t < 2 ^ 32 * 1000000000 ->
  (end_ <= t -> is_expired e t = true) /\ (t <= end_ - 1000000000 -> is_expired e t = false).
Proof.
  intros He Ee Ht.
  assert (1 <= end_ / 1000000000) by (apply Z.div_le_lower_bound; lia).
  assert (Hne : e <> 0%N) by lia. pose proof (expired_iff e t Hne Ht) as Hiff. split; intros H1.
  - apply Hiff. rewrite Ee. apply Z.div_le_mono; lia.
  - apply not_true_is_false. intros E. apply Hiff in E. rewrite Ee in E.
    assert (t / 1000000000 < end_ / 1000000000); [|lia].
    apply Z.lt_le_trans with ((t + 1 * 1000000000) / 1000000000); [|apply Z.div_le_mono; lia].
    rewrite Z.div_add by lia. lia.
Qed.

Lemma with_ttl_partial pd now txt d t : pd txt = Some d -> 1000000000 <= now + d < 2 ^ 32 * 1000000000 -> 0 <= t < 2 ^ 32 * 1000000000 ->
  (now + d <= t -> is_expired (with_ttl pd now txt) t = true) /\
  (t <= now + d - 1000000000 -> is_expired (with_ttl pd now txt) t = false).
Proof. intros Hp H1 Ht. apply ttl_expires; [lia| |exact Ht]. apply (stored_expiry pd now txt d); auto; lia. Qed.

Lemma topic_ttl_partial pd now opts txt d t : get_option opts kTTL = Some (txt, 0) -> pd txt = Some d ->
  1000000000 <= now + d < 2 ^ 32 * 1000000000 -> 0 <= t < 2 ^ 32 * 1000000000 ->
  (now + d <= t -> is_expired (entry_expiry pd now 0 opts) t = true) /\
  (t <= now + d - 1000000000 -> is_expired (entry_expiry pd now 0 opts) t = false).
Proof.
  intros Ho Hp H1 Ht. assert (E : entry_expiry pd now 0 opts = with_ttl pd now txt).
  { unfold entry_expiry, topic_ttl. rewrite Ho. change (0 <? 0) with false. cbv iota. cbn [N.eqb andb].
    fold (with_ttl pd now txt). assert (1 <= Z.of_N (with_ttl pd now txt)).
    { rewrite (stored_expiry pd now txt d) by (auto; lia). apply Z.div_le_lower_bound; lia. }
    change (0 =? 0)%N with true. cbn [andb]. now replace (0 <? with_ttl pd now txt)%N with true by lia. }
  rewrite E. now apply (with_ttl_partial pd now txt d).
Qed.

(** Without an expiry nothing expires. *)
Lemma never_expires now : is_expired 0 now = false. Proof. reflexivity. Qed.

(** "ttl=60" *)
Definition opt60 : list (bytes * bytes) := [(kTTL, [54; 48]%N)].
Lemma ttl60 pd now : 0 <= now -> entry_expiry pd now 0 opt60 = 4165425152%N.
Proof. intros _. reflexivity. Qed.
Lemma ttl60_years pd now t : 0 <= now -> 0 <= t < 4165425152 * 1000000000 -> is_expired (entry_expiry pd now 0 opt60) t = false.
Proof.
  intros Hn Ht. rewrite ttl60 by exact Hn. destruct (is_expired 4165425152 t) eqn:E; [|reflexivity]. exfalso.
  apply expired_iff in E; [|lia|lia]. assert (t / 1000000000 < 4165425152) by (apply Z.div_lt_upper_bound; lia). lia.
Qed.
(** WithTTL("60"): time.ParseDuration rejects a number without a unit. *)
Lemma with_ttl60 pd now : pd [54; 48]%N = None -> 1000000000 <= now < 2 ^ 32 * 1000000000 -> is_expired (with_ttl pd now [54; 48]%N) now = true.
Proof.
  intros Hp Hn. assert (E : Z.of_N (with_ttl pd now [54; 48]%N) = now / 1000000000).
  { unfold with_ttl, dur0. rewrite Hp, Z.add_0_r. unfold u32z, unix.
    assert (0 <= now / 1000000000 < 2 ^ 32) by (split; [apply Z.div_pos; lia|apply Z.div_lt_upper_bound; lia]).
    rewrite Z.mod_small by assumption. lia. }
  assert (1 <= now / 1000000000) by (apply Z.div_le_lower_bound; lia).
  apply expired_iff; [lia|lia|]. lia.
Qed.
