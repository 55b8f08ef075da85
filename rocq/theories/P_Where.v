(** Options in the text of a topic (C123). *)
From Coq Require Import List NArith ZArith.
From Verif Require Import M_Bytes M_Topic P_QueryText.
Import ListNotations.
Local Open Scope N_scope.

Lemma key_head t o : t <> [] -> ~ In 63 t -> fst (parse_key (t ++ [63] ++ o)) = t.
Proof.
  intros Ht Hq. unfold parse_key. change cQuest with 63. rewrite fields_cons by assumption.
  destruct (fields 63 o); reflexivity.
Qed.
Lemma key_alone t : t <> [] -> ~ In 63 t -> parse_key t = (t, []).
Proof. intros Ht Hq. unfold parse_key. change cQuest with 63. now rewrite fields_last by assumption. Qed.
Lemma same_place c t o : t <> [] -> ~ In 63 t ->
  let a := parse_topic c (t ++ [63] ++ o) in let b := parse_topic c t in
  t_parts a = t_parts b /\ t_depth a = t_depth b /\ t_type a = t_type b.
Proof.
  intros Ht Hq. pose proof (key_head t o Ht Hq) as E. unfold parse_topic. rewrite (key_alone t Ht Hq).
  destruct (parse_key (t ++ [63] ++ o)) as [n os]. cbn [fst] in E. subst n. repeat split.
Qed.
Lemma same_hash c t o : t <> [] -> ~ In 63 t ->
  get_hash c (add_contract c (parse_topic c (t ++ [63] ++ o))) = get_hash c (add_contract c (parse_topic c t)).
Proof.
  intros Ht Hq. destruct (same_place c t o Ht Hq) as (A & B & _). unfold get_hash, add_contract. cbn [t_parts t_depth].
  rewrite A, B. reflexivity.
Qed.
