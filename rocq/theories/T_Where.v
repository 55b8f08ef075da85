(** C123.  The options after the question mark do not change the topic. *)
From Coq Require Import List NArith ZArith.
From Verif Require Import M_Bytes M_Topic P_Where.
Import ListNotations.
Local Open Scope N_scope.

(** Whatever bytes follow the question mark, the parts, the depth and the type
    are those of the topic without it ... *)
Theorem C123_parts : forall c t o, t <> [] -> ~ In 63 t ->
  let a := parse_topic c (t ++ [63] ++ o) in let b := parse_topic c t in
  t_parts a = t_parts b /\ t_depth a = t_depth b /\ t_type a = t_type b.
Proof. exact same_place. Qed.
Print Assumptions C123_parts.
(** ... and so is the hash a message is filed under. *)
Theorem C123_hash : forall c t o, t <> [] -> ~ In 63 t ->
  get_hash c (add_contract c (parse_topic c (t ++ [63] ++ o))) = get_hash c (add_contract c (parse_topic c t)).
Proof. exact same_hash. Qed.
Print Assumptions C123_hash.
(** "a.b?ttl=1" and "a.b"; another topic has another hash *)
Example C123_example :
  get_hash 7 (add_contract 7 (parse_topic 7 [97; 46; 98; 63; 116; 116; 108; 61; 49])) = get_hash 7 (add_contract 7 (parse_topic 7 [97; 46; 98])) /\
  get_hash 7 (add_contract 7 (parse_topic 7 [97; 46; 99])) <> get_hash 7 (add_contract 7 (parse_topic 7 [97; 46; 98])) /\
  length (t_options (parse_topic 7 [97; 46; 98; 63; 116; 116; 108; 61; 49])) = 1%nat.
Proof. split; [vm_compute; reflexivity|]. split; [vm_compute; discriminate|vm_compute; reflexivity]. Qed.
(** Without a topic before the question mark the options are taken for the
    topic: "?b" is the topic "b". *)
Example C123_empty_example : t_parts (parse_topic 7 ([] ++ [63] ++ [98])) = t_parts (parse_topic 7 [98]) /\
  t_parts (parse_topic 7 ([] ++ [63] ++ [98])) <> t_parts (parse_topic 7 []).
Proof. split; [vm_compute; reflexivity|vm_compute; discriminate]. Qed.
