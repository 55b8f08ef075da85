(** Objects used again: the entry of a Put, the query of a Get, a batch that
    fails. *)
From Verif Require Import M_Bytes S_Trie M_DB S_DB S_Session.
Open Scope Z_scope.

(** The entry given to Put, and the one Put gave back with another payload
    (entry.go:67-71 [WithPayload]). *)
Definition an_entry (p : pattern) (payload : bytes) (expires k : N) (encrypt : bool) : uentry :=
  mkUE None (text p) payload expires k encrypt None 0.
Definition with_payload (e : uentry) (payload : bytes) : uentry :=
  mkUE (u_id e) (u_topic e) payload (u_expires e) (u_contract e) (u_encrypt e) (u_hash e) (u_tsize e).

(** A put, without the entry it gives back. *)
Definition put_result (c : dcfg) (s : db) (now : Z) (e : uentry) : db * dres :=
  let '(s', _, r) := put_entry c s now e in (s', r).

(** A batch function that does not call Write. *)
Definition unwritten (l : list bop) : Prop := Forall (fun o => match o with BWrite _ _ => False | _ => True end) l.
