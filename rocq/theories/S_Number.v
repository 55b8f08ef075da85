(** Specification of the number of a topic. *)
From Verif Require Import M_Bytes M_Hash M_Topic S_Trie.
Open Scope N_scope.

(** What is mixed into the number: the contract, the names and "...". *)
Definition mixed (contract : N) (p : pattern) : list N :=
  contract :: flat_map (fun l => match l with Lit n => [hash_salt n contract] | Star => [] end) (pt_levels p) ++
  (if pt_multi p then [Wildcard] else []).
Definition xor_all (l : list N) : N := fold_right N.lxor 0 l.
Definition levels (p : pattern) : nat := (length (pt_levels p) + (if pt_multi p then 1 else 0))%nat.
