(** Proofs about stored topics that were cut short. *)
From Verif Require Import M_Bytes P_Bytes M_Hash M_Topic M_Trie S_Trie P_Trie P_Topic P_Trie2.
From Coq Require Import Lia ZifyBool ZifyNat ZifyN.
Open Scope N_scope.

Lemma parts_cut ps : forall n k, Forall part_ok ps -> (length ps <= n)%nat -> (k <= 5 * length ps)%nat ->
  parts_unmarshal n (firstn k (concat (map part_marshal ps))) = if Nat.eqb (k mod 5) 0 then Some (firstn (k / 5) ps) else None.
Proof.
  induction ps as [|p ps IH]; intros n k Hok Hn Hk; cbn [length] in *.
  - assert (k = 0%nat) as -> by lia. destruct n; reflexivity.
  - destruct n as [|n]; [lia|]. inversion Hok as [|? ? [Hh Hw] Hok']; subst.
    destruct k as [|k]; [reflexivity|]. cbn [map concat]. unfold part_marshal at 1. rewrite <- app_comm_cons. cbn [firstn].
    change (parts_unmarshal (S n) (?w :: ?r)) with
      (if Nat.ltb (length r) 4 then None else match parts_unmarshal n (skipn 4 r) with
         None => None | Some ps => Some (mkPart (unle (firstn 4 r)) w :: ps) end).
    rewrite firstn_length, app_length, le4_len.
    assert (Hlen : length (concat (map part_marshal ps)) = (5 * length ps)%nat).
    { clear. induction ps as [|x ps IH]; [reflexivity|]. cbn [map concat length]. rewrite app_length, IH. cbn [part_marshal length]. rewrite le4_len. lia. }
    rewrite Hlen. destruct (Nat.ltb_spec (Nat.min k (4 + 5 * length ps)) 4) as [Hs|Hs].
    + rewrite Nat.mod_small by lia. reflexivity.
    + assert (exists k', k = 4 + k')%nat as (k' & ->) by (exists (k - 4)%nat; lia).
      rewrite (firstn_app (4 + k')), le4_len. replace (4 + k' - 4)%nat with k' by lia. rewrite (firstn_all2 (n := 4 + k') (le 4 _)) by (rewrite le4_len; lia).
      rewrite skipn_app, firstn_app, le4_len, Nat.sub_diag, (skipn_all2 (le 4 _)) by reflexivity.
      rewrite (firstn_all2 (le 4 _)) by reflexivity. cbn [skipn app firstn]. rewrite app_nil_r, IH by (assumption || lia).
      replace (S (4 + k')) with (k' + 1 * 5)%nat by lia. rewrite Nat.mod_add, Nat.div_add by lia. destruct (Nat.eqb (k' mod 5) 0); [|reflexivity].
      rewrite unle_le4 by exact Hh. unfold u8. rewrite N.mod_small by exact Hw. replace (k' / 5 + 1)%nat with (S (k' / 5)) by lia. cbn [firstn]. now destruct p.
Qed.

Lemma topic_cut ps depth k : Forall (fun p => p_hash p < 2 ^ 32 /\ p_wild p < 256) ps -> N.of_nat (length ps) <= depth + 1 -> (k <= 5 * length ps)%nat ->
  topic_unmarshal (firstn (S k) (topic_marshal ps depth)) = if Nat.eqb (k mod 5) 0 then Some (firstn (k / 5) ps, depth) else None.
Proof.
  intros Hok Hd Hk. unfold topic_marshal. cbn [firstn topic_unmarshal]. rewrite parts_cut; [|exact Hok|lia|exact Hk]. now destruct (Nat.eqb (k mod 5) 0).
Qed.
