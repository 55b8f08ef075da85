(** Proofs for C33, C56, C57. *)
From Verif Require Import M_Bytes P_Bytes M_File M_Hash M_Bloom M_Entry P_Codec M_MsgId M_Mac P_Mac M_Topic M_Trie M_Query M_IndexBlock M_Lease
  M_BlockStore M_WinBlock M_Wal M_MemDB M_Window M_Get M_DB S_Trie S_Window S_BlockStore S_MemDB S_Get S_DB S_Session S_Count S_Again
  P_Topic P_Trie P_Trie2 P_Trie3 P_BlockStore4 P_Window4 P_WindowEx P_Get P_MemBlock P_MemDB P_MemGet P_DB P_Session P_Session2 P_Session3 P_Session4 P_Session5 P_Count.
From Coq Require Import Lia ZifyBool ZifyNat ZifyN Permutation Sorted.
Open Scope Z_scope.

(** * The entry *)
Lemma put_back c s now e s1 e1 : u_hash e = None -> put_entry c s now e = (s1, e1, DOk) ->
  let k := if (u_contract e =? 0)%N then MasterContract else u_contract e in
  e1 = mkUE None (u_topic e) [] (entry_expiry (c_pd c) now (u_expires e) (t_options (parse_topic k (u_topic e)))) k (u_encrypt e)
            (Some (get_hash k (add_contract k (parse_topic k (u_topic e))))) 0.
Proof.
  intros Hn. unfold put_entry. destruct (d_closed s); [discriminate|]. destruct (check_put e); [discriminate|].
  unfold set_entry. rewrite Hn. cbv zeta. cbn [u_hash u_id u_payload u_encrypt u_expires u_contract u_tsize].
  set (k := if (u_contract e =? 0)%N then MasterContract else u_contract e).
  match goal with |- context [match ?o with Some _ => _ | None => SPanic end] => destruct o as [[[s' id] q]|] end; [|discriminate].
  destruct (q =? 0)%N; [discriminate|].
  match goal with |- context [match ?o with Some _ => _ | None => SPanic end] => destruct o as [v|] end; [|discriminate].
  match goal with |- context [mem_put ?a ?b ?x ?y] => destruct (mem_put a b x y) as [m r] end.
  destruct r; try discriminate. destruct (add_topic _ _ _ _); [|discriminate].
  unfold ue_reset. cbn [u_topic u_expires u_contract u_encrypt u_hash]. intros [= <- <-]. reflexivity.
Qed.

Lemma same_entry c s now p payload expires k encrypt h : Forall level_ok (pt_levels p) -> text p <> [] ->
  h = get_hash (owner k) (add_contract (owner k) (parse_topic (owner k) (text p))) -> getOffset (d_trie s) h <> None ->
  put_result c s now (mkUE None (text p) payload expires (owner k) encrypt (Some h) 0) = put_result c s now (an_entry p payload expires k encrypt).
Proof.
  intros Hl Hne Eh Ho. unfold put_result, put_entry. destruct (d_closed s); [reflexivity|].
  change (check_put (an_entry p payload expires k encrypt)) with (check_put (mkUE None (text p) payload expires (owner k) encrypt (Some h) 0)).
  destruct (check_put _); [reflexivity|].
  assert (E : set_entry c s now (mkUE None (text p) payload expires (owner k) encrypt (Some h) 0) = set_entry c s now (an_entry p payload expires k encrypt)).
  { unfold set_entry, an_entry. cbn [u_hash u_id u_topic u_payload u_encrypt u_expires u_contract u_tsize]. fold (owner k). cbv zeta.
    rewrite <- Eh. destruct (getOffset (d_trie s) h); [|contradiction]. cbn [u_hash u_id u_topic u_payload u_encrypt u_expires u_contract u_tsize].
    rewrite (no_options (owner k) p Hl Hne). unfold entry_expiry. cbn [topic_ttl get_option].
    assert (Eexp : (if ((expires =? 0)%N && (0 <? 0)%N)%bool then 0%N else expires) = expires) by (destruct (expires =? 0)%N; reflexivity).
    rewrite Eexp. reflexivity. }
  rewrite E. clear E. destruct (set_entry c s now (an_entry p payload expires k encrypt)); reflexivity.
Qed.

Lemma entry_again c gens t ord immut enc ops now k p payload expires encrypt : setting_ok c gens -> c_dur (c_mem c) <= t ->
  session_ok c t [] (ops ++ [SPut now k p payload expires encrypt]) -> (N.of_nat (length ops) < 130000)%N ->
  exists s s1 e1, fst (drun c (Down no_files) (DoOpen gens t ord immut enc :: map as_dop ops)) = Up s /\
    put_entry c s now (an_entry p payload expires k encrypt) = (s1, e1, DOk) /\
    forall now2 payload2, put_result c s1 now2 (with_payload e1 payload2) = put_result c s1 now2 (an_entry p payload2 expires k encrypt).
Proof.
  intros Hset Ht Hok Hn. destruct (book_end c gens t ord immut enc ops _ Hset Ht Hok) as (s & outs & l & g & off & H & first & M & T & e & t' & sl & E & Hi & B & Hs & He & Hq & Hp).
  { rewrite app_length. cbn [length]. lia. }
  cbn [session_ok clock] in Hs. destruct Hs as (Hc & Hput & _). cbn [length] in *.
  destruct (put_step c gens s l g off H first M T e t' now k p payload expires encrypt Hset Hi ltac:(lia) ltac:(lia) Hput) as (s1 & e1 & m & g' & Ep & Em & Eq & Hi1 & _).
  exists s, s1, e1. rewrite E. split; [reflexivity|]. change (put_arg p payload expires k encrypt) with (an_entry p payload expires k encrypt) in Ep. split; [exact Ep|].
  intros now2 payload2. pose proof (put_back c s now (an_entry p payload expires k encrypt) s1 e1 eq_refl Ep) as Eb. cbv zeta in Eb. cbn [an_entry u_contract u_topic u_expires u_encrypt] in Eb. fold (owner k) in Eb.
  destruct Hput as [Hk Hpl _ _ _ _ _]. assert (Hl : Forall level_ok (pt_levels p)) by (eapply plain_levels; exact Hpl).
  pose proof (plain_text _ _ Hpl) as Hne.
  rewrite (no_options (owner k) p Hl Hne) in Eb. unfold entry_expiry in Eb. cbn [topic_ttl get_option] in Eb.
  assert (Eexp : (if ((expires =? 0)%N && (0 <? 0)%N)%bool then 0%N else expires) = expires) by (destruct (expires =? 0)%N; reflexivity).
  rewrite Eexp in Eb. rewrite Eb. unfold with_payload. cbn [u_id u_topic u_expires u_contract u_encrypt u_hash u_tsize].
  apply same_entry; [exact Hl|exact Hne|reflexivity|].
  assert (Eh : gm_hash m = get_hash (owner k) (add_contract (owner k) (parse_topic (owner k) (text p)))) by (unfold gm_hash; rewrite Em; reflexivity).
  assert (Hin : exists x, In x (l ++ [m]) /\ gm_hash x = gm_hash m) by (exists m; split; [apply in_or_app; right; left; reflexivity|reflexivity]).
  rewrite <- Eh. rewrite (proj1 (trie_set _ _ _ (gm_hash m) 0 (iv_trie _ _ _ _ _ _ _ _ _ _ _ Hi1) Hin)). discriminate.
Qed.

(** * The query *)
Lemma answered_app first : forall ops l outs more, answered first l (ops ++ more) outs ->
  exists o1 o2, outs = o1 ++ o2 /\ answered first (l ++ concat (map sends ops)) more o2.
Proof.
  induction ops as [|o r IH]; intros l outs more Ha.
  - exists [], outs. cbn [map concat app]. rewrite app_nil_r. auto.
  - destruct outs as [|x xs]; [contradiction|]. cbn [app answered] in Ha. destruct Ha as [_ Ha]. apply IH in Ha as (o1 & o2 & -> & Ha).
    exists (x :: o1), o2. split; [reflexivity|]. cbn [map concat]. now rewrite app_assoc.
Qed.
Lemma query_again c gens t ord immut enc ops now g1 g2 k names l1 l2 : setting_ok c gens -> 0 <= t ->
  session_ok c t [] (ops ++ [SGet now g1 k names l1; SGet now g2 k names l2]) -> (N.of_nat (length ops) < 129999)%N ->
  exists first outs i1 i2, snd (drun c (Down no_files) (DoOpen gens t ord immut enc :: map as_dop (ops ++ [SGet now g1 k names l1; SGet now g2 k names l2]))) =
      outs ++ [OGot (QItems i1); OGot (QItems i2)] /\
    (Forall (fun o => syncs o = false) ops -> first = None) /\ (spared first k names = false -> i1 = i2).
Proof.
  intros Hset Ht Hok Hn. destruct (session c gens t ord immut enc _ Hset Ht Hok) as (first & outs & E & Hf & Ha).
  { rewrite app_length. cbn [length]. lia. }
  destruct (answered_app _ _ _ _ _ Ha) as (o1 & o2 & -> & Ha2). cbn [answered] in Ha2.
  destruct o2 as [|x1 [|x2 [|]]]; try contradiction; try (destruct Ha2 as [_ Ha2]; contradiction); try (destruct Ha2 as (_ & _ & Ha2); contradiction).
  destruct Ha2 as ((i1 & -> & _ & H1) & (i2 & -> & _ & H2) & _). cbn [sends] in H2. rewrite !app_nil_r in H2.
  exists first, (OOpened true :: o1), i1, i2. split; [exact E|]. split.
  - intros H0. apply Hf. apply Forall_app. split; [exact H0|]. repeat constructor.
  - intros Hsp. rewrite H1, H2 by exact Hsp. reflexivity.
Qed.

(** * The batch *)
Lemma set_entry_left c s now e s' e' x v : set_entry c s now e = SOk s' e' x v -> exists q, s' = set_seq s q.
Proof.
  unfold set_entry. cbv zeta. match goal with |- context [let (_, _) := ?p in _] => destruct p as [e0 raw] end. destruct (u_hash e0); [|discriminate].
  destruct (u_id e0) as [id|].
  - destruct (Nat.ltb _ _); [discriminate|]. destruct (_ =? 0)%N; [discriminate|]. match goal with |- context [match ?o with Some _ => _ | None => SPanic end] => destruct o end; [|discriminate]. intros [= <- _ _ _].
    exists (d_seq s). now destruct s.
  - destruct (_ =? 0)%N; [discriminate|]. match goal with |- context [match ?o with Some _ => _ | None => SPanic end] => destruct o end; [|discriminate]. intros [= <- _ _ _]. now exists (u64 (d_seq s + 1)).
Qed.
Lemma set_seq_twice s q r : set_seq (set_seq s q) r = set_seq s r.
Proof. reflexivity. Qed.
Lemma set_seq_same s : set_seq s (d_seq s) = s.
Proof. now destruct s. Qed.
Lemma step_left c s b o s' b' : match o with BWrite _ _ => False | _ => True end -> batch_step c s b o = Some (s', b') -> exists q, s' = set_seq s q.
Proof.
  destruct o as [now e|now e|]; [| |contradiction]; intros _; cbn [batch_step].
  - unfold batch_put_entry. destruct (check_put e). { intros [= <- _]. exists (d_seq s). now rewrite set_seq_same. }
    cbv zeta. destruct (set_entry _ _ _ _) eqn:Ee; [|intros [= <- _]; exists (d_seq s); now rewrite set_seq_same|discriminate].
    intros [= <- _]. eapply set_entry_left; exact Ee.
  - unfold batch_delete_entry. cbv zeta.
    do 4 (match goal with |- context [if ?b then _ else _] => destruct b; [intros [= <- _]; exists (d_seq s); now rewrite set_seq_same|] end).
    destruct (set_entry _ _ _ _) eqn:Ee; [|intros [= <- _]; exists (d_seq s); now rewrite set_seq_same|discriminate].
    intros [= <- _]. eapply set_entry_left; exact Ee.
Qed.
Lemma left_seq c : forall ops s b, unwritten ops -> exists q, batch_left c s b ops = set_seq s q.
Proof.
  induction ops as [|o r IH]; intros s b Hu; cbn [batch_left]; [exists (d_seq s); now rewrite set_seq_same|].
  inversion Hu as [|? ? Ho Hr]; subst. destruct (batch_step c s b o) as [[s' b']|] eqn:Es; [|exists (d_seq s); now rewrite set_seq_same].
  destruct (step_left _ _ _ _ _ _ Ho Es) as (q & ->). destruct (IH (set_seq s q) b' Hr) as (q' & ->). exists q'. apply set_seq_twice.
Qed.
Lemma add_block_wal s now pick : m_wal (addTimeBlock s now pick) = m_wal s.
Proof.
  unfold addTimeBlock. destruct (live s now); [reflexivity|]. cbv zeta. destruct pick as [i|]; [|reflexivity]. destruct (existsb _ _); reflexivity.
Qed.
Lemma failing c s now pick ops n1 n2 p1 p2 : db_batch_run c s now pick ops true n1 n2 p1 p2 = None.
Proof. unfold db_batch_run. destruct (db_batch s now pick) as [s0 b0]. destruct (batch_steps c s0 b0 ops) as [[s1 b1]|]; reflexivity. Qed.

Lemma left_disk c s now pick ops : unwritten ops -> let (s0, b) := db_batch s now pick in
  on_disk (batch_left c s0 b ops) = on_disk s /\ d_trie (batch_left c s0 b ops) = d_trie s /\ d_tw (batch_left c s0 b ops) = d_tw s /\
  d_count (batch_left c s0 b ops) = d_count s.
Proof.
  intros Hu. unfold db_batch. destruct (left_seq c ops (set_mem s (batch_new (d_mem s) now pick)) (mkBatch [] now [] MasterContract (d_enc s =? 1)%N) Hu) as (q & ->).
  split; [|auto]. unfold on_disk. cbn [set_seq set_mem d_mem d_info d_win d_index d_data d_lfile]. unfold batch_new. now rewrite add_block_wal.
Qed.
Lemma batch_crash c s now pick ops n1 n2 p1 p2 more : unwritten ops ->
  drun c (Up s) (DoBatch now pick ops true n1 n2 p1 p2 :: more) =
  (fst (drun c (Up s) (DoCrash :: more)), ORes DPanic :: tl (snd (drun c (Up s) (DoCrash :: more)))).
Proof.
  intros Hu. cbn [drun dstep]. rewrite failing. pose proof (left_disk c s now pick ops Hu) as Hl. destruct (db_batch s now pick) as [s0 b]. destruct Hl as [-> _].
  destruct (drun c (Down (on_disk s)) more). reflexivity.
Qed.
