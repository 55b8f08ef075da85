(** Proofs about the database: what operations leave alone, numbering, limits. *)
From Verif Require Import M_Bytes M_Bloom M_File M_DBInfo M_Entry M_MsgId M_Mac M_Topic M_Trie M_Query
  M_IndexBlock M_Lease M_BlockStore M_WinBlock M_Wal M_MemDB M_Window M_Get M_DB S_Get S_DB P_Bytes P_Codec P_Get.
From Coq Require Import Lia ZifyBool ZifyNat ZifyN Sorted Permutation.
Open Scope Z_scope.

(** * What stays the same *)
Definition keeps (s s' : db) : Prop :=
  d_seq s' = d_seq s /\ d_enc s' = d_enc s /\ d_immut s' = d_immut s /\ d_closed s' = d_closed s.
Lemma keeps_refl s : keeps s s.
Proof. now repeat split. Qed.
Lemma keeps_trans a b d : keeps a b -> keeps b d -> keeps a d.
Proof. unfold keeps. intuition congruence. Qed.

Lemma read_one_keeps c k t s q s' o : read_one c k t s q = (s', o) ->
  keeps s s' /\ d_info s' = d_info s /\ d_count s' = d_count s /\ d_last s' = d_last s.
Proof.
  unfold read_one. destruct (mem_get (c_mem c) (d_mem s) q) as [m g].
  destruct g; cbn [d_index d_data set_mem].
  - destruct (entry_unmarshal v); [destruct (cache_message _ _) as [[id val]|]|]; intros [= <- <-]; now repeat split.
  - destruct (readEntry _ _) as [[]|]; [destruct (readMessage _ _) as [[id val]|]| | |]; intros [= <- <-]; now repeat split.
  - destruct (readEntry _ _) as [[]|]; [destruct (readMessage _ _) as [[id val]|]| | |]; intros [= <- <-]; now repeat split.
  - destruct (readEntry _ _) as [[]|]; [destruct (readMessage _ _) as [[id val]|]| | |]; intros [= <- <-]; now repeat split.
  - intros [= <- <-]; now repeat split.
  - intros [= <- <-]; now repeat split.
Qed.

Section Inv.
Context {S : Type} (rd : S -> N -> S * outcome) (P : S -> Prop).
Lemma pass_inv (Hrd : forall s q s' o, P s -> rd s q = (s', o) -> P s') qs : forall s items inv s' i n e, P s -> pass rd s qs items inv = (s', i, n, e) -> P s'.
Proof.
  induction qs as [|q r IH]; intros s items inv s' i n e Hp H; cbn [pass] in H; [now injection H as <- <- <- <-|].
  destruct (q =? 0)%N; [eapply IH; eassumption|]. destruct (rd s q) as [s1 o] eqn:E. pose proof (Hrd _ _ _ _ Hp E) as H1.
  destruct o; try (eapply IH; eassumption); now injection H as <- <- <- <-.
Qed.
Lemma loop_inv (Hrd : forall s q s' o, P s -> rd s q = (s', o) -> P s') fuel : forall s win cap L a b items s' r, P s -> get_loop fuel rd s win cap L a b items = (s', r) -> P s'.
Proof.
  induction fuel as [|fuel IH]; intros s win cap L a b items s' r Hp H; cbn [get_loop] in H; [now injection H as <- <-|].
  destruct (cut win cap a b) as [qs|]; [|now injection H as <- <-].
  destruct (pass rd s qs items 0) as [[[s1 i] n] e] eqn:E. pose proof (pass_inv Hrd _ _ _ _ _ _ _ _ Hp E) as H1.
  destruct e; [|now injection H as <- <-|now injection H as <- <-].
  destruct (_ || _)%bool; [now injection H as <- <-|]. destruct (_ <=? _); eapply IH; eassumption.
Qed.
Lemma get_inv (Hrd : forall s q s' o, P s -> rd s q = (s', o) -> P s') s win cap L s' r : P s -> get_entries rd s win cap L = (s', r) -> P s'.
Proof.
  unfold get_entries. destruct win as [|w0 wr]; [now intros Hp [= <- <-]|]. apply loop_inv. exact Hrd.
Qed.
End Inv.

Lemma db_get_keeps c s now g q s' q' r : db_get c s now g q = (s', q', r) ->
  keeps s s' /\ d_info s' = d_info s /\ d_count s' = d_count s.
Proof.
  unfold db_get. destruct (d_closed s); [intros [= <- _ _]; now repeat split|].
  destruct (Nat.eqb _ _); [intros [= <- _ _]; now repeat split|].
  destruct (_ <? _)%N; [intros [= <- _ _]; now repeat split|].
  destruct (parse_limit _ _ _ _ _) as [L cutoff].
  destruct (lookup_topics _ _ _ _ _ _ _) as [win|]; [|intros [= <- _ _]; now repeat split].
  destruct (get_entries _ _ _ _ _) as [s1 res] eqn:E.
  assert (H : keeps s s1 /\ d_info s1 = d_info s /\ d_count s1 = d_count s).
  { revert E. apply (get_inv _ (fun x => keeps s x /\ d_info x = d_info s /\ d_count x = d_count s)); [|now repeat split].
    intros a z b o (H1 & H2 & H3) Hr. apply read_one_keeps in Hr as (K & K2 & K3 & _).
    split; [eapply keeps_trans; eassumption|]. split; congruence. }
  destruct res; intros [= <- _ _]; exact H.
Qed.

Lemma set_entry_seq c s now e s' e' x cache : set_entry c s now e = SOk s' e' x cache ->
  (exists id, u_id e = Some id /\ s' = s /\ e_seq x = id_sequence id) \/
  (u_id e = None /\ s' = next_seq s /\ e_seq x = d_seq s').
Proof.
  unfold set_entry. cbv zeta.
  set (pr := match u_hash e with Some _ => (e, []) | None => _ end).
  assert (Hid : u_id (fst pr) = u_id e) by (subst pr; destruct (u_hash e); reflexivity).
  destruct pr as [e1 raw]. cbn [fst] in Hid.
  destruct (u_hash e1) as [h|]; [|discriminate]. rewrite Hid.
  destruct (u_id e) as [id|] eqn:Eid.
  - destruct (Nat.ltb (length id) 16); [discriminate|]. destruct (id_sequence id =? 0)%N; [discriminate|].
    match goal with |- context [match (if ?b then ?x else ?y) with _ => _ end] => destruct (if b then x else y) as [val|] end; [|discriminate].
    intros [= <- <- <- _]. left. exists id. repeat split.
  - destruct (d_seq (next_seq s) =? 0)%N; [discriminate|].
    match goal with |- context [match (if ?b then ?x else ?y) with _ => _ end] => destruct (if b then x else y) as [val|] end; [|discriminate].
    intros [= <- <- <- _]. right. repeat split.
Qed.

Lemma put_entry_keeps c s now e s' e' r : put_entry c s now e = (s', e', r) ->
  d_enc s' = d_enc s /\ d_immut s' = d_immut s /\ d_closed s' = d_closed s /\ d_info s' = d_info s /\ d_count s' = d_count s /\
  (d_seq s' = d_seq s \/ d_seq s' = d_seq (next_seq s)).
Proof.
  unfold put_entry. destruct (d_closed s) eqn:Hc; [intros [= <- _ _]; intuition|].
  destruct (check_put e); [intros [= <- _ _]; intuition|].
  destruct (set_entry c s now e) as [s1 e1 x cache| |] eqn:E; try (intros [= <- _ _]; intuition; fail).
  assert (H1 : d_enc s1 = d_enc s /\ d_immut s1 = d_immut s /\ d_closed s1 = d_closed s /\ d_info s1 = d_info s /\ d_count s1 = d_count s /\
               (d_seq s1 = d_seq s \/ d_seq s1 = d_seq (next_seq s))).
  { apply set_entry_seq in E as [(id & _ & -> & _)|(_ & -> & _)]; repeat split; auto. }
  rewrite Hc in H1.
  destruct (mem_put _ _ _ _) as [m mr].
  destruct mr; try (intros [= <- _ _]; exact H1).
  destruct (add_topic _ _ _ _); intros [= <- _ _]; exact H1.
Qed.

Lemma put_entry_handed c s now e s' e' r : put_entry c s now e = (s', e', r) -> u_id e = None -> r <> DPanic ->
  handed c (Up s) (DoPut now e) = [] /\ d_seq s' = d_seq s \/
  handed c (Up s) (DoPut now e) = [d_seq (next_seq s)] /\ d_seq s' = d_seq (next_seq s).
Proof.
  unfold put_entry, handed. intros H Hid Hr. rewrite Hid. destruct (d_closed s); [injection H as <- _ _; now left|].
  destruct (check_put e); [injection H as <- _ _; now left|].
  destruct (set_entry c s now e) as [s1 e1 x cache| |] eqn:E.
  - right. apply set_entry_seq in E as [(id & Eid & _)|(_ & -> & ->)]; [congruence|]. split; [reflexivity|].
    destruct (mem_put _ _ _ _) as [m mr]. destruct mr; try (injection H as <- _ _; reflexivity).
    destruct (add_topic _ _ _ _); injection H as <- _ _; reflexivity.
  - left. now injection H as <- _ _.
  - left. now injection H as <- _ _.
Qed.

Lemma delete_keeps c s seq s' r : db_delete c s seq = (s', r) -> keeps s s' /\ d_info s' = d_info s /\ (d_count s < 2 ^ 64 -> d_count s' < 2 ^ 64)%N.
Proof.
  unfold db_delete. destruct (d_immut s) eqn:Hi; [intros [= <- _]; now repeat split|].
  destruct (mem_delete _ _ _) as [m mr].
  assert (H : keeps s (set_mem s m) /\ d_info (set_mem s m) = d_info s /\ (d_count s < 2 ^ 64 -> d_count (set_mem s m) < 2 ^ 64)%N) by now repeat split.
  destruct mr; try (intros [= <- _]; exact H);
  (destruct (newBlockWriter _ _ _) as [w|]; [|intros [= <- _]; exact H]; destruct (bw_del _ _) as [[w' e]|]; [|intros [= <- _]; exact H];
   destruct (freeBlock _ _ _); intros [= <- _]; [|exact H]; split; [apply H|]; split; [apply H|]; intros _; cbn [d_count set_free];
   unfold count_sub; apply N.mod_lt; discriminate).
Qed.
Lemma delete_entry_keeps c s e s' r : delete_entry c s e = (s', r) -> keeps s s' /\ d_info s' = d_info s /\ (d_count s < 2 ^ 64 -> d_count s' < 2 ^ 64)%N.
Proof.
  unfold delete_entry.
  destruct (d_immut s); [intros [= <- _]; now repeat split|].
  repeat (destruct (Nat.eqb _ _); [intros [= <- _]; now repeat split|]).
  destruct (_ <? _)%N; [intros [= <- _]; now repeat split|].
  destruct (Nat.ltb _ _); [intros [= <- _]; now repeat split|]. apply delete_keeps.
Qed.

(** ** Sync *)
Definition info_form (s : db) (b : bytes) : Prop :=
  b = d_info s \/ exists n, (n < 2 ^ 64)%N /\ b = write_info (d_enc s) (d_seq s) n.
Definition keeps2 (s s' : db) : Prop :=
  keeps s s' /\ info_form s (d_info s') /\ ((d_count s < 2 ^ 64)%N -> (d_count s' < 2 ^ 64)%N).
Lemma keeps2_refl s : keeps2 s s.
Proof. split; [apply keeps_refl|]. split; [now left|auto]. Qed.
Lemma keeps2_trans a b d : keeps2 a b -> keeps2 b d -> keeps2 a d.
Proof.
  intros ((A1 & A2 & A3 & A4) & A5 & A6) ((B1 & B2 & B3 & B4) & B5 & B6). split; [repeat split; congruence|].
  split; [|auto]. destruct B5 as [->|(n & Hn & ->)]; [exact A5|]. right. exists n. split; [exact Hn|]. now rewrite A1, A2.
Qed.

Lemma sync_abort_keeps st s : sync_abort st = Some s -> keeps2 (ss_db st) s.
Proof.
  unfold sync_abort. destruct (ww_fold _ _ _).
  - destruct (free_all _ _); [|discriminate]. intros [= <-]. split; [now repeat split|]. split; [now left|].
    intros _. apply N.mod_lt. discriminate.
  - intros [= <-]. split; [now repeat split|]. split; [now left|auto].
Qed.
Lemma sync_write_keeps st r : sync_write st = r ->
  match r with SyOk st' | SyErr st' => keeps2 (ss_db st) (ss_db st') | SyPanic => True end.
Proof.
  intros <-. unfold sync_write. destruct (_ =? 0)%N; [apply keeps2_refl|].
  destruct (ww_write _) as [w|]; [destruct (bw_commit _ _) as [b|]|]; cbn [ss_db].
  - split; [now repeat split|]. cbn [ss_files set_files d_info d_count]. unfold info_bytes, u64.
    assert (Hlt : (forall n, n mod 2 ^ 64 < 2 ^ 64)%N) by (intro; apply N.mod_lt; discriminate).
    split; [right; eexists; split; [apply Hlt|reflexivity]|auto].
  - destruct (sync_abort st) eqn:E; [|exact I]. now apply sync_abort_keeps.
  - destruct (sync_abort st) eqn:E; [|exact I]. now apply sync_abort_keeps.
Qed.
Lemma block_entries_keeps rec t seqs : forall st m,
  match block_entries rec st t seqs m with
  | BOk st' _ | BErr st' => keeps2 (ss_db st) (ss_db st')
  | BPanic => True
  end.
Proof.
  induction seqs as [|q r IH]; intros st m; cbn [block_entries]; [apply keeps2_refl|].
  destruct (mem_lookup _ _ _); try exact I; try (specialize (IH (mkSS (ss_db st) (ss_ww st) (ss_bw st) (ss_upper st) (ss_count st) true) m); exact IH).
  destruct (entry_unmarshal v) as [x|]; [|exact I]. destruct (bw_append _ _ _) as [b|b e|]; [| |exact I].
  - destruct (if rec then _ else _) as [tr|]; [|exact I].
    match goal with |- context [block_entries rec ?a t r ?b] => specialize (IH a b) end.
    cbn [ss_db] in IH. destruct (block_entries _ _ _ _ _); auto; (eapply keeps2_trans; [|exact IH]); (split; [now repeat split|]; split; [now left|auto]).
  - destruct e; try apply keeps2_refl.
    match goal with |- context [block_entries rec ?a t r ?b] => specialize (IH a b) end. exact IH.
Qed.
Lemma block_windows_keeps now m : forall st,
  match block_windows now st m with
  | SyOk st' | SyErr st' => keeps2 (ss_db st) (ss_db st')
  | SyPanic => True
  end.
Proof.
  induction m as [|[h es] r IH]; intros st; cbn [block_windows]; [apply keeps2_refl|].
  destruct (getOffset _ _); [|apply keeps2_refl]. destruct (ww_append _ _ _ _ _) as [w o|w|]; [|apply keeps2_refl|exact I].
  destruct (setOffset _ _) as [tr ok]. destruct ok; [|split; [now repeat split|]; split; [now left|auto]].
  match goal with |- context [block_windows now ?a r] => specialize (IH a) end. cbn [ss_db] in IH.
  destruct (block_windows _ _ _); auto; (eapply keeps2_trans; [|exact IH]); (split; [now repeat split|]; split; [now left|auto]).
Qed.
Lemma set_mem_keeps2 s m : keeps2 s (set_mem s m).
Proof. split; [now repeat split|]. split; [now left|auto]. Qed.
Lemma sync_block_keeps now ord keys st t :
  match sync_block now ord keys st t with
  | SyOk st' | SyErr st' => keeps2 (ss_db st) (ss_db st')
  | SyPanic => True
  end.
Proof.
  unfold sync_block. destruct (seq_asc _) as [|q r] eqn:Eq; [apply keeps2_refl|].
  match goal with |- context [block_entries false ?a t ?b []] => pose proof (block_entries_keeps false t b a []) as H1 end. cbn [raise_upper ss_db] in H1.
  destruct (block_entries _ _ _ _ _) as [st1 m|st1|]; [|exact H1|exact I].
  pose proof (block_windows_keeps now (ord m) st1) as H2.
  destruct (block_windows _ _ _) as [st2|st2|]; [|eapply keeps2_trans; eassumption|exact I].
  assert (H12 := keeps2_trans _ _ _ H1 H2). destruct (ss_err1 st2); [exact H12|].
  pose proof (sync_write_keeps st2 _ eq_refl) as H3.
  destruct (sync_write st2) as [st3|st3|]; [|eapply keeps2_trans; eassumption|exact I].
  assert (H123 := keeps2_trans _ _ _ H12 H3). destruct (tw_release _ _ _) as [tw|]; [|exact H123].
  destruct (mem_free _ _) as [mm mr]. cbn [ss_db ss_set_db].
  assert (H4 : keeps2 (ss_db st) (set_mem (set_tw (ss_db st3) tw) mm)).
  { eapply keeps2_trans; [exact H123|]. split; [now repeat split|]. split; [now left|auto]. }
  destruct mr; exact H4.
Qed.
Lemma sync_blocks_keeps f ts : (forall st t, match f st t with SyOk st' | SyErr st' => keeps2 (ss_db st) (ss_db st') | SyPanic => True end) ->
  forall st, match sync_blocks f st ts with SyOk st' | SyErr st' => keeps2 (ss_db st) (ss_db st') | SyPanic => True end.
Proof.
  intro Hf. induction ts as [|t r IH]; intro st; cbn [sync_blocks]; [apply keeps2_refl|].
  pose proof (Hf st t) as H. destruct (f st t) as [st1|st1|]; [|exact H|exact I].
  specialize (IH st1). destruct (sync_blocks _ _ _); auto; eapply keeps2_trans; eassumption.
Qed.
Lemma db_sync_keeps now ord s s' r : db_sync now ord s = (s', r) -> keeps2 s s'.
Proof.
  unfold db_sync, start_sync. destruct (_ =? _)%N; [intros [= <- _]; apply keeps2_refl|].
  destruct (newBlockWriter _ _ _) as [b|]; [|intros [= <- _]; apply keeps2_refl].
  match goal with |- context [sync_blocks ?f ?st ?ts] => pose proof (sync_blocks_keeps f ts (sync_block_keeps _ _ _) st) as H end. cbn [ss_db] in H.
  destruct (sync_blocks _ _ _) as [st|st|]; [intros [= <- _]; exact H| |intros [= <- _]; apply keeps2_refl].
  destruct (sync_abort st) eqn:E; intros [= <- _]; [|apply keeps2_refl].
  eapply keeps2_trans; [exact H|]. now apply sync_abort_keeps.
Qed.

(** ** Open *)
Lemma recover_block_keeps now ord st pend t st' pend' b :
  recover_block now ord (st, pend) t = Some (st', pend', b) -> keeps2 (ss_db st) (ss_db st').
Proof.
  unfold recover_block. destruct (seq_asc _) as [|q r]; [intros [= <- _ _]; apply keeps2_refl|].
  match goal with |- context [block_entries true ?a t ?b []] => pose proof (block_entries_keeps true t b a []) as H1 end. cbn [raise_upper ss_db] in H1.
  destruct (block_entries _ _ _ _ _) as [st1 m|st1|]; [|intros [= <- _ _]; exact H1|discriminate].
  destruct (ss_err1 st1); [intros [= <- _ _]; exact H1|].
  match goal with |- context [block_windows now st1 ?a] => pose proof (block_windows_keeps now a st1) as H2 end.
  destruct (block_windows _ _ _) as [st2|st2|]; [|intros [= <- _ _]; eapply keeps2_trans; eassumption|discriminate].
  assert (H12 := keeps2_trans _ _ _ H1 H2).
  pose proof (sync_write_keeps st2 _ eq_refl) as H3.
  destruct (sync_write st2) as [st3|st3|]; [|intros [= <- _ _]; eapply keeps2_trans; eassumption|discriminate].
  assert (H123 := keeps2_trans _ _ _ H12 H3).
  destruct (mem_free _ _) as [mm mr]. destruct mr; intros [= <- _ _]; (eapply keeps2_trans; [exact H123|]); apply set_mem_keeps2.
Qed.
Lemma recover_blocks_keeps now ord ts : forall st pend st' pend' b,
  recover_blocks now ord (st, pend) ts = Some (st', pend', b) -> keeps2 (ss_db st) (ss_db st').
Proof.
  induction ts as [|t r IH]; intros st pend st' pend' b; cbn [recover_blocks]; [intros [= <- _ _]; apply keeps2_refl|].
  destruct (recover_block now ord (st, pend) t) as [[[st1 pend1] b1]|] eqn:E; [|discriminate].
  apply recover_block_keeps in E. destruct b1; [|intros [= <- _ _]; exact E].
  intro H. apply IH in H. eapply keeps2_trans; eassumption.
Qed.
Lemma recover_keeps now ord s s' : recover now ord s = Some s' -> keeps2 s s'.
Proof.
  unfold recover, start_sync. destruct (_ =? _)%N; [intros [= <-]; apply keeps2_refl|].
  destruct (newBlockWriter _ _ _) as [b|]; [|intros [= <-]; apply keeps2_refl].
  destruct (recover_blocks _ _ _ _) as [[[st pend] ok]|] eqn:E; [|discriminate].
  apply recover_blocks_keeps in E. cbn [ss_db] in E. destruct ok.
  - pose proof (block_windows_keeps now (ord pend) st) as H2. destruct (block_windows _ _ _) as [st2|st2|]; try discriminate.
    pose proof (sync_write_keeps st2 _ eq_refl) as H3. destruct (sync_write st2) as [st3|st3|]; try discriminate.
    intros [= <-]. eapply keeps2_trans; [exact E|]. eapply keeps2_trans; eassumption.
  - destruct (ss_err1 st); [discriminate|]. intro Ha. apply sync_abort_keeps in Ha. eapply keeps2_trans; eassumption.
Qed.

(** The info file as it is between operations. *)
Definition info_good (n : N) (b : bytes) : Prop :=
  (b = [] /\ n = 0%N) \/ exists enc cnt, (enc < 256)%N /\ (n < 2 ^ 64)%N /\ (cnt < 2 ^ 64)%N /\ b = write_info enc n cnt.
Lemma db_open_seq c gens now ord immut enc f n s : info_good n (f_info f) -> db_open c gens now ord immut enc f = Opened s ->
  d_seq s = n /\ (d_enc s < 256)%N /\ (d_count s < 2 ^ 64)%N /\ d_closed s = false.
Proof.
  intros Hg H. unfold db_open in H.
  assert (Hh : exists cnt, (cnt < 2 ^ 64)%N /\ open_header enc (match f_info f with [] => None | b => Some b end) = OpenOk (mkInfo signature version 1 n cnt)).
  { destruct Hg as [[-> ->]|(e & cnt & He & Hn & Hc & ->)].
    - exists 0%N. split; [reflexivity|]. unfold open_header. rewrite open_info_fresh. now destruct enc.
    - exists cnt. split; [exact Hc|]. pose proof (open_header_written enc e n cnt He Hn Hc) as Hw.
      destruct (write_info e n cnt) eqn:E; [discriminate E|exact Hw]. }
  destruct Hh as (cnt & Hc & Hh). rewrite Hh in H.
  destruct (mem_open _ _ _ _) as [m|]; [|discriminate]. destruct (load_trie _ _ _ _) as [tr|]; [|discriminate].
  destruct (lease_read _ _) as [l| |]; try discriminate.
  destruct (recover _ _ _) as [s1|] eqn:Er; [|discriminate]. injection H as <-.
  apply recover_keeps in Er as ((K1 & K2 & _) & _ & K3). cbn in *. rewrite K1, K2. repeat split; auto.
Qed.

(** * Numbering *)
Definition num_inv (n : N) (w : world) : Prop :=
  match w with
  | Up s => d_seq s = n /\ (n < 2 ^ 64)%N /\ (d_enc s < 256)%N /\ (d_count s < 2 ^ 64)%N /\ d_closed s = false
  | Down f => info_good n (f_info f)
  end.
Lemma num_up s n s' : keeps s s' -> (d_count s < 2 ^ 64 -> d_count s' < 2 ^ 64)%N -> num_inv n (Up s) -> num_inv n (Up s').
Proof. intros (K1 & K2 & K3 & K4) Hc (A & B & D & E & F). cbn. rewrite K1, K2, K4. repeat split; auto. Qed.
Lemma next_num n : (n + 1 < 2 ^ 64)%N -> u64 (n + 1) = (n + 1)%N.
Proof. intro H. unfold u64. now apply N.mod_small. Qed.

Definition up (n : N) (l : list N) (m : N) : Prop :=
  StronglySorted N.lt l /\ Forall (fun k => (n < k <= m)%N) l /\ (n <= m)%N.
Lemma up_nil n : up n [] n.
Proof. repeat split; try constructor. lia. Qed.
Lemma up_one n : up n [(n + 1)%N] (n + 1).
Proof. repeat split; repeat constructor; lia. Qed.
Lemma up_app n a m b r : up n a m -> up m b r -> up n (a ++ b) r.
Proof.
  intros (A1 & A2 & A3) (B1 & B2 & B3). split; [|split; [|lia]].
  - induction A1 as [|x l Hl IH Hx]; [exact B1|]. inversion A2; subst. cbn. constructor; [now apply IH|].
    apply Forall_app. split; [exact Hx|]. eapply Forall_impl; [|exact B2]. cbn. lia.
  - apply Forall_app. split; (eapply Forall_impl; [|eassumption]); cbn; lia.
Qed.

(** ** Batches *)
Definition keepsb (s s' : db) : Prop :=
  d_enc s' = d_enc s /\ d_immut s' = d_immut s /\ d_closed s' = d_closed s /\ ((d_count s < 2 ^ 64)%N -> (d_count s' < 2 ^ 64)%N).
Lemma keepsb_trans a b d : keepsb a b -> keepsb b d -> keepsb a d.
Proof. unfold keepsb. intuition congruence. Qed.
Lemma keepsb_of s s' : keeps s s' -> ((d_count s < 2 ^ 64)%N -> (d_count s' < 2 ^ 64)%N) -> keepsb s s' /\ d_seq s' = d_seq s.
Proof. unfold keeps, keepsb. intuition. Qed.

Lemma batch_entries_keeps c t l : forall s s', batch_entries c s t l = Some s' -> keepsb s s' /\ d_seq s' = d_seq s.
Proof.
  induction l as [|[del cache] r IH]; intros s s'; cbn [batch_entries]; [intros [= <-]; now repeat split|].
  destruct (entry_unmarshal cache) as [x|]; [|discriminate]. destruct (del && _)%bool.
  - destruct (db_delete c s (e_seq x)) as [s1 r1] eqn:E. apply delete_keeps in E as (K1 & _ & K3).
    destruct (keepsb_of _ _ K1 K3) as (K4 & K5).
    destruct r1; try discriminate; intro H; apply IH in H as (H1 & H2); (split; [eapply keepsb_trans; eassumption|congruence]).
  - destruct (add_topic _ _ _ _) as [tr|]; [|discriminate]. destruct (batch_put _ _ _ _ _) as [m mr].
    destruct mr; try discriminate; try (intros [= <-]; now repeat split).
    intro H. apply IH in H as (H1 & H2). split; [|exact H2]. eapply keepsb_trans; [|exact H1]. now repeat split.
Qed.
Lemma batch_write_keeps c s b now pick s' b' : batch_write_db c s b now pick = Some (s', b') -> keepsb s s' /\ d_seq s' = d_seq s.
Proof.
  unfold batch_write_db. destruct (b_index b) as [|i l]; [intros [= <- _]; now repeat split|].
  destruct (d_closed s) eqn:Ec; [intros [= <- _]; now repeat split|].
  destruct (batch_entries _ _ _ _) as [s1|] eqn:E; [|discriminate]. apply batch_entries_keeps in E as (K1 & K2).
  intros [= <- _]. split; [|exact K2]. eapply keepsb_trans; [exact K1|]. now repeat split.
Qed.
Lemma batch_commit_keeps c s b n1 n2 p1 p2 s' : batch_commit_db c s b n1 n2 p1 p2 = Some s' -> keepsb s s' /\ d_seq s' = d_seq s.
Proof.
  unfold batch_commit_db. destruct (batch_write_db _ _ _ _ _) as [[s1 b1]|] eqn:E; [|discriminate].
  apply batch_write_keeps in E as (K1 & K2). intros [= <-]. split; [|exact K2]. eapply keepsb_trans; [exact K1|]. now repeat split.
Qed.
Lemma batch_put_num c s b now e s' b' e' r : batch_put_entry c s b now e = (s', b', e', r) ->
  keepsb s s' /\
  ((r = DOk /\ u_id e = None /\ check_put e = None /\ s' = next_seq s) \/
   ((r <> DOk \/ u_id e <> None) /\ s' = s)).
Proof.
  unfold batch_put_entry. destruct (check_put e) eqn:Ek; [intros [= <- _ _ <-]; split; [now repeat split|right; split; [left; discriminate|reflexivity]]|].
  match goal with |- context [set_entry c s now ?x] => set (y := x) end.
  destruct (set_entry c s now y) as [s1 e1 x cache| |] eqn:E; intros [= <- _ _ <-].
  - apply set_entry_seq in E as [(id & Hid & -> & _)|(Hid & -> & _)]; subst y; cbn [u_id] in Hid.
    + split; [now repeat split|right]. split; [right; congruence|reflexivity].
    + split; [now repeat split|left]. now repeat split.
  - split; [now repeat split|right]. split; [left; discriminate|reflexivity].
  - split; [now repeat split|right]. split; [left; discriminate|reflexivity].
Qed.
Lemma batch_delete_same c s b now e s' b' e' r : batch_delete_entry c s b now e = (s', b', e', r) -> s' = s.
Proof.
  unfold batch_delete_entry. destruct (d_immut s); [now intros [= <- _ _ _]|].
  destruct (u_id e) as [id|] eqn:Eid; [|now intros [= <- _ _ _]].
  repeat (destruct (Nat.eqb _ _); [now intros [= <- _ _ _]|]).
  destruct (_ <? _)%N; [now intros [= <- _ _ _]|].
  destruct (set_entry c s now e) as [s1 e1 x cache| |] eqn:E; intros [= <- _ _ _]; try reflexivity.
  now apply set_entry_seq in E as [(? & _ & -> & _)|(Hx & _)]; [|congruence].
Qed.
Lemma batch_steps_num c l : forall s b n, d_seq s = n -> (n + N.of_nat (length l) < 2 ^ 64)%N ->
  exists m, up n (handed_batch c s b l) m /\ (m <= n + N.of_nat (length l))%N /\
    forall s' b', batch_steps c s b l = Some (s', b') -> keepsb s s' /\ d_seq s' = m.
Proof.
  induction l as [|o r IH]; intros s b n Hn Hl.
  { exists n. split; [apply up_nil|]. split; [lia|]. intros s' b' [= <- _]. split; [now repeat split|exact Hn]. }
  cbn [handed_batch batch_steps length] in *.
  assert (Hstep : exists m a, (match o with BPut now e => match u_id e, check_put e, batch_put_entry c s b now e with
          | None, None, (s', _, _, DOk) => [d_seq s'] | _, _, _ => [] end | _ => [] end) = a /\ up n a m /\ (m <= n + 1)%N /\
     forall s' b', batch_step c s b o = Some (s', b') -> keepsb s s' /\ d_seq s' = m).
  { destruct o as [now e|now e|now pick]; cbn [batch_step].
    - destruct (batch_put_entry c s b now e) as [[[s1 b1] e1] r1] eqn:E. pose proof (batch_put_num _ _ _ _ _ _ _ _ _ E) as (K & [(-> & Hid & Hk & ->)|(Hr & ->)]).
      + rewrite Hid, Hk. exists (n + 1)%N, [(n + 1)%N]. split; [cbn; now rewrite Hn, next_num by lia|]. split; [apply up_one|]. split; [lia|].
        intros s' b' [= <- _]. split; [exact K|]. cbn. now rewrite Hn, next_num by lia.
      + exists n, []. split; [destruct (u_id e); [reflexivity|]; destruct (check_put e); [reflexivity|]; destruct r1; try reflexivity; destruct Hr; congruence|].
        split; [apply up_nil|]. split; [lia|]. intros s' b'. destruct r1; try discriminate; intros [= <- _]; auto.
    - destruct (batch_delete_entry c s b now e) as [[[s1 b1] e1] r1] eqn:E. apply batch_delete_same in E as ->.
      exists n, []. split; [reflexivity|]. split; [apply up_nil|]. split; [lia|]. intros s' b'. destruct r1; try discriminate; intros [= <- _]; (split; [now repeat split|exact Hn]).
    - exists n, []. split; [reflexivity|]. split; [apply up_nil|]. split; [lia|]. intros s' b' H. apply batch_write_keeps in H as (K1 & K2). split; [exact K1|congruence]. }
  destruct Hstep as (m & a & -> & Hu & Hm & Hs). destruct (batch_step c s b o) as [[s1 b1]|].
  - destruct (Hs _ _ eq_refl) as (K1 & K2). destruct (IH s1 b1 m K2 ltac:(lia)) as (m' & Hu' & Hm' & Hs').
    exists m'. split; [eapply up_app; eassumption|]. split; [lia|]. intros s' b' H. apply Hs' in H as (K3 & K4).
    split; [eapply keepsb_trans; eassumption|exact K4].
  - exists m. rewrite app_nil_r. split; [exact Hu|]. split; [lia|discriminate].
Qed.

Lemma dstep_num c w o w' x n : num_inv n w -> (n + asks o < 2 ^ 64)%N -> dstep c w o = (w', x) -> survives o x ->
  exists m, up n (handed c w o) m /\ (m <= n + asks o)%N /\ num_inv m w'.
Proof.
  intros Hi Hn H (S1 & S2 & S3 & S4).
  assert (Hsame : handed c w o = [] -> num_inv n w' -> exists m, up n (handed c w o) m /\ (m <= n + asks o)%N /\ num_inv m w').
  { intros -> Hi'. exists n. split; [apply up_nil|]. split; [lia|exact Hi']. }
  destruct w as [s|f].
  2:{ destruct o; cbn [dstep] in *; try (injection H as <- <-; apply Hsame; auto; fail).
      apply Hsame; [reflexivity|].
      destruct (db_open _ _ _ _ _ _ _) as [s| |] eqn:E; injection H as <- <-; auto.
      destruct (db_open_seq _ _ _ _ _ _ _ _ _ Hi E) as (A & B & D & F). cbn. repeat split; auto. lia. }
  pose proof Hi as (I1 & I2 & I3 & I4 & I5).
  destruct o; cbn [dstep] in H.
  - cbn [asks] in Hn. destruct (put_entry c s now e) as [[s1 e1] r] eqn:E. injection H as <- <-.
    assert (Hr : r <> DPanic) by (intros ->; now apply S2).
    pose proof (put_entry_keeps _ _ _ _ _ _ _ E) as (K1 & K2 & K3 & K4 & K5 & K6).
    assert (Hal : alive s1 r = Up s1) by (destruct r; try reflexivity; congruence). rewrite Hal in *.
    destruct (u_id e) as [id|] eqn:Eid.
    + apply Hsame; [cbn; now rewrite Eid|]. cbn. rewrite K1, K3, K5. repeat split; auto.
      clear - E Eid I1. unfold put_entry in E. destruct (d_closed s); [now injection E as <- _ _|].
      destruct (check_put e); [now injection E as <- _ _|]. destruct (set_entry c s now e) as [s2 e2 y cache| |] eqn:Es; try (now injection E as <- _ _).
      apply set_entry_seq in Es as [(id' & _ & -> & _)|(Hx & _)]; [|congruence].
      destruct (mem_put _ _ _ _) as [m mr]. destruct mr; try (now injection E as <- _ _). destruct (add_topic _ _ _ _); now injection E as <- _ _.
    + destruct (put_entry_handed _ _ _ _ _ _ _ E Eid Hr) as [(Ha & Hb)|(Ha & Hb)].
      * apply Hsame; [exact Ha|]. cbn [num_inv]. rewrite K1, K3, K5. repeat split; auto. congruence.
      * cbn [next_seq set_seq d_seq] in *. rewrite I1, next_num in * by exact Hn.
        exists (n + 1)%N. rewrite Ha. split; [apply up_one|]. split; [cbn; lia|]. cbn [num_inv]. rewrite K1, K3, K5. repeat split; auto.
  - destruct (delete_entry c s e) as [s1 r] eqn:E. injection H as <- <-.
    apply delete_entry_keeps in E as (K1 & K2 & K3).
    assert (Hal : alive s1 r = Up s1) by (destruct r; try reflexivity; congruence). rewrite Hal in *. apply Hsame; [reflexivity|]. eapply num_up; eassumption.
  - destruct (db_get c s now g q) as [[s1 q1] r] eqn:E. injection H as <- <-.
    apply db_get_keeps in E as (K1 & K2 & K3).
    assert (Hal : alive_q s1 r = Up s1) by (destruct r; try reflexivity; congruence). rewrite Hal in *. apply Hsame; [reflexivity|]. eapply num_up; try eassumption. now rewrite K3.
  - injection H as <- <-. exists (n + 1)%N. cbn [handed db_new_id snd num_inv asks] in *.
    assert (E : d_seq (next_seq s) = (n + 1)%N) by (cbn; now rewrite I1, next_num).
    rewrite E, newID_sequence by exact Hn. split; [apply up_one|]. split; [lia|]. repeat split; auto.
  - injection H as <- <-. apply Hsame; [reflexivity|exact Hi].
  - cbn [handed asks] in *. unfold db_batch_run in H. destruct (db_batch s now pick) as [s0 b0] eqn:Eb.
    assert (Es : s0 = set_mem s (batch_new (d_mem s) now pick)) by now injection Eb.
    assert (Hk0 : keepsb s s0 /\ d_seq s0 = n) by (subst s0; split; [now repeat split|exact I1]).
    destruct Hk0 as (Hk0 & Hq0). destruct (batch_steps_num c l s0 b0 n Hq0 Hn) as (m & Hu & Hm & Hs).
    exists m. split; [exact Hu|]. split; [exact Hm|].
    destruct (batch_steps c s0 b0 l) as [[s1 b1]|]; [|injection H as <- <-; congruence].
    destruct (Hs _ _ eq_refl) as (K1 & K2). destruct fails; [cbn in H; injection H as <- <-; congruence|].
    destruct (batch_commit_db _ _ _ _ _ _ _) as [s2|] eqn:Ec; [|injection H as <- <-; congruence]. injection H as <- <-.
    apply batch_commit_keeps in Ec as (K3 & K4).
    destruct (keepsb_trans _ _ _ (keepsb_trans _ _ _ Hk0 K1) K3) as (L1 & L2 & L3 & L4). cbn [num_inv]. rewrite L1, L3. repeat split; auto; try congruence. lia.
  - destruct (db_sync now ord s) as [s1 r] eqn:E. injection H as <- <-.
    apply db_sync_keeps in E as (K1 & K2 & K3).
    assert (Hal : alive s1 r = Up s1) by (destruct r; try reflexivity; congruence). rewrite Hal in *. apply Hsame; [reflexivity|]. eapply num_up; eassumption.
  - injection H as <- <-. apply Hsame; [reflexivity|]. eapply num_up; try eassumption; [now repeat split|auto].
  - injection H as <- <-. apply Hsame; [reflexivity|]. eapply num_up; try eassumption; [now repeat split|auto].
  - unfold db_close in H. rewrite I5 in H. injection H as <- <-. apply Hsame; [reflexivity|]. cbn. right.
    exists (d_enc s), (d_count s). rewrite <- I1. repeat split; auto. now rewrite I1.
  - congruence.
  - injection H as <- <-. apply Hsame; [reflexivity|exact Hi].
Qed.

Lemma handed_from c ops : forall w n, num_inv n w -> (n + asks_all ops < 2 ^ 64)%N ->
  Forall2 survives ops (snd (drun c w ops)) ->
  StronglySorted N.lt (handed_all c w ops) /\ Forall (fun k => (n < k)%N) (handed_all c w ops).
Proof.
  intros w n Hi Hn Hs. enough (exists m, up n (handed_all c w ops) m) as (m & A & B & D).
  { split; [exact A|]. eapply Forall_impl; [|exact B]. cbn. lia. }
  revert w n Hi Hn Hs.
  induction ops as [|o r IH]; intros w n Hi Hn Hs; [exists n; apply up_nil|].
  cbn [drun handed_all asks_all fold_right] in *. destruct (dstep c w o) as [w1 x] eqn:E. cbn [fst].
  destruct (drun c w1 r) as [w2 xs] eqn:Ed. cbn [snd length] in *. inversion Hs as [|? ? ? ? H1 H2]; subst.
  assert (Ex : xs = snd (drun c w1 r)) by now rewrite Ed. rewrite Ex in H2. change (fold_right _ _ r) with (asks_all r) in Hn.
  destruct (dstep_num c w o w1 x n Hi ltac:(lia) E H1) as (m & Hu & Hm & Hi1).
  destruct (IH _ _ Hi1 ltac:(lia) H2) as (m' & Hu'). exists m'. eapply up_app; eassumption.
Qed.
Lemma handed_increasing c ops : (asks_all ops < 2 ^ 64)%N ->
  Forall2 survives ops (snd (drun c (Down no_files) ops)) -> StronglySorted N.lt (handed_all c (Down no_files) ops).
Proof. intros Hn Hs. apply (handed_from c ops (Down no_files) 0); auto. now left. Qed.

(** Concurrent writers. *)
Lemma turns_above sch : forall n, (n + N.of_nat (length sch) < 2 ^ 64)%N ->
  NoDup (map snd (turns n sch)) /\ Forall (fun k => (n < k)%N) (map snd (turns n sch)).
Proof.
  induction sch as [|i r IH]; intros n Hn; [split; constructor|]. cbn [turns map snd length] in *. rewrite next_num by lia.
  destruct (IH (n + 1)%N ltac:(lia)) as (A & B). rewrite Forall_forall in B. split.
  - constructor; [|exact A]. intro Hin. apply B in Hin. lia.
  - constructor; [lia|]. rewrite Forall_forall. intros x Hx. apply B in Hx. lia.
Qed.
(** * Limits *)
Lemma db_get_limit c s now g q s' q' l :
  (forall w, Z.of_nat (length w) <= g_cap g w) ->
  (db_get c s now g q = (s', q', QItems l) \/ exists e, db_get c s now g q = (s', q', QErr l e)) ->
  Z.of_nat (length l) <= Z.max 0 (q_limit q').
Proof.
  intros Hg H. unfold db_get in H.
  destruct (d_closed s); [destruct H as [H|[e H]]; inversion H; cbn; lia|].
  destruct (Nat.eqb _ _); [destruct H as [H|[e H]]; inversion H; cbn; lia|].
  destruct (_ <? _)%N; [destruct H as [H|[e H]]; inversion H; cbn; lia|].
  destruct (parse_limit _ _ _ _ _) as [L cutoff].
  destruct (lookup_topics _ _ _ _ _ _ _) as [win|]; [|destruct H as [H|[e H]]; inversion H].
  destruct (get_entries _ _ _ _ _) as [s1 res] eqn:E.
  pose proof (get_spec _ _ _ _ _ _ _ (Hg _) (seq_desc_sorted _) E) as Hs.
  destruct res; destruct H as [H|[e H]]; inversion H; subst; cbn [q_limit]; apply Hs.
Qed.
Lemma db_get_order c s now g q s' q' l :
  (forall w, Z.of_nat (length w) <= g_cap g w) ->
  (db_get c s now g q = (s', q', QItems l) \/ exists e, db_get c s now g q = (s', q', QErr l e)) ->
  exists rs, StronglySorted N.ge rs /\
    Forall2 (fun k v => exists s1 s2, read_one c (q_contract q') (q_cutoff q') s1 k = (s2, OItem v)) rs l.
Proof.
  intros Hg H. unfold db_get in H.
  assert (Hnil : exists rs, StronglySorted N.ge rs /\
    Forall2 (fun k v => exists s1 s2, read_one c (q_contract q') (q_cutoff q') s1 k = (s2, OItem v)) rs []).
  { exists []. split; constructor. }
  destruct (d_closed s); [destruct H as [H|[e H]]; inversion H; subst; exact Hnil|].
  destruct (Nat.eqb _ _); [destruct H as [H|[e H]]; inversion H; subst; exact Hnil|].
  destruct (_ <? _)%N; [destruct H as [H|[e H]]; inversion H; subst; exact Hnil|].
  destruct (parse_limit _ _ _ _ _) as [L cutoff].
  destruct (lookup_topics _ _ _ _ _ _ _) as [win|]; [|destruct H as [H|[e H]]; inversion H].
  destruct (get_entries _ _ _ _ _) as [s1 res] eqn:E.
  pose proof (get_spec _ _ _ _ _ _ _ (Hg _) (seq_desc_sorted _) E) as Hs.
  destruct res; destruct H as [H|[e H]]; inversion H; subst; cbn [q_contract q_cutoff]; destruct Hs as (_ & rs & A & B & _); exists rs; (split; [exact B|exact A]).
Qed.
Lemma given_limit def max q c : q <> 0 -> fst (parse_limit def max q c None) = q.
Proof. intro H. unfold parse_limit. destruct (Z.eqb_spec q 0); [congruence|reflexivity]. Qed.
Lemma db_get_given c s now g q s' q' l :
  (forall w, Z.of_nat (length w) <= g_cap g w) -> 0 < q_limit q ->
  topic_last (c_pd c) now (t_options (parse_topic (if (q_contract q =? 0)%N then MasterContract else q_contract q) (q_topic q))) = None ->
  (db_get c s now g q = (s', q', QItems l) \/ exists e, db_get c s now g q = (s', q', QErr l e)) ->
  Z.of_nat (length l) <= q_limit q.
Proof.
  intros Hg Hq Hl H. pose proof (db_get_limit _ _ _ _ _ _ _ _ Hg H) as Hlen.
  enough (q_limit q' = q_limit q) by lia.
  unfold db_get in H. destruct (d_closed s); [destruct H as [H|[e H]]; inversion H; reflexivity|].
  destruct (Nat.eqb _ _); [destruct H as [H|[e H]]; inversion H; reflexivity|].
  destruct (_ <? _)%N; [destruct H as [H|[e H]]; inversion H; reflexivity|].
  cbv zeta in H. rewrite Hl in H. pose proof (given_limit (c_def c) (c_max c) (q_limit q) (q_cutoff q) ltac:(lia)) as Eg.
  destruct (parse_limit _ _ _ _ _) as [L cutoff]. cbn [fst] in Eg. subst L.
  destruct (lookup_topics _ _ _ _ _ _ _) as [win|]; [|destruct H as [H|[e H]]; inversion H].
  destruct (get_entries _ _ _ _ _) as [s1 res]. destruct res; destruct H as [H|[e H]]; inversion H; reflexivity.
Qed.

(** * Rejected operations *)
Lemma check_put_bad e : (u_topic e = [] \/ (maxTopicLength < N.of_nat (length (u_topic e)))%N \/ u_payload e = [] \/
                         (maxValueLength < N.of_nat (length (u_payload e)))%N) -> exists r, check_put e = Some r.
Proof.
  unfold check_put. intros H. destruct (Nat.eqb_spec (length (u_topic e)) 0); [eauto|].
  destruct (N.ltb_spec maxTopicLength (N.of_nat (length (u_topic e)))); [eauto|].
  destruct (Nat.eqb_spec (length (u_payload e)) 0); [eauto|].
  destruct (N.ltb_spec maxValueLength (N.of_nat (length (u_payload e)))); [eauto|].
  exfalso. destruct H as [H|[H|[H|H]]]; try (rewrite H in *; cbn in *); lia.
Qed.
Lemma put_rejected c s now e :
  (d_closed s = true \/ u_topic e = [] \/ (maxTopicLength < N.of_nat (length (u_topic e)))%N \/ u_payload e = [] \/
   (maxValueLength < N.of_nat (length (u_payload e)))%N) ->
  exists r, put_entry c s now e = (s, e, DErr r).
Proof.
  intros H. unfold put_entry. destruct (d_closed s); [eauto|]. destruct H as [H|H]; [discriminate|].
  destruct (check_put_bad e H) as [r ->]. eauto.
Qed.
Lemma put_rejected_run c s now e ops :
  (u_topic e = [] \/ (maxTopicLength < N.of_nat (length (u_topic e)))%N \/ u_payload e = [] \/
   (maxValueLength < N.of_nat (length (u_payload e)))%N) ->
  exists r, drun c (Up s) (DoPut now e :: ops) = (fst (drun c (Up s) ops), ORes (DErr r) :: snd (drun c (Up s) ops)).
Proof.
  intros H. destruct (put_rejected c s now e (or_intror H)) as [r E]. exists r. cbn [drun dstep]. rewrite E. cbn [alive].
  now destruct (drun c (Up s) ops).
Qed.
Lemma batch_put_rejected c s b now e :
  (u_topic e = [] \/ (maxTopicLength < N.of_nat (length (u_topic e)))%N \/ u_payload e = [] \/
   (maxValueLength < N.of_nat (length (u_payload e)))%N) ->
  exists r, batch_put_entry c s b now e = (s, b, e, DErr r).
Proof. intros H. unfold batch_put_entry. destruct (check_put_bad e H) as [r ->]. eauto. Qed.
(** A batch on a closed database says nothing and writes nothing. *)
Lemma closed_entries c s b now pick s' b' : d_closed s = true -> batch_write_db c s b now pick = Some (s', b') ->
  d_tw s' = d_tw s /\ d_trie s' = d_trie s /\ d_closed s' = true.
Proof.
  intros Hc. unfold batch_write_db. rewrite Hc. destruct (b_index b); intros [= <- _]; repeat split; auto.
Qed.

(** ** Immutable *)
Lemma delete_immutable c s e : d_immut s = true -> delete_entry c s e = (s, DErr XImmutable).
Proof. intro H. unfold delete_entry. now rewrite H. Qed.
Lemma batch_delete_immutable c s b now e : d_immut s = true -> batch_delete_entry c s b now e = (s, b, e, DErr XImmutable).
Proof. intro H. unfold batch_delete_entry. now rewrite H. Qed.
Lemma open_immutable c gens now ord immut enc f s : db_open c gens now ord immut enc f = Opened s -> d_immut s = immut /\ d_closed s = false.
Proof.
  unfold db_open. destruct (open_header _ _); try discriminate. destruct (mem_open _ _ _ _) as [m|]; [|discriminate].
  destruct (load_trie _ _ _ _) as [tr|]; [|discriminate]. destruct (lease_read _ _) as [l| |]; try discriminate.
  destruct (recover _ _ _); [|discriminate]. now intros [= <-].
Qed.
Definition imm (w : world) : Prop := match w with Up s => d_immut s = true | Down _ => True end.
Lemma dstep_imm c w o : imm w -> (forall gens now ord enc, o <> DoOpen gens now ord false enc) -> imm (fst (dstep c w o)).
Proof.
  intros Hi Ho. destruct w as [s|f]; cbn [imm] in Hi.
  2:{ destruct o; try exact I. cbn [dstep]. destruct (db_open _ _ _ _ _ _ _) as [s| |] eqn:E; try exact I.
      apply open_immutable in E as (E & _). cbn. rewrite E. destruct immut; [reflexivity|]. now destruct (Ho gens now ord enc). }
  destruct o; cbn [dstep fst].
  - destruct (put_entry c s now e) as [[s1 e1] r] eqn:E. apply put_entry_keeps in E as (_ & K & _). destruct r; cbn; auto; congruence.
  - destruct (delete_entry c s e) as [s1 r] eqn:E. apply delete_entry_keeps in E as ((_ & _ & K & _) & _). destruct r; cbn; auto; congruence.
  - destruct (db_get c s now g q) as [[s1 e1] r] eqn:E. apply db_get_keeps in E as ((_ & _ & K & _) & _). destruct r; cbn; auto; congruence.
  - exact Hi.
  - exact Hi.
  - unfold db_batch_run. destruct (db_batch s now pick) as [s0 b0] eqn:Eb. assert (E0 : d_immut s0 = true) by (injection Eb as <- _; exact Hi).
    destruct (batch_steps c s0 b0 l) as [[s1 b1]|] eqn:Es; [|exact I]. destruct fails; [exact I|].
    destruct (batch_commit_db _ _ _ _ _ _ _) as [s2|] eqn:Ec; [|exact I]. apply batch_commit_keeps in Ec as ((_ & K & _) & _). cbn. rewrite K.
    clear - E0 Es. revert s0 b0 E0 Es. induction l as [|o r IH]; intros s0 b0 E0 Es; cbn [batch_steps] in Es; [now injection Es as <- _|].
    destruct (batch_step c s0 b0 o) as [[s3 b3]|] eqn:E3; [|discriminate]. apply (IH s3 b3); [|exact Es].
    destruct o as [n e|n e|n p]; cbn [batch_step] in E3.
    + destruct (batch_put_entry c s0 b0 n e) as [[[a b] d] r1] eqn:E. apply batch_put_num in E as ((_ & K & _) & _). destruct r1; try discriminate; injection E3 as <- _; congruence.
    + destruct (batch_delete_entry c s0 b0 n e) as [[[a b] d] r1] eqn:E. apply batch_delete_same in E as ->. destruct r1; try discriminate; injection E3 as <- _; congruence.
    + apply batch_write_keeps in E3 as ((_ & K & _) & _). congruence.
  - destruct (db_sync now ord s) as [s1 r] eqn:E. apply db_sync_keeps in E as ((_ & _ & K & _) & _). destruct r; cbn; auto; congruence.
  - exact Hi.
  - exact Hi.
  - unfold db_close. now destruct (d_closed s).
  - exact I.
  - exact Hi.
Qed.
Lemma immutable_run c ops : forall w, imm w -> Forall (fun o => forall gens now ord enc, o <> DoOpen gens now ord false enc) ops ->
  forall i e, nth_error ops i = Some (DoDelete e) -> nth_error (snd (drun c w ops)) i = Some (ORes (DErr XImmutable)) \/
                                                    nth_error (snd (drun c w ops)) i = Some ONone.
Proof.
  induction ops as [|o r IH]; intros w Hi Hf i e Hn; [now destruct i|]. inversion Hf as [|? ? H1 H2]; subst. cbn [drun].
  destruct (dstep c w o) as [w1 x] eqn:E. pose proof (dstep_imm c w o Hi H1) as Hi1. rewrite E in Hi1. cbn [fst] in Hi1.
  specialize (IH w1 Hi1 H2). destruct (drun c w1 r) as [w2 xs]. destruct i as [|i]; cbn [nth_error snd] in *; [|eapply IH; exact Hn].
  injection Hn as ->. destruct w as [s|f]; cbn [dstep] in E.
  - rewrite (delete_immutable c s e Hi) in E. injection E as _ <-. now left.
  - injection E as _ <-. now right.
Qed.

(** * Calls that panic *)
Lemma set_entry_short c s now e : (d_enc s = 1%N \/ u_encrypt e = true) -> (length (c_snap c (u_payload e)) < 4)%nat -> set_entry c s now e = SPanic.
Proof.
  intros He Hl. unfold set_entry. cbv zeta.
  set (pr := match u_hash e with Some _ => (e, []) | None => _ end).
  assert (Hp : u_id (fst pr) = u_id e /\ u_payload (fst pr) = u_payload e /\ u_encrypt (fst pr) = u_encrypt e) by (subst pr; destruct (u_hash e); repeat split).
  destruct pr as [e1 raw]. cbn [fst] in Hp. destruct Hp as (H1 & H2 & H3).
  destruct (u_hash e1) as [h|]; [|reflexivity]. rewrite H1, H2, H3.
  assert (Hc : forall z, d_enc z = d_enc s -> ((d_enc z =? 1)%N || u_encrypt e)%bool = true) by (intros z ->; destruct He as [->| ->]; [reflexivity|apply orb_true_r]).
  assert (Hm : mac_encrypt (c_mac c) (c_snap c (u_payload e)) = None) by (unfold mac_encrypt, EpochSize; now rewrite (proj2 (Nat.ltb_lt _ _) Hl)).
  destruct (u_id e) as [id|].
  - destruct (Nat.ltb (length id) 16); [reflexivity|]. destruct (id_sequence id =? 0)%N; [reflexivity|]. now rewrite (Hc s eq_refl), Hm.
  - destruct (d_seq (next_seq s) =? 0)%N; [reflexivity|]. now rewrite (Hc (next_seq s) eq_refl), Hm.
Qed.
Lemma put_short_panics c s now e : d_enc s = 1%N -> d_closed s = false -> check_put e = None -> (length (c_snap c (u_payload e)) < 4)%nat ->
  put_entry c s now e = (s, e, DPanic).
Proof. intros He Hc Hk Hl. unfold put_entry. rewrite Hc, Hk. now rewrite (set_entry_short c s now e (or_introl He) Hl). Qed.
Lemma batch_delete_panics c s b now id topic : d_enc s = 1%N -> d_immut s = false -> id <> [] -> topic <> [] ->
  (N.of_nat (length topic) <= maxTopicLength)%N -> (length (c_snap c []) < 4)%nat ->
  exists s' b' e', batch_delete_entry c s b now (mkUE (Some id) topic [] 0 0 false None 0) = (s', b', e', DPanic).
Proof.
  intros He Hi Hid Ht Hl Hs. unfold batch_delete_entry. cbn [u_id u_topic]. rewrite Hi.
  destruct id as [|i0 ir]; [congruence|]. destruct topic as [|t0 tr]; [congruence|]. cbn [length Nat.eqb].
  cbn [length] in Hl.
  destruct (N.ltb_spec maxTopicLength (N.of_nat (S (length tr)))); [lia|].
  rewrite (set_entry_short c s now (mkUE (Some (i0 :: ir)) (t0 :: tr) [] 0 0 false None 0) (or_introl He) Hs). do 3 eexists. reflexivity.
Qed.
(** Encryption is always on. *)
Lemma open_encrypts c gens now ord immut enc f n s : info_good n (f_info f) -> db_open c gens now ord immut enc f = Opened s -> d_enc s = 1%N.
Proof.
  intros Hg H. unfold db_open in H.
  assert (Hh : exists cnt, open_header enc (match f_info f with [] => None | b => Some b end) = OpenOk (mkInfo signature version 1 n cnt)).
  { destruct Hg as [[-> ->]|(e & cnt & He & Hn & Hc & ->)].
    - exists 0%N. unfold open_header. rewrite open_info_fresh. now destruct enc.
    - exists cnt. pose proof (open_header_written enc e n cnt He Hn Hc) as Hw.
      destruct (write_info e n cnt) eqn:E; [discriminate E|exact Hw]. }
  destruct Hh as (cnt & Hh). rewrite Hh in H.
  destruct (mem_open _ _ _ _) as [m|]; [|discriminate]. destruct (load_trie _ _ _ _) as [tr|]; [|discriminate].
  destruct (lease_read _ _) as [l| |]; try discriminate.
  destruct (recover _ _ _) as [s1|] eqn:Er; [|discriminate]. injection H as <-.
  apply recover_keeps in Er as ((_ & K2 & _) & _). exact K2.
Qed.
(** The first put to a topic with very many parts. *)
Lemma topic_marshal_length ps d : length (topic_marshal ps d) = (1 + 5 * length ps)%nat.
Proof. unfold topic_marshal. cbn [length]. induction ps as [|p r IH]; [reflexivity|]. cbn [map concat]. rewrite app_length. cbn [part_marshal length]. rewrite le_length. lia. Qed.
Lemma put_deep_panics c s now topic payload :
  let ft := add_contract MasterContract (parse_topic MasterContract topic) in
  (65501 <= N.of_nat (length (topic_marshal (t_parts ft) (t_depth ft))) < 65536)%N ->
  getOffset (d_trie s) (get_hash MasterContract ft) = None ->
  d_closed s = false -> check_put (newEntry topic payload) = None -> (4 <= length (c_snap c payload))%nat ->
  (d_seq s + 1 < 2 ^ 64)%N -> (forall q v, exists m, mem_put (c_mem c) (d_mem s) q v = (m, MOk)) ->
  exists s' e', put_entry c s now (newEntry topic payload) = (s', e', DPanic).
Proof.
  intros ft Hlen Hoff Hc Hk Hs Hq Hm. unfold put_entry. rewrite Hc, Hk. unfold set_entry. cbv zeta. cbn [u_hash u_id u_contract u_topic u_payload u_encrypt u_expires u_tsize newEntry].
  change ((0 =? 0)%N) with true. cbv iota. fold ft. rewrite Hoff. destruct (topic_marshal (t_parts ft) (t_depth ft)) as [|r0 rr] eqn:Er; [discriminate Er|].
  cbn [u_hash u_id u_contract u_topic u_payload u_encrypt u_expires u_tsize].
  assert (En : d_seq (next_seq s) = (d_seq s + 1)%N) by (cbn; now apply next_num). rewrite En.
  destruct (N.eqb_spec (d_seq s + 1) 0); [lia|].
  match goal with |- context [match (if ?b then ?x else ?y) with _ => _ end] => set (val := if b then x else y) end.
  assert (Hv : exists v, val = Some v).
  { subst val. destruct (_ || _)%bool; [|eauto]. unfold mac_encrypt, EpochSize. destruct (Nat.ltb_spec (length (c_snap c payload)) 4); [lia|eauto]. }
  destruct Hv as [v ->]. cbn [d_mem set_seq next_seq e_seq].
  match goal with |- context [mem_put (c_mem c) (d_mem s) ?q ?w] => destruct (Hm q w) as [m ->] end.
  match goal with |- context [add_topic ?a ?b ?d ?f] => assert (Ha : add_topic a b d f = None) end.
  { unfold add_topic. cbn [e_topicSize]. unfold u16. rewrite N.mod_small by lia. destruct (N.eqb_spec (N.of_nat (length (r0 :: rr))) 0); [lia|].
    unfold topic_bytes. change (N.of_nat (entrySize + idSize)) with 35%N. destruct (N.leb_spec (2 ^ 16) (35 + N.of_nat (length (r0 :: rr)))); [reflexivity|].
    change (2 ^ 16)%N with 65536%N in *. lia. }
  rewrite Ha. do 2 eexists. reflexivity.
Qed.
