(** Proofs about restarts: recovery. *)
From Verif Require Import M_Bytes P_Bytes M_File M_Hash M_Bloom M_Entry P_Codec M_MsgId M_Mac P_Mac M_Topic M_Trie M_Query M_IndexBlock M_Lease
  M_BlockRange M_BlockStore M_WinBlock M_Wal M_MemDB M_Window M_Get M_DB S_Trie S_Window S_BlockStore S_MemDB S_Get S_DB S_Session S_Restart
  P_Topic P_Trie P_Trie2 P_Trie3 P_BlockStore2 P_BlockStore3 P_BlockStore4 P_Window2 P_Window3 P_Window4 P_WindowEx P_WinOpen P_Get P_MemBlock P_MemDB P_MemGet P_MemLog P_MemWal P_MemKeep P_DB
  P_Session P_Session2 P_Session3 P_Session4 P_Restart P_Restart2 P_Restart3.
From Coq Require Import Lia ZifyBool ZifyNat ZifyN Permutation Sorted.
Open Scope Z_scope.

(** * The messages to the block writer *)
Lemma topic_rec c l n tr done m rest off : list_part c l n -> raws l -> l = done ++ m :: rest -> trie_part tr done off ->
  ((forall x, In x done -> gm_hash x <> gm_hash m) -> off (gm_hash m) = 0) ->
  exists tr', add_topic tr (gm_entry m) (gm_body m) idSize = Some tr' /\ trie_part tr' (done ++ [m]) off.
Proof.
  intros Hl Hr E Htr Hoff. pose proof (Hr _ _ _ E) as Er.
  assert (Hm : In m l) by (rewrite E; apply in_app_iff; right; now left).
  assert (Hok : gm_ok c m) by (pose proof (lp_ok _ _ _ Hl) as Ho; rewrite Forall_forall in Ho; auto).
  unfold add_topic. change (e_topicSize (gm_entry m)) with (N.of_nat (length (gm_raw m))). change (e_topicHash (gm_entry m)) with (gm_hash m).
  rewrite find_existsb in Er. destruct (find (fun x => (gm_hash x =? gm_hash m)%N) done) as [m0|] eqn:Ef.
  - rewrite Er. cbn [length N.of_nat N.eqb]. eexists. split; [reflexivity|]. eapply trie_same; [exact Htr|].
    intros h. unfold topic_of. rewrite find_snoc. destruct (find (fun x => (gm_hash x =? h)%N) done) eqn:Ef2; [reflexivity|].
    destruct (N.eqb_spec (gm_hash m) h) as [E0|]; [|reflexivity]. subst h. congruence.
  - pose proof (own_raw_some m) as Hne. rewrite <- Er in Hne. destruct (N.eqb_spec (N.of_nat (length (gm_raw m))) 0); [lia|].
    unfold topic_bytes. destruct (N.leb_spec (2 ^ 16) (N.of_nat idSize + N.of_nat (length (gm_raw m)))) as [Hb|_].
    { pose proof (gk_raw _ _ Hok). unfold idSize in Hb. lia. }
    assert (Es : slice (gm_body m) idSize (N.to_nat (N.of_nat (length (gm_raw m)))) = gm_raw m).
    { rewrite Nat2N.id. unfold gm_body. apply slice_app_mid; [|reflexivity]. now rewrite (gk_id _ _ Hok). }
    rewrite Es. assert (Ho : off (gm_hash m) = 0).
    { apply Hoff. intros x Hx Eh. apply (find_none _ _ Ef) in Hx. cbv beta in Hx. rewrite Eh, N.eqb_refl in Hx. discriminate. }
    destruct (trie_load c l n tr done m off Hl) as (ps & depth & Eu & Htr'); auto.
    { intros x Hx. rewrite E. apply in_app_iff. now left. }
    rewrite Eu, <- Ho. eauto.
Qed.

Definition ss_rec (st : sst) (tr : trie) (b : bwriter) (n : N) : sst := mkSS (set_trie (ss_db st) tr) (ss_ww st) b (ss_upper st) n (ss_err1 st).
Lemma entries_rec c l n t mem off : list_part c l n -> raws l -> forall qs st wm M done rest,
  d_mem (ss_db st) = mem -> l = done ++ rest -> trie_part (d_trie (ss_db st)) done off ->
  (forall q, In q qs -> exists m, In m l /\ gm_seq m = q /\ mem_lookup mem t q = GOk (gm_cache m)) ->
  StronglySorted N.le qs -> store (ss_bw st) M ->
  (forall q, In q qs -> (M q = None <-> ~ In q (map gm_seq done))) ->
  (forall x q, In x rest -> In q qs -> (gm_seq x <= q)%N -> In (gm_seq x) qs) ->
  (forall x, In x rest -> (forall y, In y done -> gm_hash y <> gm_hash x) -> off (gm_hash x) = 0) ->
  w_offset (ss_bw st) + 2 ^ 32 * Z.of_nat (1 + length rest) < 2 ^ 63 ->
  exists ms rest' b M' k tr', block_entries true st t qs wm = BOk (ss_rec st tr' b k) (wadd ms wm) /\
    rest = ms ++ rest' /\ trie_part tr' (done ++ ms) off /\
    incl (map gm_seq ms) qs /\ (forall q, In q qs -> In q (map gm_seq (done ++ ms))) /\
    store b M' /\ (forall m, In m ms -> M' (gm_seq m) = Some (gm_ie m, gm_body m, false)) /\
    (forall q, ~ In q (map gm_seq ms) -> M' q = M q) /\
    w_offset b <= w_offset (ss_bw st) + 2 ^ 32 * Z.of_nat (length ms) /\
    (forall f mi, w_lease (ss_bw st) = newLease f mi -> w_lease b = newLease f mi) /\ k = (ss_count st + N.of_nat (length ms))%N.
Proof.
  intros Hl Hr. induction qs as [|q r IH]; intros st wm M done rest Em El Htr Hq Hs Hst HM Hcov Hz Hoff.
  - exists [], rest, (ss_bw st), M, (ss_count st), (d_trie (ss_db st)). cbn [block_entries wadd fold_left map length].
    split. { unfold ss_rec. destruct st as [s0 ? ? ? ? ?]. now destruct s0. }
    split; [reflexivity|]. split; [now rewrite app_nil_r|]. split; [intros x []|]. split; [intros x []|]. split; [exact Hst|]. split; [intros m []|].
    split; [reflexivity|]. split; [lia|]. split; [auto|]. cbn. lia.
  - inversion Hs as [|? ? Hs' Fq]; subst. rewrite Forall_forall in Fq. set (l := done ++ rest) in *.
    destruct (Hq q (or_introl eq_refl)) as (m & Hm & Eq & Elk).
    assert (Hok : gm_ok c m) by (pose proof (lp_ok _ _ _ Hl) as H; rewrite Forall_forall in H; auto).
    cbn [block_entries]. rewrite Elk, (gm_unmarshal c m Hok), gm_skip.
    change (mkIE (e_seq (gm_entry m)) (e_topicSize (gm_entry m)) (e_valueSize (gm_entry m)) 0) with (gm_ie m).
    change (e_seq (gm_entry m)) with (gm_seq m). change (e_topicHash (gm_entry m)) with (gm_hash m). change (e_expiresAt (gm_entry m)) with (s_expires (gm_sent m)).
    pose proof (gm_req c m Hok) as Hreq.
    assert (Hlen : Z.of_nat (length (gm_body m)) < 2 ^ 32) by (destruct Hreq as (_ & _ & _ & Hreq & _); lia).
    assert (Ho1 : w_offset (ss_bw st) + Z.of_nat (length (gm_body m)) < 2 ^ 63) by lia.
    pose proof (store_append _ _ _ _ Hst Hreq Ho1) as Ha. change (x_seq (gm_ie m)) with (gm_seq m) in Ha. rewrite Eq in Ha.
    destruct (M q) as [x|] eqn:EM.
    + rewrite Ha. assert (Hst' := st_again _ _ _ _ _ Hst Hreq Ho1 Ha).
      assert (Hin : In q (map gm_seq done)).
      { destruct (in_dec N.eq_dec q (map gm_seq done)) as [Hi|Hi]; [exact Hi|]. apply (HM q (or_introl eq_refl)) in Hi. congruence. }
      destruct (IH (mkSS (ss_db st) (ss_ww st) (ss_bw st) (ss_upper st) (ss_count st) (ss_err1 st)) wm M done rest)
        as (ms & rest' & b & M' & k & tr' & E & H0 & H1 & H2 & H3 & H4); auto.
      { intros q' Hq'. apply Hq. now right. }
      { intros q' Hq'. apply HM. now right. }
      { intros x0 q' Hx Hq' Hle. destruct (Hcov x0 q' Hx (or_intror Hq') Hle) as [Hi|Hi]; [|exact Hi]. exfalso.
        assert (x0 = m) as -> by (eapply same_seq; eauto; [apply in_app_iff; now right|congruence]).
        apply in_map_iff in Hin as (m' & E' & Hm'). assert (m' = m) as -> by (eapply same_seq; eauto; [apply in_app_iff; now left|congruence]).
        pose proof (sorted_nodup _ (lp_sorted _ _ _ Hl)) as Hn. apply NoDup_map_inv in Hn. unfold l in Hn.
        apply in_split in Hx as (a & b & ->). apply NoDup_remove_2 with (l := done ++ a) (l' := b) (a := m).
        - rewrite <- app_assoc. exact Hn.
        - apply in_app_iff. left. apply in_app_iff. now left. }
      exists ms, rest', b, M', k, tr'. split; [exact E|]. split; [exact H0|]. split; [exact H1|]. split; [intros y Hy; right; now apply H2|].
      split; [|exact H4]. intros q' [<-|Hq']; [|auto]. rewrite map_app. apply in_app_iff. now left.
    + destruct Ha as (b1 & Eb). rewrite Eb.
      change (mkWE (gm_seq m) (s_expires (gm_sent m))) with (gm_we m).
      assert (Hnd : ~ In q (map gm_seq done)) by (now apply (HM q (or_introl eq_refl))).
      assert (Hmr : In m rest).
      { unfold l in Hm. apply in_app_iff in Hm as [Hm|Hm]; [|exact Hm]. exfalso. apply Hnd. rewrite <- Eq. now apply in_map. }
      destruct rest as [|m' rest]; [contradiction|].
      assert (m' = m) as ->.
      { destruct Hmr as [E|Hmr]; [exact E|]. pose proof (lp_sorted _ _ _ Hl) as Hso. unfold l in Hso. destruct (sorted_app_lt _ _ _ Hso) as [_ S2].
        specialize (S2 m Hmr). destruct (Hcov m' q (or_introl eq_refl) (or_introl eq_refl) ltac:(lia)) as [Hi|Hi]; [lia|]. specialize (Fq _ Hi). lia. }
      clear Hmr.
      destruct (topic_rec c l n _ done m rest off Hl Hr eq_refl Htr) as (tr1 & Et & Htr1).
      { apply Hz. now left. }
      rewrite Et.
      pose proof (st_append _ _ _ _ _ Hst Hreq Ho1 Eb) as Hst1. change (x_seq (gm_ie m)) with (gm_seq m) in Hst1. rewrite Eq in Hst1.
      assert (Hb1 : w_offset b1 <= w_offset (ss_bw st) + Z.of_nat (length (gm_body m))).
      { destruct (store_sinv _ _ Hst) as [Hw Hh]. pose proof (append_spec _ _ _ _ Hw Hreq Ho1) as Ha.
        specialize (Hh (x_seq (gm_ie m)) (proj1 Hreq)). change (x_seq (gm_ie m)) with (gm_seq m) in *. rewrite Eq, EM in Hh. rewrite Eq, Hh in Ha.
        destruct Ha as (w2 & o2 & E2 & _ & _ & _ & _ & _ & Hb & _). rewrite Eb in E2. assert (w2 = b1) as -> by congruence. lia. }
      destruct (IH (mkSS (set_trie (ss_db st) tr1) (ss_ww st) b1 (ss_upper st) (ss_count st + 1) (ss_err1 st)) (win_add wm (gm_hash m) (gm_we m)) (put M q (gm_ie m, gm_body m, false)) (done ++ [m]) rest)
        as (ms & rest' & b & M' & k & tr' & E & H0 & H1 & H2 & H3 & H4 & H5 & H6 & H7 & H8 & H9); auto.
      { rewrite <- app_assoc. reflexivity. }
      { intros q' Hq'. apply Hq. now right. }
      { intros q' Hq'. unfold put. rewrite map_app, in_app_iff. cbn [map In]. destruct (N.eqb_spec q' q) as [->|Hn].
        - split; [discriminate|]. intros Hno. exfalso. apply Hno. right. left. exact Eq.
        - rewrite (HM q' (or_intror Hq')). split; [intros Hno [Hi|[Hi|[]]]; [tauto|congruence]|tauto]. }
      { intros x q' Hx Hq' Hle. destruct (Hcov x q' (or_intror Hx) (or_intror Hq') Hle) as [Hi|Hi]; [|exact Hi]. exfalso.
        pose proof (lp_sorted _ _ _ Hl) as Hso. unfold l in Hso. destruct (sorted_app_lt _ _ _ Hso) as [_ S2]. specialize (S2 x Hx). lia. }
      { intros x Hx Hno. apply Hz; [now right|]. intros y Hy. apply Hno. apply in_app_iff. now left. }
      { cbn [ss_bw]. cbn [length] in Hoff. lia. }
      cbn [ss_bw] in H7.
      assert (Hnq : ~ In q (map gm_seq ms)).
      { intros Hi. apply in_map_iff in Hi as (x & E1 & Hx). pose proof (lp_sorted _ _ _ Hl) as Hso. unfold l in Hso. destruct (sorted_app_lt _ _ _ Hso) as [_ S2].
        specialize (S2 x). rewrite H0 in S2. specialize (S2 ltac:(apply in_app_iff; now left)). lia. }
      exists (m :: ms), rest', b, M', k, tr'. split; [exact E|]. split; [now rewrite H0|]. split; [rewrite <- app_assoc in H1; exact H1|].
      split; [intros y [<-|Hy]; [left; now symmetry|right; now apply H2]|].
      split. { intros q' [<-|Hq'].
               - rewrite map_app. apply in_app_iff. right. left. exact Eq.
               - specialize (H3 q' Hq'). rewrite <- app_assoc in H3. exact H3. }
      split; [exact H4|]. split.
      { intros y [<-|Hy]; [|auto]. rewrite Eq, H6 by exact Hnq. unfold put. now rewrite N.eqb_refl. }
      split; [|split; [cbn [length]; lia|split; [intros f mi Hf; apply H8; cbn [ss_bw]; eapply append_lease; eassumption|rewrite H9; cbn [ss_count length]; lia]]].
      intros q' Hn. cbn [map In] in Hn. rewrite H6 by tauto. unfold put. destruct (N.eqb_spec q' q) as [->|]; [|reflexivity]. exfalso. apply Hn. left. exact Eq.
Qed.

(** * One block *)
Lemma moving_low c l t ts mem g W : moving c l (t :: ts) mem g W -> forall m1 m2, In m1 l -> In m2 l ->
  held_t g t m1 = true -> in_store g m2 = false -> held_t g t m2 = false -> (gm_seq m1 < gm_seq m2)%N.
Proof.
  intros [M1 (L & M2) M3 M3' M4 M5 M6 M7 M8 M9 M10]. inversion M8 as [|? ? M8' Fts]; subst. rewrite Forall_forall in Fts.
  intros m1 m2 H1 H2 E1 E2 E3. unfold held_t in E1, E3. unfold in_store in E2.
  destruct (g_slot g (gm_seq m1)) as [|u1 v1|] eqn:S1; try discriminate. apply Z.eqb_eq in E1. subst u1.
  destruct (g_slot g (gm_seq m2)) as [|u2 v2|] eqn:S2; try discriminate; [exfalso; exact (M3' m2 H2 S2)|].
  apply Z.eqb_neq in E3. destruct (N.lt_trichotomy (gm_seq m1) (gm_seq m2)) as [Hlt|[He|Hgt]]; [exact Hlt| |].
  - rewrite He in S1. rewrite S1 in S2. injection S2 as <- _. contradiction.
  - pose proof (od_time _ _ _ _ (kp_order _ _ _ M2) _ _ _ _ _ _ S2 S1 Hgt). exfalso.
    destruct (M9 _ _ _ S2) as [[Hi|Hi]|Hi]; [congruence|specialize (Fts _ Hi); lia|specialize (Hi t (or_introl eq_refl)); lia].
Qed.
Lemma moving_skip c l t ts mem g W : (forall k v, g_slot g k <> Held t v) -> moving c l (t :: ts) mem g W -> moving c l ts mem g W.
Proof.
  intros Hno [M1 M2 M3 M3' M4 M5 M6 M7 M8 M9 M10]. split; auto.
  - now inversion M8.
  - intros k u v Hk. destruct (M9 _ _ _ Hk) as [[->|Hi]|Hi]; [exfalso; exact (Hno _ _ Hk)|now left|]. right. intros t' Ht'. apply Hi. now right.
  - intros t' Ht'. apply M10. now right.
Qed.

Record recovering (c : dcfg) (st : sst) (l done : list gmsg) (g : gstate) (off : offsets) (H : hist) (first : option N) (M : ghost) (T e t : Z) : Prop := {
  rc_closed : d_closed (ss_db st) = false;
  rc_enc : d_enc (ss_db st) = 1%N;
  rc_list : exists n, list_part c l n;
  rc_raws : raws l;
  rc_done : (exists rest, l = done ++ rest) /\ forall x, In x done <-> In x l /\ in_store g x = true;
  rc_mem : mem_part c (d_mem (ss_db st)) g l;
  rc_tw : d_tw (ss_db st) = [];
  rc_win : win_part (d_win (ss_db st)) g l off H first T (e + 1);
  rc_part : store_part (d_index (ss_db st)) (d_data (ss_db st)) (d_lease (ss_db st)) g l M;
  rc_trie : trie_part (d_trie (ss_db st)) done off;
  rc_cur : g_cur g <= trunc t (c_dur (c_mem c));
  rc_T : T <= unix t;
  rc_store : store (ss_bw st) M;
  rc_off : w_offset (ss_bw st) <= 2 ^ 32 * nstored g l;
  rc_run : wrun (ss_ww st) off H first T;
  rc_idx : ww_idx (ss_ww st) <= 2 * nstored g l + e;
  rc_err : ss_err1 st = false;
  rc_up : ss_upper st = 0%N;
  rc_file : d_win (ss_db st) = ww_file (ss_ww st)
}.

Lemma filter_all {A} (f : A -> bool) l : (forall x, In x l -> f x = true) -> filter f l = l.
Proof. induction l as [|x l IH]; cbn; intros Hf; [reflexivity|]. rewrite Hf by now left. f_equal. apply IH. auto. Qed.

Lemma rec_block c gens st l done ts g off H first M T e t now ord t0 : setting_ok c gens ->
  recovering c st l done g off H first M T e t -> moving c l (t0 :: ts) (d_mem (ss_db st)) g (mkW (ss_ww st) off H first T) ->
  t <= now -> 0 <= now < 2 ^ 32 * 1000000000 -> t0 < g_cur g -> e <= 130000 ->
  (forall m, Permutation (ord m) m) ->
  exists st' done' g' off' H' first' M' T', recover_block now ord (st, []) t0 = Some (st', [], true) /\
    recovering c st' l done' g' off' H' first' M' T' e now /\ g_cur g' = g_cur g /\ d_seq (ss_db st') = d_seq (ss_db st) /\
    freed_one now l (d_mem (ss_db st)) g (mkW (ss_ww st) off H first T) t0 (d_mem (ss_db st')) g' (mkW (ss_ww st') off' H' first' T') /\
    moving c l ts (d_mem (ss_db st')) g' (mkW (ss_ww st') off' H' first' T') /\
    (first <> None -> first' = first) /\
    (forall f mi, w_lease (ss_bw st) = newLease f mi -> d_lease (ss_db st) = newLease f mi ->
      w_lease (ss_bw st') = newLease f mi /\ d_lease (ss_db st') = newLease f mi) /\
    (ss_count st = 0%N -> Z.of_N (d_count (ss_db st)) = nstored g l -> ss_count st' = 0%N /\ Z.of_N (d_count (ss_db st')) = nstored g' l).
Proof.
  intros Hset [Icl Ienc (nn & Il) Ira [(rest & El) Hdone] Im Itw Iwin Ist Itr Icur IT Hst Hoff Hrun Hidx Herr Hup Hfile] Hmo Htn Hnow Ht0 He Hord.
  assert (Icur' : g_cur g <= trunc now (c_dur (c_mem c))) by (etransitivity; [exact Icur|]; apply trunc_mono; [exact (so_dur _ _ Hset)|exact Htn]).
  assert (IT' : T <= unix now) by (etransitivity; [exact IT|]; now apply unix_mono).
  clear Icur IT.
  set (ms := filter (held_t g t0) l).
  set (seqs := seq_asc (block_keys (d_mem (ss_db st)) t0)).
  assert (Hseqs : forall q, In q seqs <-> In q (map gm_seq ms)).
  { intros q. unfold seqs. rewrite seq_asc_in, (block_keys_in c _ g t0 q (mp_inv _ _ _ _ Im)). split.
    - intros (v & Hv). destruct (mp_held _ _ _ _ Im q t0 v Hv) as (m & Hm & Eq & _). apply in_map_iff. exists m. split; [exact Eq|].
      apply held_t_in. split; [exact Hm|]. exists v. now rewrite Eq.
    - intros Hq. apply in_map_iff in Hq as (m & <- & Hm). apply held_t_in in Hm as [_ Hm]. exact Hm. }
  assert (Hcase : seqs = [] \/ exists q0 r0, seqs = q0 :: r0) by (destruct seqs as [|q0 r0]; [now left|right; eauto]).
  unfold recover_block. fold seqs. destruct Hcase as [Es0|(q0 & r0 & Es0)].
  { rewrite Es0. assert (Hno : forall k v, g_slot g k <> Held t0 v).
    { intros k v Hk. assert (Hin : In k seqs); [|rewrite Es0 in Hin; exact Hin].
      unfold seqs. rewrite seq_asc_in. apply (block_keys_in c _ g t0 k (mp_inv _ _ _ _ Im)). eauto. }
    exists st, done, g, off, H, first, M, T. split; [reflexivity|]. split; [constructor; eauto|]. split; [reflexivity|]. split; [reflexivity|].
    split; [left; auto|]. split; [eapply moving_skip; eassumption|]. split; [auto|]. split; auto. }
  assert (Hms : exists m0, In m0 ms).
  { assert (Hq : In q0 seqs) by (rewrite Es0; now left). apply Hseqs in Hq. apply in_map_iff in Hq as (m0 & _ & Hm0). eauto. }
  destruct Hms as (m0 & Hm0).
  assert (Hmatch : forall A (x y : A), match seqs with [] => x | _ :: _ => y end = y) by (intros; now rewrite Es0).
  rewrite Hmatch. clear Hmatch.
  pose proof (lp_ok _ _ _ Il) as Lok. rewrite Forall_forall in Lok.
  assert (Hmsl : incl ms l) by (intros x Hx; now apply filter_In in Hx).
  pose proof (list_bound _ _ _ Il) as Hlen. pose proof (filter_length_le (in_store (gfree g t0)) l) as Hlen2.
  pose proof (nstored_free g t0 l) as Hns. fold ms in Hns. unfold nstored at 1 in Hns.
  pose proof (xp_out _ _ _ (sp_ghost _ _ _ _ _ _ Ist)) as Hxo.
  (* the messages *)
  assert (Hrest : forall x, In x rest -> In x l /\ in_store g x = false).
  { intros x Hx. assert (Hxl : In x l) by (rewrite El; apply in_app_iff; now right). split; [exact Hxl|].
    destruct (in_store g x) eqn:E; [|reflexivity]. exfalso. assert (Hd : In x done) by (apply Hdone; auto).
    pose proof (sorted_nodup _ (lp_sorted _ _ _ Il)) as Hn. apply NoDup_map_inv in Hn. rewrite El in Hn.
    apply in_split in Hx as (a & b & ->). apply NoDup_remove_2 with (l := done ++ a) (l' := b) (a := x).
    - rewrite <- app_assoc. exact Hn.
    - apply in_app_iff. left. apply in_app_iff. now left. }
  destruct (entries_rec c l nn t0 (d_mem (ss_db st)) off Il Ira seqs (raise_upper st seqs) [] M done rest)
    as (ms' & rest' & b & M' & cnt & tr1 & Ee & E1 & Etr & E2 & E3 & E4 & E5 & E6 & E7 & E8 & E9); auto.
  { intros q Hq. apply Hseqs in Hq. apply in_map_iff in Hq as (m & <- & Hm). exists m. split; [now apply Hmsl|]. split; [reflexivity|].
    apply held_t_in in Hm as (Hm & v & Hv). rewrite (held_lookup c _ g t0 _ v (mp_inv _ _ _ _ Im) Hv).
    destruct (mp_held _ _ _ _ Im _ _ _ Hv) as (m' & Hm' & Eq & ->). f_equal. f_equal. eapply same_seq; eauto. }
  { apply seq_asc_sorted. }
  { intros q Hq. apply Hseqs in Hq. apply in_map_iff in Hq as (m & <- & Hm). apply held_t_in in Hm as (Hm & v & Hv). split.
    - intros _ Hi. apply in_map_iff in Hi as (m' & Eq & Hm'). apply Hdone in Hm' as [_ Hm']. unfold in_store in Hm'. rewrite Eq, Hv in Hm'. discriminate.
    - intros _. destruct (M (gm_seq m)) eqn:EM; [|reflexivity]. rewrite Hxo in Hv; [discriminate|congruence]. }
  { intros x q Hx Hq Hle. apply Hseqs. apply Hseqs in Hq. apply in_map_iff in Hq as (m & <- & Hm). unfold ms in Hm. apply filter_In in Hm as [Hm Hht]. destruct (Hrest x Hx) as [Hxl Hxs].
    apply in_map. apply filter_In. split; [exact Hxl|]. destruct (held_t g t0 x) eqn:E; [reflexivity|]. exfalso.
    pose proof (moving_low _ _ _ _ _ _ _ Hmo m x Hm Hxl Hht Hxs E). lia. }
  { intros x Hx Hno. destruct Hrun as [_ Hz]. apply Hz. destruct (H (gm_hash x)) as [|y hy] eqn:EH; [reflexivity|]. exfalso.
    pose proof (wp_hist _ _ _ _ _ _ _ _ Iwin (gm_hash x)) as Hp. rewrite EH in Hp. cbn [map] in Hp.
    assert (Hi : In (fst y) (map gm_we (filter (stored_of g (gm_hash x)) l))) by (eapply Permutation_in; [exact Hp|now left]).
    apply in_map_iff in Hi as (z & _ & Hz'). apply filter_In in Hz' as [Hz1 Hz2]. apply andb_true_iff in Hz2 as [Hz2 Hz3]. apply N.eqb_eq in Hz2.
    apply (Hno z); [apply Hdone; auto|exact Hz2]. }
  { cbn [raise_upper ss_bw]. assert (Hrl : (length rest <= length l)%nat) by (rewrite El, app_length; lia). pose proof (filter_length_le (in_store g) l). unfold nstored in Hoff. lia. }
  cbn [raise_upper ss_bw ss_count] in E7, E9.
  assert (Hms' : incl ms' l) by (intros x Hx; rewrite El, E1; apply in_app_iff; right; apply in_app_iff; now left).
  assert (ms' = ms) as ->.
  { apply (map_seq_inj _ _ _ Il); auto. apply sorted_ext; [|apply sorted_filter; exact (lp_sorted _ _ _ Il)|].
    - pose proof (lp_sorted _ _ _ Il) as Hso. rewrite El, E1, !map_app in Hso. revert Hso. generalize (map gm_seq done), (map gm_seq ms'), (map gm_seq rest'). clear.
      intros a b c0. induction a as [|x a IH]; cbn [app]; [|intros Hs; inversion Hs; auto].
      induction b as [|y b IHb]; cbn [app]; intros Hs; [constructor|]. inversion Hs as [|? ? Hs' Hf]; subst. constructor; [auto|]. apply Forall_app in Hf. tauto.
    - intros q. split; [intros Hq; apply Hseqs; now apply E2|]. intros Hq. pose proof Hq as Hq2. apply Hseqs in Hq. apply E3 in Hq. rewrite map_app in Hq. apply in_app_iff in Hq as [Hq|Hq]; [|exact Hq]. exfalso.
      apply in_map_iff in Hq as (m & <- & Hm). apply Hdone in Hm as [Hm Hin]. apply in_map_iff in Hq2 as (m' & Eq & Hm'). apply held_t_in in Hm' as (_ & v & Hv). unfold in_store in Hin. rewrite <- Eq, Hv in Hin. discriminate. }
  assert (Hdone' : forall x, In x (done ++ ms) <-> In x l /\ in_store (gfree g t0) x = true).
  { intros x. rewrite in_app_iff, in_store_free, orb_true_iff, Hdone. unfold ms. rewrite filter_In. tauto. }
  rewrite Ee. set (wm := wadd ms []) in *. unfold ss_rec; cbn [raise_upper ss_err1 ss_db set_trie d_trie]. rewrite Herr.
  (* the windows *)
  assert (Hnd : NoDup (map fst wm)) by (apply wadd_nodup; constructor).
  assert (Hfind : forall h, afind N.eqb wm h = match filter (of_hash h) ms with [] => None | x => Some (map gm_we x) end).
  { intros h. unfold wm. rewrite wadd_find. cbn [afind]. destruct (filter (of_hash h) ms); reflexivity. }
  assert (Hlens : lens wm = length ms) by (unfold wm; rewrite wadd_lens by constructor; reflexivity).
  assert (Hwm : forall h es, In (h, es) wm -> (h < 2 ^ 64)%N /\ es <> [] /\ Forall went_ok es /\ exists m, In m (done ++ ms) /\ gm_hash m = h).
  { intros h es Hin. assert (Ea : afind N.eqb wm h = Some es) by (apply in_afind; auto).
    rewrite Hfind in Ea. destruct (filter (of_hash h) ms) as [|x rr] eqn:Ef; [discriminate|]. apply Some_inj in Ea.
    assert (Hx : In x (filter (of_hash h) ms)) by (rewrite Ef; now left). apply filter_In in Hx as [Hx Ex]. apply N.eqb_eq in Ex.
    split; [rewrite <- Ex; exact (gk_hash _ _ (Lok x (Hmsl x Hx)))|]. split; [subst es; discriminate|]. split.
    - subst es. rewrite <- Ef. apply Forall_forall. intros y Hy. apply in_map_iff in Hy as (z & <- & Hz). apply filter_In in Hz as [Hz _]. eapply went, Lok. now apply Hmsl.
    - exists x. split; [apply in_app_iff; now right|exact Ex]. }
  assert (Hknown : forall x, In x wm -> getOffset tr1 (fst x) <> None).
  { intros [h es] Hx. destruct (Hwm h es Hx) as (_ & _ & _ & m & Hm & Eh). cbn [fst].
    rewrite (proj1 (trie_set _ _ _ h 0 Etr (ex_intro _ m (conj Hm Eh)))). discriminate. }
  match goal with |- context [block_windows now _ (ord (filter ?f wm))] => assert (filter f wm = wm) as -> end.
  { apply filter_all. intros x Hx. specialize (Hknown x Hx). destruct (getOffset tr1 (fst x)); [reflexivity|congruence]. }
  match goal with |- context [pend_add [] (filter ?f wm)] => assert (filter f wm = []) as -> end.
  { apply filter_none. intros x Hx. specialize (Hknown x Hx). destruct (getOffset tr1 (fst x)); [reflexivity|congruence]. }
  cbn [pend_add].
  assert (Hordm := Hord wm).
  assert (Hfind' : forall h, afind N.eqb (ord wm) h = afind N.eqb wm h) by (intros h; apply afind_perm; auto).
  assert (Hup' := unix_range now Hnow).
  destruct (windows_step now (done ++ ms) (ord wm) (mkSS (set_trie (ss_db st) tr1) (ss_ww st) b (N.max (ss_upper st) (last seqs 0%N)) cnt false) off H first T)
    as (w' & tr' & off' & H' & first' & T' & F1 & F2 & F3 & F4 & F5 & F6 & F7 & F8 & F9); auto.
  { lia. }
  { eapply Permutation_NoDup; [apply Permutation_map; symmetry; exact Hordm|exact Hnd]. }
  { intros h es Hin. apply (Permutation_in _ Hordm) in Hin. now apply Hwm. }
  { rewrite (lens_perm _ _ Hordm), Hlens. cbn [ss_ww]. lia. }
  cbn [ss_ww ss_db ss_upper ss_count ss_err1] in *.
  rewrite (lens_perm _ _ Hordm), Hlens in F5. change (ss_upper (raise_upper st seqs)) with (N.max (ss_upper st) (last seqs 0%N)). change (ss_ww (raise_upper st seqs)) with (ss_ww st).
  rewrite F1. unfold ss_win; cbn [ss_bw ss_upper ss_count ss_err1 ss_ww ss_db].
  (* writing out *)
  set (upper := N.max (ss_upper st) (last seqs 0%N)) in *.
  assert (Hupper : seq_ok upper /\ upper <> 0%N).
  { assert (Hq : In (last seqs 0%N) seqs) by (rewrite Es0; apply last_in).
    apply Hseqs in Hq. apply in_map_iff in Hq as (m & Eq & Hm). pose proof (gk_seq _ _ (Lok m (Hmsl m Hm))) as Hsq.
    unfold upper, seq_ok. rewrite Hup, <- Eq. split; lia. }
  destruct Hupper as [Hu1 Hu2]. unfold sync_write. cbn [ss_upper ss_ww ss_bw ss_db ss_count ss_err1].
  replace (upper =? 0)%N with false by lia.
  destruct (proj1 (wrun_progress _ _ _ _ _ F2)) as (w2 & Ew). rewrite Ew.
  destruct (commit_ok b M' upper E4 Hu1) as (b2 & Eb & B1 & B2 & (b3 & Eb3 & B3 & B4) & B5). rewrite Eb.
  unfold ss_files. cbn [ss_db ss_ww ss_bw ss_err1].
  cbn [set_files set_trie d_tw d_mem d_info d_win d_index d_data d_lfile d_lease d_seq d_count d_enc d_last d_immut d_closed d_trie].
  destruct (free_step c (d_mem (ss_db st)) g l t0 m0 Im Ht0 Hm0) as (mm & Emm & R3). rewrite Emm.
  unfold ss_set_db. cbn [ss_db ss_ww ss_bw ss_upper ss_count ss_err1].
  eexists _, (done ++ ms), (gfree g t0), off', H', first', M', T'. split; [reflexivity|].
  assert (Hns' : nstored (gfree g t0) l = nstored g l + Z.of_nat (length ms)) by apply nstored_free.
  assert (Hw' : ww_idx w' < 524286) by lia.
  destruct (write_idx _ _ _ _ _ _ F2 Ew Hw') as [Hx1 Hx2].
  assert (Hwr : written now l g t0 (mkW (ss_ww st) off H first T) (mkW (ww_reset w2) off' H' first' T')).
  { assert (Efl : forall h, filter (of_hash h) ms = filter (held_at g t0 h) l).
    { intros h. unfold ms. rewrite filter_filter. apply filter_ext. intros x. rewrite held_at_t. first [reflexivity|apply andb_comm]. }
    eexists _, _, _. split; [|split; [|split; [|split; [exact F9|split; [exact Ew|reflexivity]]]]].
    - eapply Permutation_NoDup; [apply Permutation_map; symmetry; exact Hordm|exact Hnd].
    - intros h es Hin. apply (Permutation_in _ Hordm) in Hin. assert (Ea : afind N.eqb wm h = Some es) by (apply in_afind; auto).
      rewrite Hfind, Efl in Ea. destruct (filter (held_at g t0 h) l); [discriminate|]. now apply Some_inj in Ea.
    - intros h Hno. rewrite <- Efl. specialize (Hfind' h). rewrite Hfind in Hfind'. destruct (filter (of_hash h) ms) as [|x rr]; [reflexivity|]. exfalso.
      apply (afind_In _ Neqb_iff) in Hfind'. apply Hno. apply (in_map fst) in Hfind'. exact Hfind'. }
  split; [|split; [reflexivity|split; [reflexivity|split; [right; split; [reflexivity|split; [exact Emm|exact Hwr]]|split; [|split; [exact F7|split]]]]]].
  2:{ exact (proj1 (moving_free c l _ now _ _ _ _ _ _ _ Il Hmo Emm Hwr)). }
  2:{ intros f mi Hf1 Hf2. destruct (store_sinv _ _ E4) as [Hw4 _]. destruct (commit_spec _ b upper Hw4 Hu1) as (b2' & Eb' & _ & _ & _ & _ & _ & Elz & _).
      assert (b2' = b2) as -> by congruence. cbn [ss_bw ss_db set_mem set_tw set_files set_trie d_lease]. rewrite Elz. specialize (E8 f mi Hf1). now rewrite E8. }
  2:{ intros Hc0 Hc1. split; [reflexivity|]. cbn [ss_db set_mem set_tw set_files set_trie d_count]. rewrite Hns', <- Hc1, E9, Hc0. unfold u64. rewrite N.mod_small; lia. }
  assert (Hhist : forall h, Permutation (map fst (H' h)) (map gm_we (filter (stored_of (gfree g t0) h) l))).
  { intros h. rewrite F6, Hfind', Hfind. rewrite (wp_hist _ _ _ _ _ _ _ _ Iwin h).
    assert (Em : match match filter (of_hash h) ms with [] => None | x => Some (map gm_we x) end with Some es => es | None => [] end = map gm_we (filter (of_hash h) ms))
      by (destruct (filter (of_hash h) ms); reflexivity).
    etransitivity; [apply Permutation_app_head; apply eq_sub; exact Em|].
    rewrite <- map_app. apply Permutation_map. unfold ms. rewrite filter_filter.
    rewrite split_filter.
    - apply eq_sub. apply filter_ext. intros m. unfold stored_of, of_hash. rewrite in_store_free. destruct (gm_hash m =? h)%N; cbn [andb orb]; [now rewrite andb_true_r|now rewrite andb_false_r].
    - intros m _ H1 H2. unfold stored_of in H1. apply andb_true_iff in H1 as [_ H1]. apply andb_true_iff in H2 as [H2 _]. now apply (store_held g t0 m). }
  constructor; cbn [ss_db ss_ww ss_bw ss_upper ss_count ss_err1 set_mem set_tw set_files set_trie d_tw d_mem d_win d_index d_data d_lease d_seq d_enc d_closed d_trie]; auto.
  - now exists nn.
  - split; [|exact Hdone']. exists rest'. rewrite El, E1. apply app_assoc.
  - constructor.
    + change (ww_file (ww_reset w2)) with (ww_file w2). eapply wrun_again; eassumption.
    + change (ww_file (ww_reset w2)) with (ww_file w2). lia.
    + exact Hhist.
    + intros h Hf. destruct (F8 h Hf) as [Hf0|(m & Hm & Eh)]; [exact (wp_first _ _ _ _ _ _ _ _ Iwin h Hf0)|]. exists m. split; [|exact Eh]. now apply Hdone' in Hm.
  - assert (Hgh : ghost_part (gfree g t0) l M').
    { constructor.
      - intros m Hm Hin. rewrite in_store_free in Hin. destruct (held_t g t0 m) eqn:Eh.
        + apply E5. apply filter_In. auto.
        + rewrite orb_false_r in Hin. rewrite E6; [exact (xp_in _ _ _ (sp_ghost _ _ _ _ _ _ Ist) m Hm Hin)|].
          intros Hq. apply in_map_iff in Hq as (m' & Eq & Hm'). assert (m' = m) as -> by (eapply same_seq; eauto).
          apply filter_In in Hm' as [_ Hm']. congruence.
      - intros k Hk. unfold gfree; cbn [g_slot]. destruct (in_dec N.eq_dec k (map gm_seq ms)) as [Hi2|Hi2].
        + apply in_map_iff in Hi2 as (m & <- & Hm). apply held_t_in in Hm as (_ & v & ->). now rewrite Z.eqb_refl.
        + rewrite E6 in Hk by exact Hi2. now rewrite (Hxo k Hk). }
    constructor.
    + exists b3. split; [exact Eb3|]. split; [exact B3|]. rewrite Hns'. lia.
    + exact Hgh.
    + intros m Hm Hin. pose proof (xp_in _ _ _ Hgh m Hm Hin) as EM. pose proof (gk_seq _ _ (Lok m Hm)) as Hsq.
      specialize (B5 (gm_seq m)). rewrite EM in B5. destruct B5 as (o & Ho & Hre & Hra); [unfold seq_ok; lia|].
      exists o. split; [exact Ho|]. split; [exact Hre|]. now apply Hra.
  - rewrite Hns'. lia.
  - eapply wrun_write; eassumption.
  - rewrite Hns'. lia.
Qed.
