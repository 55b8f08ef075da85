(** Proofs about crashes: whole runs. *)
From Verif Require Import M_Bytes P_Bytes M_File M_Hash M_Bloom M_Entry P_Codec M_MsgId M_Mac P_Mac M_Topic M_Trie M_Query M_IndexBlock M_Lease
  M_BlockRange M_BlockStore M_WinBlock M_Wal M_MemDB M_Window M_Get M_DBInfo M_DB S_Trie S_Window S_BlockStore S_MemDB S_Get S_DB S_Session S_Restart S_Crash
  P_Window2 P_Window4 P_WinOpen P_Wal P_MemBlock P_MemDB P_MemGet P_MemWal P_MemKeep P_MemReopen P_DB
  P_Session P_Session2 P_Session3 P_Session4 P_Session5 P_Restart P_Restart2 P_Restart3 P_Restart4 P_Restart5 P_Restart6 P_Crash P_Crash2.
From Coq Require Import Lia ZifyBool ZifyNat ZifyN Permutation Sorted.
Open Scope Z_scope.

Lemma first_back c s l g off H first M T e t b n first' y : inv c s l g off H first M T e t -> list_part c (l ++ b) n -> (first <> None -> first' = first) ->
  first_of first' (l ++ b) y -> first_of first l y.
Proof.
  intros Hi Hl Hf Hy h Eh. rewrite Hf in Hy by congruence. destruct (Hy h Eh) as (m & Hm & E1 & E2).
  destruct (wp_first _ _ _ _ _ _ _ _ (iv_win _ _ _ _ _ _ _ _ _ _ _ Hi) h Eh) as (m' & Hm' & E').
  exists m'. split; [exact Hm'|]. split; [exact E'|]. rewrite E2.
  destruct (lp_clash _ _ _ Hl m m' Hm (proj2 (in_app_iff _ _ _) (or_introl Hm'))) as [-> ->]; [congruence|reflexivity].
Qed.

Lemma first_any c s l g off H first M T e t : inv c s l g off H first M T e t -> exists y, first_of first l y.
Proof.
  intros Hi. destruct first as [h|]; [|exists None; intros h; discriminate].
  destruct (wp_first _ _ _ _ _ _ _ _ (iv_win _ _ _ _ _ _ _ _ _ _ _ Hi) h eq_refl) as (m & Hm & E).
  exists (Some (s_owner (gm_sent m), s_pattern (gm_sent m))). intros h' [= <-]. eauto.
Qed.

Lemma get_any c s l g off H first M T e t now g0 k names limit : inv c s l g off H first M T e t -> 0 <= now < 2 ^ 32 * 1000000000 -> S_Session.get_ok c (map gm_sent l) g0 k names limit ->
  exists s' q' items, db_get c s now g0 (mkQ (text (static names)) k limit 0 []) = (s', q', QItems items) /\
    inv c s' l g off H first M T e t /\ d_seq s' = d_seq s /\ (exists qr qf qb, s' = set_mem s (set_query (d_mem s) qr qf qb)) /\ incl items (map s_payload (filter (asked k names) (map gm_sent l))) /\
    forall x, first_of first l x -> spared x k names = false -> items = expect now k names (map gm_sent l).
Proof.
  intros Hi Hnow Hreq. destruct (first_any _ _ _ _ _ _ _ _ _ _ _ Hi) as (y & Hy).
  destruct (get_step c s l g off H first M T e t now g0 k names limit y Hi Hnow Hreq Hy) as (s' & q' & items & Eg & Hi' & Esq & Hqs & Hin & Hx).
  exists s', q', items. split; [exact Eg|]. split; [exact Hi'|]. split; [exact Esq|]. split; [exact Hqs|]. split; [exact Hin|].
  intros x Hf Hsp. destruct (get_step c s l g off H first M T e t now g0 k names limit x Hi Hnow Hreq Hf) as (s2 & q2 & items2 & Eg2 & _ & _ & _ & _ & Hx2).
  rewrite Eg in Eg2. injection Eg2 as <- <- <-. auto.
Qed.

Definition more_ok (c : dcfg) (t : Z) (l : list sent) (o : sop) : Prop :=
  match o with STick now => t < now | SCommit => (total c l < 2 ^ 32 - 4)%N | _ => True end.

Lemma one_step c gens0 o s l g off H first M T e t w x : setting_ok c gens0 -> inv c s l g off H first M T e t -> kept c s l g off H first t ->
  session_ok c t (map gm_sent l) [o] -> more_ok c t (map gm_sent l) o -> e + 1 <= 130000 -> (d_seq s + 1 <= 130000)%N -> 0 <= t -> c_dur (c_mem c) <= t -> t < 2 ^ 32 * 1000000000 ->
  dstep c (Up s) (as_dop o) = (w, x) ->
  exists s' b g' off' H' first' M' T', w = Up s' /\ inv c s' (l ++ b) g' off' H' first' M' T' (e + 1) (clock t o) /\ kept c s' (l ++ b) g' off' H' first' (clock t o) /\
    map gm_sent b = sends o /\ (d_seq s <= d_seq s' <= d_seq s + 1)%N /\ (first <> None -> first' = first) /\
    (forall y, first_of first' (l ++ b) y -> answered y (map gm_sent l) [o] [x]) /\ (dsk c s -> dsk c s') /\
    (forall L base segs cur, phase s l g L base segs cur -> exists L' base' segs' cur', phase s' (l ++ b) g' L' base' segs' cur' /\
       forall r, (length base' + flushed (map (@length _) segs') (length cur') r = length base + flushed (map (@length _) segs) (length cur) (o :: r))%nat).
Proof.
  intros Hset Hi K Hok Hmore He Hq Ht Hdt Hbt E. cbn [session_ok] in Hok. destruct Hok as (Hclk & Hreq & _).
  assert (Hbig : forall s l g off H first M T e t, inv c s l g off H first M T e t -> inv c s l g off H first M T (e + 1) t).
  { intros ? ? ? ? ? ? ? ? ? ? [I1 I2 I3 I4 I5 [W1 W2 W3 W4] I7 I8 I9 I10]. constructor; auto. constructor; auto. lia. }
  pose proof Hi as [Icl Ienc Il Im Itw Iwin Ist Itr Icur IT].
  destruct o as [now k p payload expires encrypt|now g0 k names limit|now| |now ord|now|]; cbn [as_dop dstep clock sends] in *.
  - (* put *)
    destruct (put_step c gens0 s l g off H first M T e t now k p payload expires encrypt Hset Hi (proj1 Hclk) ltac:(lia) Hreq)
      as (s' & ue & m & g' & Ep & Em & Eq & Hi' & P1 & P2 & P3 & P4 & P5 & P6 & P7 & P8 & _). unfold put_arg in Ep. rewrite Ep in E. injection E as <- <-.
    assert (K' : kept c s' (l ++ [m]) g' off H first now).
    { eapply kept_later; [apply Hclk|]. rewrite P5. eapply kept_put; try eassumption; [rewrite Em; exact P2|]. unfold on_disk in P7. congruence. }
    exists s', [m], g', off, H, first, M, T. cbn [alive]. split; [reflexivity|]. split; [auto|]. split; [exact K'|].
    split; [cbn [map]; now rewrite Em|]. split; [lia|]. split; [auto|]. split; [cbn [answered]; auto|]. split.
    + intros [[D1 D2] D3]. unfold on_disk in P7. injection P7 as F1 F2 F3 F4 F5. split; [split; [lia|now rewrite F1]|congruence].
    + intros L base segs cur P. exists L, base, segs, (cur ++ [m]). split.
      * rewrite P5. eapply phase_put; [exact P|exact (mp_inv _ _ _ _ Im)|exact P3| | |exact P4|exact P6].
        -- intros y Hy. pose proof (lp_below _ _ _ Il) as Hb. rewrite Forall_forall in Hb. specialize (Hb y Hy). lia.
        -- intros k0 u v Hk. destruct (mp_held _ _ _ _ Im _ _ _ Hk) as (y & Hy & Ey & _). eauto.
      * intros r. cbn [flushed]. rewrite app_length. cbn [length]. now rewrite Nat.add_1_r.
  - (* get *)
    destruct (get_any c s l g off H first M T e t now g0 k names limit Hi ltac:(lia) Hreq) as (s' & q' & items & Eg & Hi' & Esq & (qr & qf & qb & Eqs) & Hin & Hx).
    rewrite Eg in E. injection E as <- <-. cbn [alive_q].
    exists s', [], g, off, H, first, M, T. rewrite app_nil_r. split; [reflexivity|].
    split; [apply Hbig; eapply inv_later; [exact (so_dur _ _ Hset)|apply Hclk|exact Hi']|].
    split; [eapply kept_later; [apply Hclk|]; rewrite Eqs; now apply kept_get|]. split; [reflexivity|]. split; [lia|]. split; [auto|]. split.
    { intros y Hy. cbn [answered]. split; [|exact I]. exists items. split; [reflexivity|]. split; [exact Hin|]. now apply Hx. }
    split; [rewrite Eqs; auto|]. intros L base segs cur P. exists L, base, segs, cur. split; [|reflexivity]. rewrite Eqs.
    eapply phase_mono; [exact P| |auto|auto|reflexivity|reflexivity]. eapply keep_same; [exact (ph_L _ _ _ _ _ _ _ P)|tauto|reflexivity..].
  - (* tick *)
    injection E as <- <-. destruct (tick_step c gens0 s l g off H first M T e t now Hset Hi (proj1 Hclk)) as (g' & Hi' & Eg'). cbn [more_ok] in Hmore.
    assert (K' := kept_tick c gens0 s l g g' off H first M T e t now Hset Hi K Hmore Hi' Eg' ltac:(lia)).
    eexists _, [], g', off, H, first, M, T. rewrite app_nil_r. split; [reflexivity|]. split; [apply Hbig; exact Hi'|]. split; [exact K'|].
    split; [reflexivity|]. split; [cbn [set_mem d_seq]; lia|]. split; [auto|]. split; [cbn [answered]; auto|]. split; [auto|].
    intros L base segs cur P. exists L, base, (segs ++ [cur]), []. split.
    + eapply phase_tick; [exact P|exact (mp_inv _ _ _ _ Im)| | |exact Eg'].
      * destruct K as [(L0 & _ & K3) _ _ _ _ _ _]. enough (m_curid (d_mem s) <= t) by lia. apply K3. unfold pending. rewrite map_app. apply in_or_app. right. now left.
      * rewrite (gi_cur _ _ _ (mp_inv _ _ _ _ Im)). etransitivity; [exact Icur|]. apply trunc_mono; [exact (so_dur _ _ Hset)|lia].
    + intros r. cbn [flushed]. now rewrite map_app.
  - (* commit *)
    injection E as <- <-. pose proof (commit_step _ _ _ _ _ _ _ _ _ _ _ Hi) as Hi'. cbn [more_ok] in Hmore.
    assert (K' := kept_commit c s l g off H first M T e t Hi K ltac:(lia) ltac:(lia)).
    eexists _, [], g, off, H, first, M, T. rewrite app_nil_r. split; [reflexivity|]. split; [apply Hbig; exact Hi'|]. split; [exact K'|].
    split; [reflexivity|]. split; [cbn [set_mem d_seq]; lia|]. split; [auto|]. split; [cbn [answered]; auto|]. split; [auto|].
    intros L base segs cur P.
    pose proof (kept_fits _ _ _ _ _ _ _ _ _ _ _ Hi K ltac:(lia)) as Hf.
    destruct (phase_commit _ _ _ _ _ _ _ P (gi_w _ _ _ (mp_inv _ _ _ _ Im)) Hf) as (L' & base' & segs' & P' & Hb).
    { destruct K as [(L0 & _ & K3) _ _ _ _ _ _]. intros id Hid. specialize (K3 id Hid). lia. }
    exists L', base', segs', cur. split; [exact P'|]. intros r. destruct segs as [|seg segs]; destruct Hb as [-> ->]; cbn [map flushed]; [reflexivity|]. rewrite app_length. lia.
  - (* sync *)
    destruct (sync_step c gens0 s l g off H first M T e t now ord Hset Hi (proj1 Hclk) ltac:(lia) ltac:(lia) Hreq)
      as (s' & g' & off' & H' & first' & M' & T' & Ey & Hi' & Eq & Hf' & Hdis & Hls & _ & Hcase). rewrite Ey in E. injection E as <- <-. cbn [alive].
    assert (K' := kept_sync c s s' l g g' off off' H H' first first' M T T' e t now Hi K (proj1 Hclk) Hdis Hls).
    exists s', [], g', off', H', first', M', T'. rewrite app_nil_r. split; [reflexivity|]. split; [exact Hi'|]. split; [exact K'|].
    split; [reflexivity|]. split; [lia|]. split; [exact Hf'|]. split; [cbn [answered]; auto|]. split.
    + intros [[D1 (n & cnt & D2 & D3 & D4)] D5]. pose proof (db_sync_lfk _ _ _ _ _ Ey) as Hl. pose proof (db_sync_keeps _ _ _ _ _ Ey) as (_ & Hin & _). unfold lfk in Hl.
      split; [|congruence]. split; [lia|]. destruct Hin as [Hin|(m & _ & Hin)]; [exists n, cnt; rewrite Hin; auto|].
      exists (d_seq s), m. rewrite Hin, Ienc. repeat split; auto. lia.
    + intros L base segs cur P. destruct Hcase as [(_ & -> & ->)|(W & W' & F)].
      * exists L, base, segs, cur. split; [exact P|reflexivity].
      * destruct (phase_sync c _ s' _ _ g' _ _ _ _ now W W' P (mp_inv _ _ _ _ Im) F) as (L' & P'). exists L', base, segs, cur. split; [exact P'|reflexivity].
  - (* new id *)
    destruct (new_id_step c s l g off H first M T e t now Hi ltac:(lia)) as [Hi' Eq].
    assert (K' := kept_id c s l g off H first t now K).
    assert (Es : fst (db_new_id s now) = set_seq s (d_seq (fst (db_new_id s now)))) by reflexivity.
    destruct (db_new_id s now) as [s' id]. cbn [fst] in *. injection E as <- <-.
    exists s', [], g, off, H, first, M, T. rewrite app_nil_r. split; [reflexivity|].
    split; [apply Hbig; eapply inv_later; [exact (so_dur _ _ Hset)|apply Hclk|exact Hi']|]. split; [eapply kept_later; [apply Hclk|exact K']|].
    split; [reflexivity|]. split; [lia|]. split; [auto|]. split; [cbn [answered]; auto|]. split.
    + intros [[D1 D2] D3]. split; [split; [lia|]|]; rewrite Es; assumption.
    + intros L base segs cur P. exists L, base, segs, cur. split; [|reflexivity]. rewrite Es. eapply phase_mono; [exact P|exact (ph_L _ _ _ _ _ _ _ P)|auto|auto|reflexivity|reflexivity].
  - (* count *)
    injection E as <- <-. exists s, [], g, off, H, first, M, T. rewrite app_nil_r. split; [reflexivity|]. split; [auto|]. split; [exact K|].
    split; [reflexivity|]. split; [lia|]. split; [auto|]. split; [cbn [answered]; auto|]. split; [auto|]. intros L base segs cur P. exists L, base, segs, cur. split; [exact P|reflexivity].
Qed.

Lemma answered_cons y l o r x xs : answered y l [o] [x] -> answered y (l ++ sends o) r xs -> answered y l (o :: r) (x :: xs).
Proof. intros [A _] B. split; assumption. Qed.
Lemma answered_r y ops : forall l outs, answered y l ops outs -> ranswered y l (map RDo ops) outs.
Proof.
  induction ops as [|o r IH]; intros l [|x xs]; cbn [answered]; try contradiction; [reflexivity|]. intros [A B]. cbn [map ranswered].
  do 2 eexists. split; [reflexivity|]. split; [split; [exact A|exact I]|]. now apply IH.
Qed.

Lemma sops_run c gens0 rest : setting_ok c gens0 -> forall ops s l g off H first M T e t, inv c s l g off H first M T e t -> kept c s l g off H first t ->
  restart_ok c t (map gm_sent l) (map RDo ops ++ rest) -> e + Z.of_nat (length ops) <= 130000 -> Z.of_N (d_seq s) + Z.of_nat (length ops) <= 130000 ->
  0 <= t -> c_dur (c_mem c) <= t -> t < 2 ^ 32 * 1000000000 -> dsk c s ->
  exists s' b g' off' H' first' M' T' t' outs, (forall more, drun c (Up s) (map as_dop ops ++ more) = let (w, o) := drun c (Up s') more in (w, outs ++ o)) /\
    inv c s' (l ++ b) g' off' H' first' M' T' (e + Z.of_nat (length ops)) t' /\ kept c s' (l ++ b) g' off' H' first' t' /\ map gm_sent b = flat_map sends ops /\
    Z.of_N (d_seq s') <= Z.of_N (d_seq s) + Z.of_nat (length ops) /\ (first <> None -> first' = first) /\ restart_ok c t' (map gm_sent (l ++ b)) rest /\ t <= t' < 2 ^ 32 * 1000000000 /\ dsk c s' /\
    (forall y, first_of first' (l ++ b) y -> answered y (map gm_sent l) ops outs) /\
    (forall L base segs cur, phase s l g L base segs cur -> exists L' base' segs' cur', phase s' (l ++ b) g' L' base' segs' cur' /\
       length base' = (length base + flushed (map (@length _) segs) (length cur) ops)%nat).
Proof.
  intros Hset. induction ops as [|o r IH]; intros s l g off H first M T e t Hi K Hok He Hq Ht Hdt Hbt Hd.
  - exists s, [], g, off, H, first, M, T, t, []. cbn [map app length] in *. rewrite app_nil_r, Z.add_0_r. split; [intros more; now destruct (drun c (Up s) more)|].
    split; [exact Hi|]. split; [exact K|]. split; [reflexivity|]. split; [lia|]. split; [auto|]. split; [exact Hok|]. split; [lia|]. split; [exact Hd|]. split; [intros; exact I|].
    intros L base segs cur P. exists L, base, segs, cur. split; [exact P|]. cbn [flushed]. lia.
  - cbn [map app restart_ok length] in *. destruct Hok as (Hs & Hmore & Hrest). pose proof (proj1 Hs) as Hclk.
    destruct (dstep c (Up s) (as_dop o)) as [w x] eqn:E.
    destruct (one_step c gens0 o s l g off H first M T e t w x Hset Hi K Hs Hmore ltac:(lia) ltac:(lia) Ht Hdt Hbt E)
      as (s1 & b1 & g1 & off1 & H1 & first1 & M1 & T1 & -> & Hi1 & K1 & Eb1 & Hq1 & Hf1 & Ha1 & Hd1 & Hp1).
    assert (El : map gm_sent (l ++ b1) = map gm_sent l ++ sends o) by (rewrite map_app; now rewrite Eb1).
    destruct (IH s1 (l ++ b1) g1 off1 H1 first1 M1 T1 (e + 1) (clock t o) Hi1 K1) as (s' & b & g' & off' & H' & first' & M' & T' & t' & outs & Er & Hi' & K' & Eb & Hq' & Hf' & Hr' & Ht' & Hd' & Ha' & Hp'); try lia; auto.
    { rewrite El. exact Hrest. }
    exists s', (b1 ++ b), g', off', H', first', M', T', t', (x :: outs). rewrite app_assoc. split.
    { intros more. cbn [drun]. rewrite E, Er. now destruct (drun c (Up s') more). }
    split; [replace (e + Z.of_nat (S (length r))) with (e + 1 + Z.of_nat (length r)) by lia; exact Hi'|]. split; [exact K'|].
    split; [cbn [flat_map]; now rewrite map_app, Eb1, Eb|]. split; [lia|]. split; [intros Hn; rewrite Hf'; [now apply Hf1|rewrite Hf1; assumption]|].
    split; [exact Hr'|]. split; [lia|]. split; [exact Hd'|]. split.
    + intros y Hy. apply answered_cons.
      * apply Ha1. eapply first_back; [exact Hi1|exact (iv_list _ _ _ _ _ _ _ _ _ _ _ Hi')|exact Hf'|exact Hy].
      * rewrite <- El. now apply Ha'.
    + intros L base segs cur P. destruct (Hp1 _ _ _ _ P) as (L1 & base1 & segs1 & cur1 & P1 & F1). destruct (Hp' _ _ _ _ P1) as (L2 & base2 & segs2 & cur2 & P2 & F2).
      exists L2, base2, segs2, cur2. split; [exact P2|]. rewrite F2. apply F1.
Qed.

Lemma rops_run c gens0 rest : setting_ok c gens0 -> 0 < c_logint (c_mem c) -> forall ops s l g off H first M T e t, inv c s l g off H first M T e t -> kept c s l g off H first t ->
  restart_ok c t (map gm_sent l) (ops ++ rest) -> e + Z.of_nat (length ops) <= 130000 -> Z.of_N (d_seq s) + Z.of_nat (length ops) <= 130000 ->
  0 <= t -> c_dur (c_mem c) <= t -> t < 2 ^ 32 * 1000000000 ->
  exists s' b g' off' H' first' M' T' t' outs, (forall more, drun c (Up s) (flat_map as_dops ops ++ more) = let (w, o) := drun c (Up s') more in (w, outs ++ o)) /\
    inv c s' (l ++ b) g' off' H' first' M' T' (e + Z.of_nat (length ops)) t' /\ kept c s' (l ++ b) g' off' H' first' t' /\ map gm_sent b = flat_map rsends ops /\
    Z.of_N (d_seq s') <= Z.of_N (d_seq s) + Z.of_nat (length ops) /\ (first <> None -> first' = first) /\ restart_ok c t' (map gm_sent (l ++ b)) rest /\ t <= t' < 2 ^ 32 * 1000000000 /\
    (forall y, first_of first' (l ++ b) y -> forall r xs, ranswered y (map gm_sent (l ++ b)) r xs -> ranswered y (map gm_sent l) (ops ++ r) (outs ++ xs)).
Proof.
  intros Hset Hli. induction ops as [|o r IH]; intros s l g off H first M T e t Hi K Hok He Hq Ht Hdt Hbt.
  - exists s, [], g, off, H, first, M, T, t, []. cbn [flat_map app length] in *. rewrite app_nil_r, Z.add_0_r. split; [intros more; now destruct (drun c (Up s) more)|].
    split; [exact Hi|]. split; [exact K|]. split; [reflexivity|]. split; [lia|]. split; [auto|]. split; [exact Hok|]. split; [lia|]. auto.
  - cbn [flat_map app length] in *. destruct o as [o|gens now ord immut enc]; cbn [restart_ok as_dops] in *.
    + destruct Hok as (Hs & Hmore & Hrest). pose proof (proj1 Hs) as Hclk.
      destruct (dstep c (Up s) (as_dop o)) as [w x] eqn:E.
      destruct (one_step c gens0 o s l g off H first M T e t w x Hset Hi K Hs Hmore ltac:(lia) ltac:(lia) Ht Hdt Hbt E)
        as (s1 & b1 & g1 & off1 & H1 & first1 & M1 & T1 & -> & Hi1 & K1 & Eb1 & Hq1 & Hf1 & Ha1 & Hd1 & Hp1).
      assert (El : map gm_sent (l ++ b1) = map gm_sent l ++ sends o) by (rewrite map_app; now rewrite Eb1).
      destruct (IH s1 (l ++ b1) g1 off1 H1 first1 M1 T1 (e + 1) (clock t o) Hi1 K1) as (s' & b & g' & off' & H' & first' & M' & T' & t' & outs & Er & Hi' & K' & Eb & Hq' & Hf' & Hr' & Ht' & Ha'); try lia; auto.
      { rewrite El. exact Hrest. }
      exists s', (b1 ++ b), g', off', H', first', M', T', t', (x :: outs). rewrite app_assoc. split.
      { intros more. cbn [app drun]. rewrite E, Er. now destruct (drun c (Up s') more). }
      split; [replace (e + Z.of_nat (S (length r))) with (e + 1 + Z.of_nat (length r)) by lia; exact Hi'|]. split; [exact K'|].
      split; [cbn [rsends]; now rewrite map_app, Eb1, Eb|]. split; [lia|]. split; [intros Hn; rewrite Hf'; [now apply Hf1|rewrite Hf1; assumption]|].
      split; [exact Hr'|]. split; [lia|]. intros y Hy r0 xs Hxs. cbn [ranswered app]. do 2 eexists. split; [reflexivity|]. split.
      * apply Ha1. eapply first_back; [exact Hi1|exact (iv_list _ _ _ _ _ _ _ _ _ _ _ Hi')|exact Hf'|exact Hy].
      * rewrite <- El. now apply Ha'.
    + destruct Hok as (Hset' & Hnow & Hslot & Hfew & Htot & Hord & Hrest). rewrite <- !trunc_mul in Hslot.
      destruct (reopen_step c gens s l g off H first M T e t now ord immut enc Hset' Hi K Hli ltac:(lia) ltac:(lia) ltac:(lia) ltac:(lia) ltac:(lia) Hslot ltac:(lia) (few_topics _ Hfew) Hord)
        as (s0 & s1 & g1 & off1 & H1 & first1 & M1 & T1 & Ec & Eo & Eq & Hi1 & K1 & Hf1 & _).
      destruct (IH s1 l g1 off1 H1 first1 M1 T1 (e + 1) now Hi1 K1) as (s' & b & g' & off' & H' & first' & M' & T' & t' & outs & Er & Hi' & K' & Eb & Hq' & Hf' & Hr' & Ht' & Ha'); try lia; auto.
      exists s', b, g', off', H', first', M', T', t', (ORes DOk :: OOpened true :: outs). split.
      { intros more. cbn [app drun dstep]. rewrite Ec. cbn [dstep]. rewrite Eo, Er. now destruct (drun c (Up s') more). }
      split; [replace (e + Z.of_nat (S (length r))) with (e + 1 + Z.of_nat (length r)) by lia; exact Hi'|]. split; [exact K'|].
      split; [exact Eb|]. split; [lia|]. split; [intros Hn; rewrite Hf'; [now apply Hf1|rewrite Hf1; assumption]|].
      split; [exact Hr'|]. split; [lia|]. intros y Hy r0 xs Hxs. cbn [ranswered app]. eexists. split; [reflexivity|]. now apply Ha'.
Qed.

Lemma get_ok_front c l z g k names limit : S_Session.get_ok c (l ++ z) g k names limit -> S_Session.get_ok c l g k names limit.
Proof.
  intros [G1 G2 G3 G4 G5 G6 G7 G8]. split; auto.
  - rewrite filter_app, app_length in G4. lia.
  - intros m Hm. apply G5. apply in_app_iff. now left.
Qed.

Lemma gets_run c gens0 n : setting_ok c gens0 -> forall gets s l z g off H first M T e t, inv c (set_seq s n) l g off H first M T e t ->
  restart_ok c t (map gm_sent l ++ z) (map RDo gets) -> Forall is_get gets -> 0 <= t ->
  exists outs, snd (drun c (Up s) (map as_dop gets)) = outs /\ forall y, first_of first l y -> answered y (map gm_sent l) gets outs.
Proof.
  intros Hset. induction gets as [|o r IH]; intros s l z g off H first M T e t Hi Hok Hg Ht.
  - exists []. split; [reflexivity|]. intros; exact I.
  - inversion Hg as [|? ? Ho Hg']; subst. destruct o as [|now g0 k names limit| | | | |]; try contradiction.
    cbn [map restart_ok session_ok clock sends as_dop drun dstep] in *. rewrite app_nil_r in Hok. destruct Hok as ((Hclk & Hreq & _) & _ & Hrest).
    destruct (get_any c (set_seq s n) l g off H first M T e t now g0 k names limit Hi ltac:(lia) (get_ok_front _ _ _ _ _ _ _ Hreq)) as (s' & q' & items & Eg & Hi' & Esq & Hqs & Hin & Hx).
    rewrite get_seq in Eg. destruct (db_get c s now g0 (mkQ (text (static names)) k limit 0 [])) as [[s2 q2] r2]. injection Eg as Es <- ->. cbn [alive_q].
    rewrite <- Es in Hi'. destruct (IH s2 l z g off H first M T e now) as (outs & Eo & Ha); auto; [|lia|].
    { eapply inv_later; [exact (so_dur _ _ Hset)|apply Hclk|exact Hi']. }
    exists (OGot (QItems items) :: outs). split.
    { destruct (drun c (Up s2) (map as_dop r)) as [w o]. cbn [snd] in *. now rewrite Eo. }
    intros y Hy. cbn [answered sends]. rewrite app_nil_r. split; [|now apply Ha]. exists items. split; [reflexivity|]. split; [exact Hin|]. now apply Hx.
Qed.

Lemma nodup_list c l n : list_part c l n -> NoDup l.
Proof.
  intros Il. apply (NoDup_map_inv gm_seq). pose proof (lp_sorted _ _ _ Il) as Hs. revert Hs. generalize (map gm_seq l). clear. intros x.
  induction x as [|k x IH]; intros Hs; constructor; inversion Hs as [|? ? Hs' Hf]; subst; [|auto]. rewrite Forall_forall in Hf. intros Hin. specialize (Hf k Hin). lia.
Qed.

Lemma nodup_front {A} (a b : list A) : NoDup (a ++ b) -> NoDup a.
Proof. induction a as [|x a IH]; cbn [app]; intros Hn; constructor; inversion Hn as [|? ? Hx Hn']; subst; [|auto]. intros Hi. apply Hx. apply in_app_iff. now left. Qed.

Lemma crashed c gens t ord immut enc ops1 g1 n1 o1 i1 e1 ops2 g2 n2 o2 i2 e2 gets : setting_ok c gens -> 0 < c_logint (c_mem c) -> 0 <= t < 2 ^ 32 * 1000000000 -> c_dur (c_mem c) <= t ->
  restart_ok c t [] (ops1 ++ RRestart g1 n1 o1 i1 e1 :: map RDo ops2 ++ RRestart g2 n2 o2 i2 e2 :: map RDo gets) -> flat_map rsends ops1 <> [] -> Forall is_get gets ->
  (N.of_nat (length ops1 + length ops2) <= 129990)%N ->
  exists first outs outs2 kept lost,
    snd (drun c (Down no_files) (DoOpen gens t ord immut enc :: flat_map as_dops (ops1 ++ [RRestart g1 n1 o1 i1 e1]) ++ map as_dop ops2 ++ DoCrash :: DoOpen g2 n2 o2 i2 e2 :: map as_dop gets)) =
      OOpened true :: outs ++ ODone :: OOpened true :: outs2 /\
    ranswered first [] (ops1 ++ RRestart g1 n1 o1 i1 e1 :: map RDo ops2) outs /\ flat_map sends ops2 = kept ++ lost /\ (flushed [] 0 ops2 <= length kept)%nat /\
    answered first (flat_map rsends ops1 ++ kept) gets outs2.
Proof.
  intros Hset Hli Ht Hd Hok Hne Hgets Hn. destruct (start_step c gens t ord immut enc Hset ltac:(lia) Hd Hli) as (s0 & Eo & Eq0 & Hi0 & K0).
  destruct (rops_run c gens _ Hset Hli ops1 s0 [] _ _ _ _ _ _ _ _ Hi0 K0 Hok ltac:(lia) ltac:(lia) ltac:(lia) Hd ltac:(lia))
    as (s1 & l1 & gg1 & off1 & H1 & first1 & M1 & T1 & t1 & outs1 & Er1 & Hi1 & K1 & Eb1 & Hq1 & _ & Hr1 & Ht1 & Ha1). cbn [app] in *.
  cbn [restart_ok] in Hr1. destruct Hr1 as (Hset1 & Hnow1 & Hslot1 & Hfew1 & Htot1 & Hord1 & Hrest1). rewrite <- !trunc_mul in Hslot1.
  destruct (reopen_step c g1 s1 l1 gg1 off1 H1 first1 M1 T1 _ t1 n1 o1 i1 e1 Hset1 Hi1 K1 Hli ltac:(lia) ltac:(lia) ltac:(lia) ltac:(lia) ltac:(lia) Hslot1 ltac:(lia) (few_topics _ Hfew1) Hord1)
    as (sc & s2 & gg2 & off2 & H2 & first2 & M2 & T2 & Ec2 & Eo2 & Eq2 & Hi2 & K2 & Hf2 & Hall & Hqu & _).
  assert (Hn0 : (d_seq s1 <> 0)%N).
  { destruct l1 as [|m l0]; [cbn in Eb1; congruence|]. pose proof (lp_ok _ _ _ (iv_list _ _ _ _ _ _ _ _ _ _ _ Hi1)) as Lok. pose proof (lp_below _ _ _ (iv_list _ _ _ _ _ _ _ _ _ _ _ Hi1)) as Lb. rewrite Forall_forall in Lok, Lb.
    pose proof (gk_seq _ _ (Lok m (or_introl eq_refl))). specialize (Lb m (or_introl eq_refl)). lia. }
  assert (Hdsk : dsk c s2).
  { pose proof Ec2 as Ec3. unfold db_close in Ec3. rewrite (iv_closed _ _ _ _ _ _ _ _ _ _ _ Hi1) in Ec3. injection Ec3 as Esc.
    destruct (open_disk c g1 n1 o1 i1 e1 (on_disk sc) s2 (d_seq s1) (d_count s1)) as [E1 (cnt & E2)]; [| |exact Eo2|].
    - rewrite <- Esc. cbn [on_disk f_info d_info]. unfold info_bytes. now rewrite (iv_enc _ _ _ _ _ _ _ _ _ _ _ Hi1).
    - lia.
    - split; [split; [congruence|exists (d_seq s1), cnt; repeat split; auto; lia]|]. rewrite E1, <- Esc. cbn [on_disk f_lease d_lfile]. now rewrite (ke_lease _ _ _ _ _ _ _ _ K1). }
  assert (Hph : exists L, phase s2 l1 gg2 L l1 [] []).
  { destruct K2 as [(L & KL & _) _ _ _ _ _ _]. exists L. split; auto.
    - now rewrite app_nil_r.
    - apply Forall_forall. intros m Hm. left. now apply Hall.
    - rewrite Hqu. constructor. }
  destruct (sops_run c gens _ Hset ops2 s2 l1 gg2 off2 H2 first2 M2 T2 _ n1 Hi2 K2 Hrest1 ltac:(lia) ltac:(lia) ltac:(lia) ltac:(lia) ltac:(lia) Hdsk)
    as (s3 & b3 & gg3 & off3 & H3 & first3 & M3 & T3 & t3 & outs3 & Er3 & Hi3 & K3 & Eb3 & Hq3 & Hf3 & Hr3 & Ht3 & Hd3 & Ha3 & Hp3).
  destruct Hph as (L & P). destruct (Hp3 _ _ _ _ P) as (L3 & base & segs & cur & P3 & Elen). cbn [map length] in Elen.
  cbn [restart_ok] in Hr3. destruct Hr3 as (Hset2 & Hnow2 & Hslot2 & Hfew2 & _ & Hord2 & Hrest2). rewrite <- !trunc_mul in Hslot2.
  destruct Hd3 as [(_ & n0 & cnt0 & N1 & N2 & Ei) Elf].
  destruct (crash_step c g2 s3 (l1 ++ b3) gg3 off3 H3 first3 M3 T3 _ t3 n2 o2 i2 e2 n0 cnt0 L3 Hset2 Hi3 K3 (ph_L _ _ _ _ _ _ _ P3) Hli ltac:(lia) ltac:(lia) ltac:(lia) Hslot2 ltac:(lia) (few_topics _ Hfew2) Hord2 N1 N2 Ei Elf)
    as (a & bb & s4 & gg4 & off4 & H4 & first4 & M4 & T4 & Esp & Hsafe & Eo4 & Hi4 & Hf4).
  destruct (gets_run c g2 (d_seq s3) Hset2 gets s4 a (map gm_sent bb) _ _ _ _ _ _ _ n2 Hi4) as (outs4 & Er4 & Ha4); auto; [|lia|].
  { rewrite <- map_app, <- Esp. exact Hrest2. }
  destruct (first_any _ _ _ _ _ _ _ _ _ _ _ Hi4) as (y & Hy).
  assert (Hy3 : first_of first3 (l1 ++ b3) y).
  { intros h Eh. rewrite Hf4 in Hy by congruence. destruct (Hy h Eh) as (m & Hm & E1 & E2). exists m. split; [|auto]. rewrite Esp. apply in_app_iff. now left. }
  assert (Hy2 : first_of first2 l1 y) by (eapply first_back; [exact Hi2|exact (iv_list _ _ _ _ _ _ _ _ _ _ _ Hi3)|exact Hf3|exact Hy3]).
  assert (Hy1 : first_of first1 l1 y).
  { rewrite <- (app_nil_r l1) in Hy2. eapply first_back with (b := []); [exact Hi1| |exact Hf2|exact Hy2]. rewrite app_nil_r. exact (iv_list _ _ _ _ _ _ _ _ _ _ _ Hi2). }
  (* the part kept *)
  assert (Hla : (length base <= length a)%nat).
  { apply NoDup_incl_length.
    - pose proof (nodup_list _ _ _ (iv_list _ _ _ _ _ _ _ _ _ _ _ Hi3)) as Hnd. rewrite (ph_l _ _ _ _ _ _ _ P3) in Hnd. now apply nodup_front in Hnd.
    - intros m Hm. apply Hsafe; [rewrite (ph_l _ _ _ _ _ _ _ P3); apply in_app_iff; now left|]. pose proof (ph_base _ _ _ _ _ _ _ P3) as Hb. rewrite Forall_forall in Hb. auto. }
  assert (Ea : exists kb, a = l1 ++ kb /\ b3 = kb ++ bb).
  { assert (Hlen : (length l1 <= length a)%nat) by lia. clear - Esp Hlen. revert a Esp Hlen. induction l1 as [|m l IH]; intros a Esp Hlen; [exists a; auto|].
    destruct a as [|m' a]; [cbn in Hlen; lia|]. cbn [app] in Esp. injection Esp as <- Esp. cbn [length] in Hlen. destruct (IH a Esp ltac:(lia)) as (kb & -> & ->). exists kb. auto. }
  destruct Ea as (kb & -> & ->).
  exists y, (outs1 ++ ORes DOk :: OOpened true :: outs3), outs4, (map gm_sent kb), (map gm_sent bb).
  split; [|split; [|split; [|split]]].
  - cbn [drun dstep]. rewrite Eo. rewrite flat_map_app, <- app_assoc. rewrite Er1. cbn [flat_map as_dops app drun dstep]. rewrite Ec2. cbn [dstep]. rewrite Eo2, Er3.
    cbn [drun dstep]. rewrite Eo4. destruct (drun c (Up s4) (map as_dop gets)) as [w4 o4]. cbn [snd] in *. subst o4. now rewrite <- !app_assoc.
  - apply (Ha1 y Hy1). cbn [ranswered]. eexists. split; [reflexivity|]. apply answered_r. exact (Ha3 y Hy3).
  - rewrite <- map_app. now symmetry.
  - rewrite map_length. rewrite app_length in Hla. lia.
  - rewrite <- Eb1, <- map_app. exact (Ha4 y Hy).
Qed.
