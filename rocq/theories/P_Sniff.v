(** Proofs about the listener that looks at the first bytes (C77). *)
From Verif Require Import M_Bytes M_Patricia M_Sniff S_Streams P_Bytes P_Patricia.
From Coq Require Import Lia.
Open Scope nat_scope.

(** What is still to come: the remembered bytes from the reading place, then
    the bytes of the network. *)
Definition ahead (s : stream) : bytes :=
  skipn (s_bufferRead s) (firstn (s_bufferSize s) (s_buffer s)) ++ all_bytes (s_source s).
(** All bytes of the connection while sniffing. *)
Definition whole (s : stream) : bytes := s_buffer s ++ all_bytes (s_source s).

Lemma src_read_ok : forall s n d e r, plain s -> src_read s n = (d, e, r) ->
  plain r /\ all_bytes s = d ++ all_bytes r /\ (e <> None -> d = []) /\
  (e = Some eof -> all_bytes r = [] /\ r = []) /\ length d <= n /\
  (flowing s -> flowing r /\ (e = None \/ s = []) /\ (0 < n -> e = None -> d <> [])).
Proof.
  intros s n d e r H E. unfold plain in H.
  destruct s as [|x s]; cbn [src_read] in E.
  - injection E as <- <- <-. repeat split; auto; try constructor; cbn; try lia; congruence.
  - inversion H as [|? ? Hx Hs]; subst. destruct x as [b|k|b k]; [| |contradiction].
    + destruct (length b <=? n) eqn:L; injection E as <- <- <-.
      * apply Nat.leb_le in L. split; [exact Hs|]. split; [reflexivity|]. split; [congruence|].
        split; [congruence|]. split; [exact L|]. intros F. inversion F; subst. auto.
      * apply Nat.leb_gt in L. split; [constructor; auto|].
        split; [unfold all_bytes; cbn; rewrite app_assoc, firstn_skipn; reflexivity|].
        split; [congruence|]. split; [congruence|]. split; [rewrite firstn_length; lia|].
        intros F. inversion F as [|? ? F1 F2]; subst. split; [|split; [auto|]].
        -- constructor; auto. intros X. apply (f_equal (@length N)) in X. rewrite skipn_length in X. cbn in X. lia.
        -- intros Hn _ X. apply (f_equal (@length N)) in X. rewrite firstn_length in X. cbn in X. lia.
    + injection E as <- <- <-. split; [exact Hs|]. split; [reflexivity|]. split; [reflexivity|].
      split; [congruence|]. split; [cbn; lia|]. intros F. inversion F; contradiction.
Qed.

Lemma sniffed : forall s n d e s', plain (s_source s) -> s_sniffing s = true -> s_lastErr s = None ->
  s_bufferSize s <= length (s_buffer s) ->
  stream_read s n = (d, e, s') ->
  plain (s_source s') /\ s_sniffing s' = true /\ s_lastErr s' = None /\
  s_bufferSize s' <= length (s_buffer s') /\ whole s' = whole s.
Proof.
  intros s n d e s' P Sn L B E. unfold stream_read in E.
  destruct (s_bufferRead s <? s_bufferSize s) eqn:C.
  - injection E as <- <- <-. cbn. auto.
  - rewrite Sn in E. destruct (src_read (s_source s) n) as [[d0 e0] r] eqn:R.
    destruct (src_read_ok _ _ _ _ _ P R) as (P' & A & F & _).
    destruct (0 <? length d0) eqn:Z; cbn [andb] in E; injection E as <- <- <-; cbn; unfold whole; cbn.
    + apply Nat.ltb_lt in Z. repeat split; auto.
      * destruct e0; auto. assert (d0 = []) as -> by (apply F; discriminate). cbn in Z. lia.
      * rewrite app_length. lia.
      * rewrite A, app_assoc. reflexivity.
    + apply Nat.ltb_ge in Z. destruct d0; [|cbn in Z; lia]. repeat split; auto. rewrite A. reflexivity.
Qed.

Definition sn_ok (s : stream) : Prop :=
  plain (s_source s) /\ s_lastErr s = None /\ s_bufferSize s <= length (s_buffer s).
Lemma run_sniff : forall m s b s', sn_ok s -> s_sniffing s = true -> run_matcher m s = (b, s') ->
  sn_ok s' /\ s_sniffing s' = true /\ whole s' = whole s.
Proof.
  induction m as [b0|n k IH]; intros s b s' K Sn E; cbn in E.
  - injection E as <- <-. auto.
  - destruct (stream_read s n) as [[d e] s1] eqn:R. destruct K as (K1 & K2 & K3).
    destruct (sniffed _ _ _ _ _ K1 Sn K2 K3 R) as (A & B & C & D & W).
    destruct (IH d e s1 b s' (conj A (conj C D)) B E) as (X & Y & Z). rewrite W in Z. auto.
Qed.

Lemma serve_whole : forall ps i s j c, sn_ok s -> serve_loop i ps s = Some (j, c) ->
  sn_ok c /\ s_sniffing c = false /\ s_bufferRead c = 0 /\ s_bufferSize c = length (s_buffer c) /\ whole c = whole s.
Proof.
  induction ps as [|p r IH]; intros i s j c K E; cbn in E; [discriminate|].
  destruct (run_matcher p (stream_reset s true)) as [b s'] eqn:R.
  assert (K1 : sn_ok (stream_reset s true)) by (destruct K as (A & B & C); unfold sn_ok, stream_reset; cbn; auto).
  destruct (run_sniff _ _ _ _ K1 eq_refl R) as (X & _ & W).
  change (whole (stream_reset s true)) with (whole s) in W.
  destruct b.
  - injection E as <- <-. destruct X as (A & B & C). unfold sn_ok, stream_reset. cbn.
    repeat split; auto.
  - destruct (IH _ _ _ _ X E) as (A & B & C & D & F). rewrite W in F. auto.
Qed.

(** The connection handed over. *)
Definition hand (s : stream) : Prop :=
  plain (s_source s) /\ s_sniffing s = false /\ s_lastErr s = None.
Lemma hand_read : forall s n d e s', hand s -> s_bufferSize s <= length (s_buffer s) \/ s_bufferSize s <= s_bufferRead s ->
  stream_read s n = (d, e, s') ->
  hand s' /\ (s_bufferSize s' <= length (s_buffer s') \/ s_bufferSize s' <= s_bufferRead s') /\
  d ++ ahead s' = ahead s /\ (e <> None -> d = []) /\ (e = Some eof -> ahead s' = []) /\ length d <= n.
Proof.
  intros s n d e s' (P & Sn & L) B E. unfold stream_read in E.
  destruct (s_bufferRead s <? s_bufferSize s) eqn:C.
  - apply Nat.ltb_lt in C. destruct B as [B|B]; [|lia].
    injection E as <- <- <-. unfold hand, ahead. cbn [s_source s_buffer s_bufferRead s_bufferSize s_sniffing s_lastErr].
    set (q := firstn (s_bufferSize s) (s_buffer s)) in *.
    split; [auto|]. split; [left; exact B|].
    split; [|split; [rewrite L; congruence|split; [rewrite L; congruence|rewrite firstn_length; lia]]].
    rewrite app_assoc. f_equal.
    set (x := skipn (s_bufferRead s) q).
    assert (X : skipn (s_bufferRead s + length (firstn n x)) q = skipn n x).
    { rewrite <- skipn_skipn_add. fold x. rewrite firstn_length. destruct (Nat.le_ge_cases n (length x)).
      + rewrite Nat.min_l by lia. reflexivity.
      + rewrite Nat.min_r by lia. rewrite !skipn_all2 by lia. reflexivity. }
    rewrite X. apply firstn_skipn.
  - apply Nat.ltb_ge in C. rewrite Sn in E. destruct (src_read (s_source s) n) as [[d0 e0] r] eqn:R.
    rewrite Bool.andb_false_r in E. injection E as <- <- <-.
    destruct (src_read_ok _ _ _ _ _ P R) as (P' & A & F & G & Ln & _).
    unfold hand, ahead. cbn [s_source s_buffer s_bufferRead s_bufferSize s_sniffing s_lastErr].
    rewrite firstn_nil, skipn_nil. cbn [app].
    split; [auto|]. split; [right; exact C|].
    split; [|split; [exact F|split; [intros X; destruct (G X); auto|exact Ln]]].
    rewrite (skipn_all2 (n := s_bufferRead s)) by (rewrite firstn_length; lia). cbn. symmetry. exact A.
Qed.

Lemma hand_reads : forall sizes s, hand s -> s_bufferSize s <= length (s_buffer s) \/ s_bufferSize s <= s_bufferRead s ->
  let outs := fst (stream_reads s sizes) in
  (exists rest, told outs ++ rest = ahead s) /\
  (forall d e, In (d, Some e) outs -> d = []) /\
  (forall d, In (d, Some eof) outs -> told outs = ahead s).
Proof.
  induction sizes as [|n r IH]; intros s H B; cbn [stream_reads].
  - cbn. split; [exists (ahead s); reflexivity|]. split; contradiction.
  - destruct (stream_read s n) as [[d e] s1] eqn:E. destruct (stream_reads s1 r) as [os s2] eqn:R.
    destruct (hand_read _ _ _ _ _ H B E) as (H1 & B1 & A & F & G & _).
    specialize (IH s1 H1 B1). cbv zeta in IH. rewrite R in IH. cbn [fst] in *.
    destruct IH as ((rest & I1) & I2 & I3). unfold told. cbn [map concat fst]. fold (told os).
    split; [|split].
    + exists rest. rewrite <- app_assoc, I1. exact A.
    + intros d0 e0 [X|X]; [injection X as -> ->; apply F; discriminate|eauto].
    + intros d0 [X|X].
      * injection X as -> ->. specialize (G eq_refl). rewrite G in *.
        destruct (app_eq_nil _ _ I1) as [T _]. rewrite T. exact A.
      * rewrite (I3 _ X). exact A.
Qed.

Lemma served : forall ps src i c sizes, plain src -> serve ps src = Some (i, c) ->
  let outs := fst (stream_reads c sizes) in
  (exists rest, told outs ++ rest = all_bytes src) /\
  (forall d e, In (d, Some e) outs -> d = []) /\
  (forall d, In (d, Some eof) outs -> told outs = all_bytes src).
Proof.
  intros ps src i c sizes P E. unfold serve in E.
  assert (K : sn_ok (stream_new src)) by (unfold sn_ok; cbn; auto).
  destruct (serve_whole _ _ _ _ _ K E) as ((A1 & A2 & A3) & B & C & D & W).
  assert (A : ahead c = all_bytes src).
  { unfold ahead. rewrite C, D, firstn_all. cbn [skipn]. exact W. }
  rewrite <- A. apply hand_reads; [unfold hand; auto|left; lia].
Qed.

(** Routing. *)
Lemma full_reads : forall fuel n acc s k, n - length acc <= fuel ->
  flowing (s_source s) -> sn_ok s -> s_sniffing s = true -> s_bufferRead s <= s_bufferSize s ->
  exists s', run_matcher (read_full fuel n acc k) s = run_matcher (k (acc ++ firstn (n - length acc) (ahead s))) s' /\
    flowing (s_source s') /\ sn_ok s' /\ s_sniffing s' = true /\ whole s' = whole s.
Proof.
  induction fuel as [|f IH]; intros n acc s k Hf Fl K Sn Br; cbn [read_full].
  - replace (n - length acc) with 0 by lia. cbn [firstn]. rewrite app_nil_r. exists s. auto.
  - destruct (n <=? length acc) eqn:L.
    + apply Nat.leb_le in L. replace (n - length acc) with 0 by lia. cbn [firstn]. rewrite app_nil_r. exists s. auto.
    + apply Nat.leb_gt in L. cbn [run_matcher].
      destruct (stream_read s (n - length acc)) as [[d e] s1] eqn:E.
      destruct K as (K1 & K2 & K3).
      destruct (sniffed _ _ _ _ _ K1 Sn K2 K3 E) as (A & B & C & D & W).
      unfold stream_read in E. destruct (s_bufferRead s <? s_bufferSize s) eqn:Q.
      * apply Nat.ltb_lt in Q. rewrite K2 in E. injection E as <- <- <-.
        set (q := firstn (s_bufferSize s) (s_buffer s)) in *. set (x := skipn (s_bufferRead s) q) in *.
        assert (Lx : length x = s_bufferSize s - s_bufferRead s).
        { unfold x, q. rewrite skipn_length, firstn_length. lia. }
        assert (Ld : length (firstn (n - length acc) x) = Nat.min (n - length acc) (length x)) by apply firstn_length.
        destruct (IH n (acc ++ firstn (n - length acc) x) 
          (mkStream (s_source s) (s_buffer s) (s_bufferRead s + length (firstn (n - length acc) x)) (s_bufferSize s) (s_sniffing s) None) k)
          as (s' & R & F & K' & S' & W').
        { rewrite app_length. lia. } { exact Fl. } { unfold sn_ok; cbn; auto. } { exact Sn. } { cbn. lia. }
        exists s'. rewrite R. split; [|repeat split; auto; try apply K'; exact W'].
        f_equal. f_equal. rewrite <- app_assoc. f_equal.
        rewrite app_length. unfold ahead. cbn [s_source s_buffer s_bufferRead s_bufferSize]. fold q.
        rewrite <- skipn_skipn_add. fold x.
        rewrite !firstn_app.
        destruct (Nat.le_ge_cases (n - length acc) (length x)) as [G|G].
        -- rewrite Ld, Nat.min_l by lia. replace (n - (length acc + (n - length acc))) with 0 by lia. cbn [firstn].
           replace (n - length acc - length x) with 0 by lia. cbn. rewrite app_nil_r. reflexivity.
        -- rewrite Ld, Nat.min_r by lia. rewrite (firstn_all2 (n := n - length acc) x) by lia. f_equal.
           rewrite (skipn_all2 (n := length x)) by lia. rewrite firstn_nil. cbn [length app].
           f_equal. lia.
      * apply Nat.ltb_ge in Q. rewrite Sn in E.
        destruct (src_read (s_source s) (n - length acc)) as [[d0 e0] r] eqn:R.
        destruct (src_read_ok _ _ _ _ _ K1 R) as (P' & All & F & G & Ln & Flow).
        destruct (Flow Fl) as (Fr & [He|Hs] & Hne).
        -- subst e0. specialize (Hne ltac:(lia) eq_refl).
           assert (Z : (0 <? length d0) = true) by (apply Nat.ltb_lt; destruct d0; [congruence|cbn; lia]).
           rewrite Z in E. cbn [andb] in E. injection E as <- <- <-. cbn [s_source s_buffer s_bufferRead s_bufferSize s_sniffing s_lastErr] in *.
           assert (0 < length d0) by (apply Nat.ltb_lt; exact Z).
           match goal with |- context [run_matcher _ ?t] => set (s1 := t) in * end.
           destruct (IH n (acc ++ d0) s1 k) as (s' & R' & F' & K' & S' & W').
           { rewrite app_length. lia. } { exact Fr. } { unfold sn_ok, s1; cbn; auto. } { reflexivity. } { exact Br. }
           exists s'. rewrite R'. split; [|repeat split; auto; try apply K'; rewrite W'; exact W].
           f_equal. f_equal. rewrite <- app_assoc. f_equal.
           rewrite app_length. unfold ahead, s1. cbn [s_source s_buffer s_bufferRead s_bufferSize].
           rewrite (skipn_all2 (n := s_bufferRead s) (firstn _ (s_buffer s ++ d0))) by (rewrite firstn_length; lia).
           rewrite (skipn_all2 (n := s_bufferRead s) (firstn _ (s_buffer s))) by (rewrite firstn_length; lia).
           cbn [app]. rewrite All, firstn_app.
           rewrite (firstn_all2 (n := n - length acc) d0) by lia. f_equal. f_equal. lia.
        -- rewrite Hs in R. cbn in R. injection R as <- <- <-. cbn [length Nat.ltb Nat.leb andb] in E.
           injection E as <- <- <-. rewrite app_nil_r.
           eexists. split; [|split; [|split; [|split; [|exact W]]]].
           ++ f_equal. f_equal. unfold ahead. rewrite Hs.
              rewrite (skipn_all2 (n := s_bufferRead s)) by (rewrite firstn_length; lia). cbn. rewrite firstn_nil, app_nil_r. reflexivity.
           ++ constructor.
           ++ unfold sn_ok; cbn; auto.
           ++ reflexivity.
Qed.

Lemma ws_answer : forall strs s, strs <> [] -> flowing (s_source s) -> sn_ok s -> s_sniffing s = true -> s_bufferRead s <= s_bufferSize s ->
  exists b s', run_matcher (match_ws strs) s = (b, s') /\ (b = true <-> begins strs (ahead s)) /\
    flowing (s_source s') /\ sn_ok s' /\ whole s' = whole s.
Proof.
  intros strs s Hn Fl K Sn Br. unfold match_ws.
  destruct (full_reads (pt_maxDepth (newPatriciaTree strs)) (pt_maxDepth (newPatriciaTree strs)) [] s
     (fun b => MRet (node_match (pt_root (newPatriciaTree strs)) b true))) as (s' & R & F & K' & S' & W); [cbn; lia | auto .. |].
  cbv zeta. rewrite R. cbn [run_matcher]. eexists. eexists. split; [reflexivity|]. split; [|auto].
  cbn [length app]. rewrite Nat.sub_0_r. exact (matchPrefix_spec strs (ahead s) Hn).
Qed.

Lemma routed_loop : forall gs i s, Forall (fun strs => strs <> []) gs -> flowing (s_source s) -> sn_ok s ->
  exists j c, serve_loop i (map match_ws gs ++ [match_any]) s = Some (i + j, c) /\
   ((j < length gs /\ first_group gs (whole s) j) \/
    (j = length gs /\ forall strs, In strs gs -> ~ begins strs (whole s))).
Proof.
  induction gs as [|g gs IH]; intros i s Hn Fl K; cbn [map app serve_loop].
  - cbn. exists 0. eexists. rewrite Nat.add_0_r. split; [reflexivity|]. right. split; [reflexivity|contradiction].
  - inversion Hn as [|? ? Hg Hgs]; subst.
    destruct (ws_answer g (stream_reset s true) Hg) as (b & s' & R & Hb & F' & K' & W).
    { exact Fl. } { destruct K as (A & B & C). unfold sn_ok, stream_reset. cbn. auto. } { reflexivity. } { cbn. lia. }
    assert (A : ahead (stream_reset s true) = whole s).
    { unfold ahead, whole, stream_reset. cbn. rewrite firstn_all. reflexivity. }
    rewrite A in Hb. change (whole (stream_reset s true)) with (whole s) in W.
    rewrite R. destruct b.
    + exists 0. eexists. rewrite Nat.add_0_r. split; [reflexivity|]. left. split; [cbn; lia|].
      split; [exists g; split; [reflexivity|apply Hb; reflexivity]|]. intros. lia.
    + assert (Hno : ~ begins g (whole s)) by (intros X; apply Hb in X; discriminate).
      destruct (IH (S i) s' Hgs F' K') as (j & c & E & H). rewrite W in H.
      exists (S j), c. split; [rewrite E; f_equal; f_equal; lia|].
      destruct H as [(Lj & (strs & N1 & B1) & N2)|(Ej & N)].
      * left. split; [cbn; lia|]. split; [exists strs; auto|].
        intros [|j'] strs' Hj Hs'; [injection Hs' as <-; exact Hno|]. eapply N2; [|exact Hs']. lia.
      * right. split; [cbn; lia|]. intros strs [<-|H]; auto.
Qed.

Lemma routed : forall gs src, Forall (fun strs => strs <> []) gs -> flowing src ->
  exists j c, serve (map match_ws gs ++ [match_any]) src = Some (j, c) /\
   ((j < length gs /\ first_group gs (all_bytes src) j) \/
    (j = length gs /\ forall strs, In strs gs -> ~ begins strs (all_bytes src))).
Proof.
  intros gs src Hn Fl. unfold serve.
  apply (routed_loop gs 0 (stream_new src)); auto.
  unfold sn_ok, stream_new. cbn. repeat split; auto.
  eapply Forall_impl; [|exact Fl]. intros [d|e|d e]; auto; contradiction.
Qed.

Lemma flowing_plain : forall s, flowing s -> plain s.
Proof. intros s H. eapply Forall_impl; [|exact H]. intros [d|e|d e]; auto; contradiction. Qed.

Lemma early_error : exists src i c, serve [match_ws [[71; 69; 84]]; match_any]%N src = Some (i, c) /\
  exists d e, fst (stream_reads c [1]) = [(d, Some e)] /\ (length d < length (all_bytes src))%nat.
Proof.
  exists [DataFail [71; 69; 84]%N 7%N]. eexists. eexists. split; [vm_compute; reflexivity|].
  exists [71%N], 7%N. split; [vm_compute; reflexivity|]. apply Nat.ltb_lt. vm_compute. reflexivity.
Qed.
