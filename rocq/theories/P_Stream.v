(** Proofs about the stream over gRPC packets (C76). *)
From Verif Require Import M_Bytes M_Stream S_Streams P_Bytes.
From Coq Require Import Lia.
Open Scope nat_scope.

Lemma F2_impl : forall {A B} (P Q : A -> B -> Prop) l l', (forall a b, P a b -> Q a b) -> Forall2 P l l' -> Forall2 Q l l'.
Proof. intros A B P Q l l' H F. induction F; constructor; auto. Qed.

Definition pending (c : gconn) : bytes := skipn (gc_off c) (gc_cur c) ++ concat (gc_in c).
Definition gc_ok (c : gconn) : Prop := (gc_off c = 0 /\ gc_cur c = []) \/ (0 < gc_off c < length (gc_cur c))%nat.

Lemma decode_ok : forall inn data off n d c, (off = 0 \/ off < length data)%nat -> (0 < n)%nat ->
  gc_decode inn data off n = (d, c) ->
  gc_ok c /\ d ++ pending c = skipn off data ++ concat inn /\ (length d <= n)%nat /\ (data <> [] -> d <> []) /\
  gc_in c = inn.
Proof.
  intros inn data off n d c Ho Hn E. unfold gc_decode in E.
  assert (Hne : data <> [] -> firstn n (skipn off data) <> []).
  { intros Hd H. apply (f_equal (@length N)) in H. rewrite firstn_length, skipn_length in H. cbn in H.
    destruct data; [congruence|]. cbn [length] in *. lia. }
  destruct (length data <=? n + off)%nat eqn:L; injection E as <- <-; unfold gc_ok, pending; cbn [gc_off gc_cur gc_in].
  - apply Nat.leb_le in L. repeat split; auto.
    + rewrite firstn_all2 by (rewrite skipn_length; lia). reflexivity.
    + rewrite firstn_length. lia.
  - apply Nat.leb_gt in L. repeat split; auto.
    + right. lia.
    + rewrite app_assoc. f_equal. rewrite <- (firstn_skipn n (skipn off data)) at 2. f_equal.
      rewrite skipn_skipn_add. reflexivity.
    + rewrite firstn_length. lia.
Qed.

Lemma read_ok : forall c n o c', gc_ok c -> (0 < n)%nat -> gc_read c n = (o, c') ->
  gc_ok c' /\ (forall m, In m (gc_in c') -> In m (gc_in c)) /\
  match o with
  | Some d => d ++ pending c' = pending c /\ (length d <= n)%nat /\
              (Forall (fun m => m <> []) (gc_in c) -> d <> [])
  | None => c' = c /\ pending c = []
  end.
Proof.
  intros c n o c' K Hn E. unfold gc_read in E.
  destruct (Nat.eqb (gc_off c) 0) eqn:Z.
  - apply Nat.eqb_eq in Z. destruct K as [[_ K]|K]; [|lia].
    destruct (gc_in c) as [|m r] eqn:I.
    + injection E as <- <-. split; [left; auto|]. split; [rewrite I; auto|]. split; [reflexivity|].
      unfold pending. rewrite K, I, Z. reflexivity.
    + destruct (gc_decode r m 0 n) as [d c1] eqn:D. injection E as <- <-.
      destruct (decode_ok _ _ _ _ _ _ (or_introl eq_refl) Hn D) as (A & B & C & F & G).
      split; [exact A|]. split; [rewrite G; intros x Hx; right; exact Hx|].
      split; [|split; [exact C|]].
      * rewrite B. unfold pending. rewrite K, I, Z. reflexivity.
      * intros H. inversion H; subst. auto.
  - apply Nat.eqb_neq in Z. destruct K as [[K _]|K]; [congruence|].
    destruct (gc_decode (gc_in c) (gc_cur c) (gc_off c) n) as [d c1] eqn:D. injection E as <- <-.
    destruct (decode_ok _ _ _ _ _ _ (or_intror (proj2 K)) Hn D) as (A & B & C & F & G).
    split; [exact A|]. split; [rewrite G; auto|].
    split; [|split; [exact C|]].
    + rewrite B. reflexivity.
    + intros _. apply F. intros X. rewrite X in K. cbn in K. lia.
Qed.

Lemma reads_ok : forall sizes c, gc_ok c -> Forall (fun n => 0 < n)%nat sizes ->
  let outs := fst (gc_reads c sizes) in
  (exists rest, given outs ++ rest = pending c) /\
  (In None outs -> given outs = pending c) /\
  Forall2 (fun n o => match o with
     | Some d => (length d <= n)%nat /\ (Forall (fun m => m <> []) (gc_in c) -> d <> [])
     | None => True end) sizes outs.
Proof.
  induction sizes as [|n r IH]; intros c K Hs; cbn [gc_reads].
  - cbn. split; [exists (pending c); reflexivity|]. split; [easy|constructor].
  - inversion Hs as [|? ? Hn Hr]; subst.
    destruct (gc_read c n) as [o c1] eqn:E. destruct (gc_reads c1 r) as [os c2] eqn:R.
    destruct (read_ok _ _ _ _ K Hn E) as (K1 & Hin & Ho).
    specialize (IH c1 K1 Hr). cbv zeta in IH. rewrite R in IH. cbn [fst] in *.
    destruct IH as ((rest & I1) & I2 & I3).
    assert (Hall : Forall (fun m => m <> []) (gc_in c) -> Forall (fun m => m <> []) (gc_in c1)).
    { rewrite !Forall_forall. auto. }
    destruct o as [d|].
    + destruct Ho as (P & L & NE). unfold given. cbn [map concat].
      fold (given os). split; [|split].
      * exists rest. rewrite <- app_assoc, I1. exact P.
      * intros [H|H]; [discriminate|]. rewrite (I2 H). exact P.
      * constructor; [auto|]. eapply F2_impl; [|exact I3]. intros a [b|]; [|auto]. intros [X Y]; auto.
    + destruct Ho as (-> & P). unfold given. cbn [map concat]. fold (given os). cbn [app].
      rewrite P in *. destruct (app_eq_nil _ _ I1) as [G _]. rewrite G.
      split; [exists []; reflexivity|]. split; [reflexivity|].
      constructor; [exact I|exact I3].
Qed.

Lemma write_loop_ok : forall fuel size total p, (length p <= fuel)%nat ->
  (forall k, size = Some k -> 0 < k)%nat ->
  exists ms, gc_write_loop fuel size total p = Some (ms, total) /\ concat ms = p /\
    (forall k, size = Some k -> Forall (fun m => length m <= k)%nat ms) /\
    (p <> [] -> Forall (fun m => m <> []) ms).
Proof.
  induction fuel as [|f IH]; intros size total p Hl Hk.
  - destruct p; [|cbn in Hl; lia]. exists [[]]. cbn.
    assert (E : enc_take size [] = []) by (unfold enc_take; destruct size; [rewrite (proj2 (Nat.ltb_ge _ _)) by (cbn; lia)|]; reflexivity).
    rewrite E. cbn. repeat split; auto; try congruence. intros k _. constructor; [cbn; lia|constructor].
  - cbn [gc_write_loop].
    destruct (Nat.eqb (length (enc_take size p)) (length p)) eqn:E.
    + apply Nat.eqb_eq in E.
      assert (enc_take size p = p) as X.
      { unfold enc_take in *. destruct size as [k|]; auto.
        destruct (k <? length p)%nat eqn:L; auto. apply Nat.ltb_lt in L. rewrite firstn_length in E. lia. }
      rewrite X. exists [p]. split; [reflexivity|]. split; [cbn; apply app_nil_r|]. split.
      * intros k ->. constructor; [|constructor]. unfold enc_take in X.
        destruct (k <? length p)%nat eqn:L; [|apply Nat.ltb_ge in L; lia].
        apply (f_equal (@length N)) in X. rewrite firstn_length in X. lia.
      * intros H. constructor; [exact H|constructor].
    + apply Nat.eqb_neq in E. destruct size as [k|]; [|unfold enc_take in E; congruence].
      specialize (Hk k eq_refl). unfold enc_take in *.
      destruct (k <? length p)%nat eqn:L; [|congruence]. apply Nat.ltb_lt in L.
      rewrite firstn_length in *. rewrite Nat.min_l in * by lia.
      destruct (IH (Some k) total (skipn k p)) as (ms & A & B & C & D).
      { rewrite skipn_length. lia. } { intros k' H. injection H as <-. exact Hk. }
      rewrite A. exists (firstn k p :: ms). split; [reflexivity|].
      split; [cbn; rewrite B; apply firstn_skipn|]. split.
      * intros k' H. injection H as <-. constructor; [rewrite firstn_length; lia|apply C; reflexivity].
      * intros _. constructor.
        -- intros X. apply (f_equal (@length N)) in X. rewrite firstn_length in X. cbn in X. lia.
        -- apply D. intros X. apply (f_equal (@length N)) in X. rewrite skipn_length in X. cbn in X. lia.
Qed.

Lemma write_ok : forall size p, (forall k, size = Some k -> 0 < k)%nat ->
  exists ms, gc_write size p = Some (ms, length p) /\ concat ms = p /\
    (forall k, size = Some k -> Forall (fun m => length m <= k)%nat ms) /\
    (p <> [] -> Forall (fun m => m <> []) ms).
Proof. intros. apply write_loop_ok; auto. Qed.

Lemma writes_ok : forall size ps, (forall k, size = Some k -> 0 < k)%nat ->
  exists ms, gc_writes size ps = Some ms /\ concat ms = concat ps /\
    (forall k, size = Some k -> Forall (fun m => length m <= k)%nat ms) /\
    (Forall (fun p => p <> []) ps -> Forall (fun m => m <> []) ms).
Proof.
  intros size ps Hk. induction ps as [|p r IH]; cbn [gc_writes].
  - exists []. repeat split; auto.
  - destruct IH as (ms & A & B & C & D). destruct (write_ok size p Hk) as (mp & E & F & G & H).
    rewrite E, A. exists (mp ++ ms). split; [reflexivity|]. split; [rewrite concat_app, F, B; reflexivity|].
    split; [intros k Hk'; apply Forall_app; auto|].
    intros X. inversion X; subst. apply Forall_app; auto.
Qed.

Lemma stream_ok : forall size ps sizes, (forall k, size = Some k -> 0 < k)%nat ->
  Forall (fun n => 0 < n)%nat sizes ->
  exists ms, gc_writes size ps = Some ms /\
  (forall k, size = Some k -> Forall (fun m => length m <= k)%nat ms) /\
  let outs := fst (gc_reads (gc_new ms) sizes) in
  (exists rest, given outs ++ rest = concat ps) /\
  (In None outs -> given outs = concat ps) /\
  Forall2 (fun n o => match o with
     | Some d => (length d <= n)%nat /\ (Forall (fun p => p <> []) ps -> d <> [])
     | None => True end) sizes outs.
Proof.
  intros size ps sizes Hk Hs. destruct (writes_ok size ps Hk) as (ms & A & B & C & D).
  exists ms. split; [exact A|]. split; [exact C|].
  assert (K : gc_ok (gc_new ms)) by (left; auto).
  destruct (reads_ok sizes (gc_new ms) K Hs) as (I1 & I2 & I3).
  unfold pending, gc_new in I1, I2, I3. cbn [gc_off gc_cur gc_in skipn app] in I1, I2, I3.
  rewrite B in I1, I2. split; [exact I1|]. split; [exact I2|].
  eapply F2_impl; [|exact I3]. intros a [b|]; [|auto]. intros [X Y]; auto.
Qed.

Lemma zero_read : exists ps, gc_writes None ps = Some ps /\
  let outs := fst (gc_reads (gc_new ps) [0; 10; 10]) in
  In None outs /\ given outs <> concat ps.
Proof. exists [[1]; [2]]%N. vm_compute. split; [reflexivity|]. split; [auto|discriminate]. Qed.
Lemma chunk_loop : forall fuel total x p, gc_write_loop fuel (Some 0) total (x :: p) = None.
Proof. induction fuel as [|f IH]; intros total x p; cbn; [reflexivity|]. rewrite IH. reflexivity. Qed.
Lemma chunk_zero : forall p, p <> [] -> gc_write (Some 0) p = None.
Proof. intros [|x p] Hp; [congruence|]. apply chunk_loop. Qed.
