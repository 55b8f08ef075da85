(** Proofs about the in-memory store: replaying its logs. *)
From Verif Require Import M_Bytes M_Hash M_Bloom M_Wal M_MemDB S_MemDB P_Bytes P_Bloom P_MemBlock P_MemDB P_MemGet.
From Coq Require Import Lia ZifyBool ZifyNat ZifyN Sorted.
Open Scope Z_scope.

(** * Parsing *)
Lemma parse_encs rs fuel : Forall rec_ok rs -> (length (encs rs) < fuel)%nat -> parse_log fuel (encs rs) = Some rs.
Proof.
  revert fuel; induction rs as [|[[fl k] v] rs IH]; intros fuel Hok Hf; (destruct fuel as [|fuel]; [lia|]); cbn [parse_log].
  - reflexivity.
  - inversion Hok as [|? ? (H1 & H2 & H3) Hr]; subst. cbn [fst snd] in *. rewrite encs_cons in *. rewrite app_length, enc_length in Hf.
    cbn [snd] in Hf.
    assert (E : enc ((fl, k), v) = le 4 (N.of_nat (length v + 13)) ++ [if fl then 1%N else 0%N] ++ le 8 k ++ v).
    { unfold enc, mrecord; cbn [fst snd app]. unfold u32. rewrite N.mod_small by (change (2 ^ 32)%N with 4294967296%N in *; lia). reflexivity. }
    remember (encs rs) as tl eqn:Etl.
    assert (L4 : length (le 4 (N.of_nat (length v + 13))) = 4%nat) by apply le_length.
    assert (Ne : enc ((fl, k), v) ++ tl <> []).
    { intros En. apply (f_equal (@length N)) in En. rewrite app_length, enc_length in En. cbn [length] in En. lia. }
    destruct (enc ((fl, k), v) ++ tl) as [|x0 d0] eqn:Ed; [congruence|]. rewrite <- Ed. clear Ne.
    assert (Un : unle (firstn 4 (enc ((fl, k), v) ++ tl)) = N.of_nat (length v + 13)).
    { rewrite E, <- !app_assoc, firstn_app_len by exact L4. apply unle_le4. change (2 ^ 32)%N with 4294967296%N in *. lia. }
    rewrite Un. rewrite Nat2N.id. rewrite app_length, enc_length. cbn [snd].
    destruct (Nat.ltb_spec (length v + 13 + length tl) 4); [lia|].
    destruct (Nat.ltb_spec (length v + 13 + length tl) (length v + 13)); [lia|].
    destruct (Nat.ltb_spec (length v + 13) 13); [lia|]. cbn [orb].
    rewrite skipn_app_len by (rewrite enc_length; reflexivity). rewrite IH by (first [exact Hr|lia]).
    rewrite Etl.
    f_equal. f_equal.
    assert (S4 : nth 4 (enc ((fl, k), v) ++ encs rs) 0%N = if fl then 1%N else 0%N).
    { rewrite E, <- !app_assoc. rewrite app_nth2 by lia. rewrite L4. reflexivity. }
    assert (S5 : slice (enc ((fl, k), v) ++ encs rs) 5 8 = le 8 k).
    { rewrite E. rewrite (app_assoc (le 4 _) [_]). rewrite <- !app_assoc. rewrite (app_assoc (le 4 _) [_]).
      unfold slice. rewrite skipn_app_len by (rewrite app_length, L4; reflexivity). now rewrite firstn_app_len by apply le_length. }
    assert (S13 : slice (enc ((fl, k), v) ++ encs rs) 13 (length v + 13 - 13) = v).
    { rewrite E. rewrite !(app_assoc _ _ v). rewrite <- app_assoc. unfold slice.
      rewrite skipn_app_len by (rewrite !app_length, L4, le_length; reflexivity).
      rewrite firstn_app_len by lia. reflexivity. }
    rewrite S4, S5, S13. rewrite unle_le8 by exact H1. destruct fl; reflexivity.
Qed.

(** The last put of a key. *)
Fixpoint lastput (k : N) (l : list logrec) (x : option (Z * bytes)) : option (Z * bytes) :=
  match l with
  | [] => x
  | (id, ((fl, k'), v)) :: r => lastput k r (if fl then x else if (k' =? k)%N then Some (id, v) else x)
  end.
Lemma lastput_app k a b x : lastput k (a ++ b) x = lastput k b (lastput k a x).
Proof. revert x; induction a as [|[id [[fl k'] v]] a IH]; intros x; cbn [app lastput]; [reflexivity|apply IH]. Qed.
Lemma lastput_in k l x : lastput k l x = x \/ exists id v, lastput k l x = Some (id, v) /\ In (id, ((false, k), v)) l.
Proof.
  revert x; induction l as [|[id [[fl k'] v]] l IH]; intros x; cbn [lastput]; [now left|].
  destruct fl.
  - destruct (IH x) as [E|(id2 & v2 & E & Hin)]; [now left|]. right. exists id2, v2. split; [exact E|now right].
  - destruct (N.eqb_spec k' k) as [->|Hn].
    + destruct (IH (Some (id, v))) as [E|(id2 & v2 & E & Hin)]; right; [exists id, v|exists id2, v2]; (split; [exact E|]); [now left|now right].
    + destruct (IH x) as [E|(id2 & v2 & E & Hin)]; [now left|]. right. exists id2, v2. split; [exact E|now right].
Qed.
Lemma final_no_tomb k l x : (forall id w, ~ In (id, ((true, k), w)) l) -> final k l x = lastput k l x.
Proof.
  revert x; induction l as [|[id [[fl k'] v]] l IH]; intros x H; cbn [final lastput]; [reflexivity|].
  rewrite IH by (intros id2 w Hin; eapply H; right; exact Hin). f_equal.
  destruct (N.eqb_spec k' k) as [->|]; [|now destruct fl]. destruct fl; [|reflexivity]. exfalso. eapply H. now left.
Qed.
Lemma final_no_put k l : (forall id v, ~ In (id, ((false, k), v)) l) -> final k l None = None.
Proof.
  induction l as [|[id [[fl k'] v]] l IH]; intros H; cbn [final]; [reflexivity|].
  assert (E : (if (k' =? k)%N then if fl then None else Some (id, v) else None) = None).
  { destruct (N.eqb_spec k' k) as [->|]; [|reflexivity]. destruct fl; [reflexivity|]. exfalso. eapply H. now left. }
  rewrite E. apply IH. intros id2 w Hin. eapply H. right. exact Hin.
Qed.
Lemma final_app k a b x : final k (a ++ b) x = final k b (final k a x).
Proof. revert x; induction a as [|[id [[fl k'] v]] a IH]; intros x; cbn [app final]; [reflexivity|apply IH]. Qed.
Lemma final_tomb k l1 l2 id w : (forall id2 v, ~ In (id2, ((false, k), v)) l2) ->
  final k (l1 ++ (id, ((true, k), w)) :: l2) None = None.
Proof. intros H. rewrite final_app. cbn [final]. rewrite N.eqb_refl. now apply final_no_put. Qed.

(** * Splitting *)
Definition dels_inv (dels : list (Z * list N)) (done : list logrec) : Prop :=
  (forall t ks k, In (t, ks) dels -> In k ks -> exists id w, In (id, ((true, k), w)) done /\ tomb_time w = t) /\
  (forall id k w, In (id, ((true, k), w)) done -> exists t ks, In (t, ks) dels /\ In k ks) /\
  NoDup (map fst dels).

Lemma adel_NoDup {K V} eqb (l : list (K * V)) k : NoDup (map fst l) -> NoDup (map fst (adel eqb l k)).
Proof.
  unfold adel. induction l as [|x l IH]; cbn [map filter]; intros H; [constructor|]. inversion H; subst.
  destruct (negb (eqb (fst x) k)); [|now apply IH]. cbn [map]. constructor; [|now apply IH].
  intros Hin. apply H2. apply in_map_iff in Hin as (y & Ey & Hy). apply filter_In in Hy as [Hy _]. rewrite <- Ey. now apply in_map.
Qed.

Lemma NoDup_afind (l : list (Z * list N)) t ks : NoDup (map fst l) -> In (t, ks) l -> afind Z.eqb l t = Some ks.
Proof.
  induction l as [|[u x] l IH]; cbn [map fst afind In]; intros Hn Hin; [contradiction|]. inversion Hn; subst.
  destruct Hin as [[= -> ->]|Hin]; [now rewrite Z.eqb_refl|]. destruct (Z.eqb_spec u t) as [->|]; [|now apply IH].
  exfalso. apply H1. apply (in_map fst) in Hin. exact Hin.
Qed.

Lemma split_inv id (rs : list (ikey * bytes)) (log : list (N * bytes)) dels done : dels_inv dels done -> NoDup (map fst log) ->
  (forall k w, In ((true, k), w) rs -> (8 <= length w)%nat) ->
  exists log' dels', split_log rs log dels = Some (log', dels') /\
    dels_inv dels' (done ++ map (pair id) rs) /\ NoDup (map fst log') /\
    forall k x, match afind N.eqb log' k with Some v => Some (id, v) | None => x end =
      lastput k (map (pair id) rs) (match afind N.eqb log k with Some v => Some (id, v) | None => x end).
Proof.
  revert log dels done; induction rs as [|[[fl k] v] rs IH]; intros log dels done Hd Hn Hl.
  - exists log, dels. cbn [split_log map lastput]. rewrite app_nil_r. auto.
  - cbn [split_log map lastput].
    assert (Eapp : done ++ (id, (fl, k, v)) :: map (pair id) rs = (done ++ [(id, (fl, k, v))]) ++ map (pair id) rs)
      by (rewrite <- app_assoc; reflexivity). rewrite Eapp. destruct fl.
    + destruct (Nat.ltb_spec (length v) 8) as [Hlt|_]; [pose proof (Hl k v (or_introl eq_refl)); lia|].
      fold (tomb_time v). set (dels1 := aset Z.eqb dels (tomb_time v) _).
      destruct (IH log dels1 (done ++ [(id, ((true, k), v))])) as (log' & dels' & E & D & N & L); try assumption.
      * destruct Hd as (Hd1 & Hd2 & Hd3).
        assert (Old : forall x, In x (match afind Z.eqb dels (tomb_time v) with Some ks => ks | None => [] end) ->
           exists ks, In (tomb_time v, ks) dels /\ In x ks).
        { intros x. destruct (afind Z.eqb dels (tomb_time v)) as [ks|] eqn:Ea; [|contradiction]. intros Hx.
          apply (afind_In _ Zeqb_iff) in Ea. eauto. }
        split; [|split].
        -- intros t ks k2 [[= <- <-]|Hin] Hk.
           ++ apply in_app_or in Hk as [Hk|[<-|[]]].
              ** destruct (Old _ Hk) as (ks & H1 & H2). destruct (Hd1 _ _ _ H1 H2) as (i2 & w & Hi & Hw).
                 exists i2, w. split; [apply in_or_app; now left|exact Hw].
              ** exists id, v. split; [apply in_or_app; right; now left|reflexivity].
           ++ apply filter_In in Hin as [Hin _]. destruct (Hd1 _ _ _ Hin Hk) as (i2 & w & Hi & Hw).
              exists i2, w. split; [apply in_or_app; now left|exact Hw].
        -- intros i2 k2 w Hin. apply in_app_or in Hin as [Hin|[[= <- <- <-]|[]]].
           ++ destruct (Hd2 _ _ _ Hin) as (t & ks & H1 & H2). destruct (Z.eq_dec t (tomb_time v)) as [->|Hne].
              ** exists (tomb_time v). eexists. split; [left; reflexivity|]. apply in_or_app. left.
                 now rewrite (NoDup_afind _ _ _ Hd3 H1).
              ** exists t, ks. split; [|exact H2]. right. apply filter_In. split; [exact H1|]. cbn [fst].
                 destruct (Z.eqb_spec t (tomb_time v)); [contradiction|reflexivity].
           ++ exists (tomb_time v). eexists. split; [left; reflexivity|]. apply in_or_app. right. now left.
        -- unfold dels1, aset. cbn [map fst]. constructor; [|now apply adel_NoDup]. intros Hin.
           apply (adel_keys _ Zeqb_iff) in Hin as [_ Hin]. congruence.
      * intros k2 w Hin. apply (Hl k2 w). now right.
      * exists log', dels'. auto.
    + destruct (IH (aset N.eqb log k v) dels (done ++ [(id, ((false, k), v))])) as (log' & dels' & E & D & N & L).
      * destruct Hd as (Hd1 & Hd2 & Hd3). split; [|split; [|exact Hd3]].
        -- intros t ks k2 Hin Hk. destruct (Hd1 _ _ _ Hin Hk) as (i2 & w & Hi & Hw). exists i2, w.
           split; [apply in_or_app; now left|exact Hw].
        -- intros i2 k2 w Hin. apply in_app_or in Hin as [Hin|[Hin|[]]]; [eauto|discriminate].
      * unfold aset. cbn [map fst]. constructor; [|now apply adel_NoDup]. intros Hin.
        apply (adel_keys _ Neqb_iff) in Hin as [_ Hin]. congruence.
      * intros k2 w Hin. apply (Hl k2 w). now right.
      * exists log', dels'. split; [exact E|]. split; [exact D|]. split; [exact N|]. intros k2 x. rewrite L.
        f_equal. destruct (N.eqb_spec k k2) as [->|Hne].
        -- now rewrite (afind_aset_same _ Neqb_iff).
        -- now rewrite (afind_aset_other _ Neqb_iff) by exact Hne.
Qed.

(** * Putting the entries back *)
Record rinv (c : mcfg) (s : mdb) (sl : N -> slot) (b : Z) : Prop := {
  ri_w : winv s (A_of sl);
  ri_fr : frec c s (A_of sl);
  ri_h : hinv s sl;
  ri_f : finv c s sl b;
  ri_q : length (m_qfilters s) = length (m_filters s)
}.

Lemma rinv_ext c s sl sl' b : rinv c s sl b -> (forall k, sl' k = sl k) -> rinv c s sl' b.
Proof.
  intros [W Fr H F Q] E. assert (Ea : forall t k, A_of sl' t k = A_of sl t k) by (intros; unfold A_of; now rewrite E).
  split; [eapply winv_ext; eassumption|eapply frec_ext; eassumption| | |exact Q].
  - eapply hinv_same; [exact H|reflexivity..|exact E].
  - eapply finv_same; [exact F|reflexivity|lia|]. intros k t v. now rewrite E.
Qed.
Lemma rinv_same c s s' sl b b' : rinv c s sl b -> m_blocks s' = m_blocks s -> m_bufs s' = m_bufs s ->
  m_pool s' = m_pool s -> m_live s' = m_live s -> m_closed s' = m_closed s -> m_filters s' = m_filters s ->
  m_qfilters s' = m_qfilters s -> b <= b' -> rinv c s' sl b'.
Proof.
  intros [W Fr H F Q] E1 E2 E3 E4 E5 E6 E7 Hb. split.
  - eapply winv_same; eassumption.
  - eapply frec_same; [exact Fr|exact E6|auto].
  - eapply hinv_same; [exact H|assumption..|reflexivity].
  - eapply finv_same; [exact F|exact E6|exact Hb|auto].
  - congruence.
Qed.

Lemma rinv_put c s sl t p k v s2 : rinv c s sl t -> live s t = Some p -> item_ok k v ->
  (sl k = Absent \/ exists w, sl k = Held t w) -> block_put s p (false, k) v = Some s2 ->
  rinv c (addTimeFilter c s2 t k) (fun k' => if (k' =? k)%N then Held t v else sl k') t /\
  live (addTimeFilter c s2 t k) t = Some p.
Proof.
  intros [W Fr H F Q] Hl Hk Hs Ep.
  assert (Ei : put_in c s t k v = (addTimeFilter c s2 t k, MOk)) by (unfold put_in; now rewrite (wi_open _ _ W), Hl, Ep).
  destruct (put_in_inv _ _ _ _ _ _ _ _ W Fr Hk Ei) as (_ & [(_ & W' & Fr' & _)|(E & _)]); [|discriminate].
  assert (Ea : forall t' k', A_of (fun k' => if (k' =? k)%N then Held t v else sl k') t' k' = upd (A_of sl) t k (Some v) t' k').
  { intros t' k'. unfold A_of, upd. destruct (N.eqb_spec k' k) as [->|].
    - rewrite andb_true_r, Z.eqb_sym. destruct (Z.eqb_spec t' t) as [->|Hn]; [reflexivity|].
      destruct Hs as [->|[w ->]]; [reflexivity|]. destruct (Z.eqb_spec t t'); [congruence|reflexivity].
    - rewrite andb_false_r. reflexivity. }
  destruct (addTimeFilter_same c s2 t k) as (S1 & S2 & S3 & S4 & S5 & S6).
  destruct (block_put_q _ _ _ _ _ Ep) as [Q1 Q2].
  destruct (block_put_inv _ _ _ _ (false, k) v _ W Hl Hk Ep) as (_ & _ & _ & L2).
  split; [split|].
  - eapply winv_ext; [exact W'|exact Ea].
  - eapply frec_ext; [exact Fr'|exact Ea].
  - eapply hinv_same; [exact (hinv_put _ _ _ _ _ _ _ H W Hl Ep (or_intror Hs))|exact S1|exact S2|exact S4|reflexivity].
  - apply finv_put; [|exact Hs]. eapply finv_same; [exact F|exact Q2|lia|auto].
  - destruct (update_qlen c s2 k t) as [U1 U2]. rewrite U1, U2, Q1, Q2. exact Q.
  - unfold live in *. now rewrite S4, L2.
Qed.

Lemma fold_put c t p log : forall s sl, rinv c s sl t -> live s t = Some p ->
  (forall k v, In (k, v) log -> item_ok k v /\ (sl k = Absent \/ exists w, sl k = Held t w)) -> NoDup (map fst log) ->
  exists s', fold_left (fun s e => match s with
                                     | None => None
                                     | Some s => match block_put s p (false, fst e) (snd e) with
                                                 | None => None
                                                 | Some s' => Some (addTimeFilter c s' t (fst e))
                                                 end
                                     end) log (Some s) = Some s' /\
    rinv c s' (fun k => match afind N.eqb log k with Some v => Held t v | None => sl k end) t /\ live s' t = Some p.
Proof.
  induction log as [|[k v] log IH]; intros s sl R Hl Hi Hn; cbn [fold_left fst snd afind].
  - exists s. auto.
  - inversion Hn; subst. destruct (Hi k v (or_introl eq_refl)) as [Hk Hs].
    destruct (block_put_some _ _ _ _ (false, k) v (ri_w _ _ _ _ R) Hl) as [s2 Ep]. rewrite Ep.
    destruct (rinv_put _ _ _ _ _ _ _ _ R Hl Hk Hs Ep) as [R2 L2].
    destruct (IH _ _ R2 L2) as (s' & E & R' & L').
    + intros k2 v2 Hin. destruct (Hi k2 v2 (or_intror Hin)) as [G1 G2]. split; [exact G1|].
      destruct (N.eqb_spec k2 k) as [->|]; [right; eauto|exact G2].
    + exact H2.
    + exists s'. split; [exact E|]. split; [|exact L']. eapply rinv_ext; [exact R'|]. intros k2. cbn beta.
      destruct (N.eqb_spec k k2) as [->|Hne].
      * rewrite N.eqb_refl. destruct (afind N.eqb log k2) as [w|] eqn:Ea; [|reflexivity]. exfalso. apply H1.
        apply (afind_In _ Neqb_iff) in Ea. now apply (in_map fst) in Ea.
      * destruct (N.eqb_spec k2 k); [congruence|reflexivity].
Qed.

Lemma rinv_add c s sl b t : rinv c s sl b -> b <= t -> rinv c (addTimeBlock s t None) sl t /\
  exists p, live (addTimeBlock s t None) t = Some p.
Proof.
  intros [W Fr H F Q] Hb. destruct (addTimeBlock_inv s _ t None W) as (W2 & F2 & _). split; [split|].
  - exact W2.
  - eapply frec_same; [exact Fr|exact F2|auto].
  - eapply hinv_add; eassumption.
  - eapply finv_same; [exact F|exact F2|exact Hb|auto].
  - rewrite add_q, F2. exact Q.
  - destruct (live (addTimeBlock s t None) t) as [p|] eqn:E; [eauto|]. exfalso. eapply add_live, E.
Qed.

Lemma rinv_refs c s sl b t p x : rinv c s sl b -> live s t = Some p -> nth_error (m_blocks s) p = Some x -> forall refs,
  rinv c (set_block s p (mkMB (mb_count x) (mb_buf x) (mb_recs x) refs (mb_last x))) sl b.
Proof.
  intros [W Fr H F Q] Hl Hx refs.
  destruct (wi_blk _ _ W _ _ Hl) as (x' & d & rs & [G1 G1'] & G2 & G3 & G4 & G5 & G6). rewrite Hx in G1. injection G1 as <-.
  split; try assumption.
  - rewrite <- (setbuf_same s (mb_buf x) d G1').
    eapply winv_mod; [exact W|exact Hl|split; [exact Hx|exact G1']|reflexivity|..]; cbn [mb_recs mb_count]; try eassumption. reflexivity.
  - rewrite <- (setbuf_same s (mb_buf x) d G1').
    eapply hinv_mod; [exact H|exact Hl|exact Hx|intros; eapply live_inj; eassumption|reflexivity|..]; cbn [mb_recs].
    + intros k off Ha. exact (live_recs _ _ _ _ _ _ _ H Hl W Hx Ha).
    + reflexivity.
Qed.

Lemma recover_put_inv c s sl b t id log : rinv c s sl b -> b <= t ->
  (forall k v, In (k, v) log -> item_ok k v /\ (sl k = Absent \/ exists w, sl k = Held t w)) -> NoDup (map fst log) ->
  exists s', recover_put c s t id log = Some s' /\
    rinv c s' (fun k => match afind N.eqb log k with Some v => Held t v | None => sl k end) t.
Proof.
  intros R Hb Hi Hn. unfold recover_put.
  assert (R1 : rinv c (mark_add s t) sl b) by (eapply rinv_same; [exact R|reflexivity..|lia]).
  destruct (rinv_add _ _ _ _ _ R1 Hb) as [R2 [p Hp]]. rewrite Hp.
  destruct (fold_put c t p log _ _ R2 Hp Hi Hn) as (s' & E & R' & L'). rewrite E.
  destruct (wi_blk _ _ (ri_w _ _ _ _ R') _ _ L') as (x & d & rs & [G1 _] & _). rewrite G1.
  eexists. split; [reflexivity|].
  pose proof (rinv_refs _ _ _ _ _ _ _ R' L' G1 (mb_refs x ++ [id])) as R3. set (s3 := set_block s' p _) in *.
  destruct (marks_same s3 t _ (or_intror (or_introl eq_refl))) as (M1 & M2 & M3 & M4 & M5 & M6 & _).
  eapply rinv_same; [exact R3|try assumption..|lia]. apply mark_release_q.
Qed.

(** * All the logs *)
Definition slots_of (c : mcfg) (done : list logrec) (k : N) : slot :=
  match lastput k done None with Some (id, v) => Held (trunc id (c_logint c)) v | None => Absent end.

Lemma flat_cons a l : flat (a :: l) = map (pair (fst a)) (snd a) ++ flat l.
Proof. reflexivity. Qed.
Lemma flat_app a b : flat (a ++ b) = flat a ++ flat b.
Proof. unfold flat. apply flat_map_app. Qed.

Lemma recover_logs_inv c logs : logs_ok c logs -> forall todo donel s dels b,
  logs = donel ++ todo -> rinv c s (slots_of c (flat donel)) b -> dels_inv dels (flat donel) ->
  (forall a, In a todo -> b <= trunc (fst a) (c_logint c)) ->
  exists s' dels' b', recover_logs c s (map (fun l => (fst l, ([log_bytes (snd l)], EndOk))) todo) dels = Some (s', dels') /\
    rinv c s' (slots_of c (flat logs)) b' /\ dels_inv dels' (flat logs) /\
    (b' = b \/ exists a, In a todo /\ b' = trunc (fst a) (c_logint c)).
Proof.
  intros [O1 O2 O3 O4 O5]. induction todo as [|[id rs] todo IH]; intros donel s dels b El R D Hb.
  - rewrite app_nil_r in El. subst donel. exists s, dels, b. cbn [map recover_logs]. auto.
  - cbn [map fst snd recover_logs recover_log].
    assert (In_rs : forall r, In r rs -> In (id, r) (flat logs)).
    { intros r Hr. rewrite El, flat_app, flat_cons. apply in_or_app. right. apply in_or_app. left. cbn [fst snd]. now apply in_map. }
    assert (In_done : forall r, In r (flat donel) -> In r (flat logs)).
    { intros r Hr. rewrite El, flat_app. apply in_or_app. now left. }
    change (log_bytes rs) with (encs rs).
    rewrite (parse_encs rs (S (length (encs rs)))).
    2:{ apply Forall_forall. intros [k v] Hr. unfold rec_ok. cbn [fst snd]. eapply O2, In_rs, Hr. }
    2:{ lia. }
    destruct (split_inv id rs [] dels (flat donel) D) as (log & dels1 & Es & D1 & N1 & L1).
    { constructor. }
    { intros k w Hin. apply (O4 id k w). now apply In_rs. }
    rewrite Es. cbn [afind] in L1.
    assert (Ll : forall k v, afind N.eqb log k = Some v -> lastput k (map (pair id) rs) None = Some (id, v)).
    { intros k v Ea. rewrite <- (L1 k None), Ea. reflexivity. }
    set (t := trunc id (c_logint c)).
    destruct (recover_put_inv c s (slots_of c (flat donel)) b t id log R) as (s1 & E1 & R1).
    { apply (Hb (id, rs)). now left. }
    { intros k v Hin.
      assert (Ha : afind N.eqb log k = Some v).
      { clear - N1 Hin. induction log as [|[k2 v2] log IH]; [contradiction|]. cbn [map fst afind] in *. inversion N1; subst.
        destruct Hin as [[= -> ->]|Hin]; [now rewrite N.eqb_refl|]. destruct (N.eqb_spec k2 k) as [->|]; [|now apply IH].
        exfalso. apply H1. now apply (in_map fst) in Hin. }
      assert (Hp : In (id, ((false, k), v)) (flat logs)).
      { apply Ll in Ha. destruct (lastput_in k (map (pair id) rs) None) as [E|(id2 & v2 & E & Hi)]; rewrite Ha in E; [discriminate|].
        injection E as <- <-. rewrite El, flat_app, flat_cons. apply in_or_app. right. apply in_or_app. left. exact Hi. }
      split; [exact (O2 id (false, k) v Hp)|]. unfold slots_of.
      destruct (lastput_in k (flat donel) None) as [E|(id2 & v2 & E & Hi)]; rewrite E; [now left|]. right.
      exists v2. f_equal. apply In_done in Hi. eapply O3; eassumption. }
    { exact N1. }
    rewrite E1.
    assert (Ed : flat (donel ++ [(id, rs)]) = flat donel ++ map (pair id) rs).
    { rewrite flat_app. cbn [flat flat_map fst snd]. now rewrite app_nil_r. }
    destruct (IH (donel ++ [(id, rs)]) s1 dels1 t) as (s2 & dels2 & b2 & E2 & R2 & D2 & Hb2).
    + rewrite <- app_assoc. exact El.
    + eapply rinv_ext; [exact R1|]. intros k. unfold slots_of. rewrite Ed, lastput_app. rewrite <- L1.
      destruct (afind N.eqb log k); reflexivity.
    + rewrite Ed. exact D1.
    + intros a Ha. apply in_split in Ha as (l1 & l2 & ->). apply (O1 donel (id, rs) l1 a l2). exact El.
    + exists s2, dels2, b2. split; [exact E2|]. split; [exact R2|]. split; [exact D2|]. right.
      destruct Hb2 as [->|(a & Ha & ->)]; [exists (id, rs); split; [now left|reflexivity]|exists a; split; [now right|reflexivity]].
Qed.

(** * The deletes *)
Lemma forget_inv c s sl b t p k v : rinv c s sl b -> live s t = Some p -> sl k = Held t v ->
  rinv c (forget s t p k) (fun k' => if (k' =? k)%N then Absent else sl k') b.
Proof.
  intros [W Fr H F Q] Hl Hs. unfold forget.
  destruct (wi_blk _ _ W _ _ Hl) as (x & d & rs & [G1 G1'] & G2 & G3 & G4 & G5 & G6). rewrite G1.
  set (sl' := fun k' => if (k' =? k)%N then Absent else sl k').
  set (x' := mkMB _ _ _ _ _).
  assert (Ha : A_of sl t k = Some v) by now apply A_of_held.
  assert (Hf : exists off, afind ik_eqb (mb_recs x) (false, k) = Some off).
  { rewrite G6 in Ha. unfold bval in Ha. destruct (afind ik_eqb (mb_recs x) (false, k)); [eauto|congruence]. }
  destruct Hf as [off Hf].
  assert (Ea : forall t' k', A_of sl' t' k' = upd (A_of sl) t k None t' k').
  { intros t' k'. unfold A_of, upd, sl'. destruct (N.eqb_spec k' k) as [->|].
    - rewrite andb_true_r. destruct (Z.eqb_spec t' t) as [->|]; [reflexivity|]. rewrite Hs.
      destruct (Z.eqb_spec t t'); [congruence|reflexivity].
    - rewrite andb_false_r. reflexivity. }
  assert (W1 : winv (set_block s p x') (A_of sl')).
  { rewrite <- (setbuf_same s (mb_buf x) d G1').
    eapply winv_mod; [exact W|exact Hl|split; [exact G1|exact G1']|reflexivity|..]; unfold x'; cbn [mb_recs mb_count].
    - destruct G2 as [J1 J2 J3]. split; [exact J1|exact J2|]. intros k2 o Hk2.
      assert (k2 <> (false, k)) as Hne by (intros ->; rewrite afind_adel_same in Hk2; discriminate).
      rewrite (afind_adel_other _ ik_eqb_iff) in Hk2 by congruence. now apply J3.
    - pose proof (nkeys_adel _ _ _ Hf). lia.
    - now apply kok_adel.
    - intros k'. rewrite Ea. unfold upd. rewrite Z.eqb_refl. cbn [andb]. unfold bval.
      destruct (N.eqb_spec k' k) as [->|Hn]; [now rewrite afind_adel_same|].
      rewrite (afind_adel_other _ ik_eqb_iff) by congruence. apply G6.
    - intros t' k' Hn. rewrite Ea. unfold upd. destruct (Z.eqb_spec t' t); [contradiction|reflexivity]. }
  assert (H1 : hinv (set_block s p x') sl').
  { rewrite <- (setbuf_same s (mb_buf x) d G1').
    eapply hinv_mod; [exact H|exact Hl|exact G1|intros; eapply live_inj; eassumption|reflexivity|..]; unfold x', sl'; cbn [mb_recs].
    - intros k' o Hk'. destruct (N.eqb_spec k' k) as [->|Hn]; [rewrite afind_adel_same in Hk'; discriminate|].
      rewrite (afind_adel_other _ ik_eqb_iff) in Hk' by congruence. exact (live_recs _ _ _ _ _ _ _ H Hl W G1 Hk').
    - intros p2 b2 k' o Hn Hb2 Hk'. destruct (N.eqb_spec k' k) as [->|]; [|reflexivity]. exfalso. apply Hn.
      assert (live s t = Some p2) by (eapply recs_elsewhere; try eassumption; eauto). congruence. }
  assert (Fr1 : forall s0, m_filters s0 = m_filters s -> frec c s0 (A_of sl')).
  { intros s0 E0. eapply frec_same; [exact Fr|exact E0|]. intros t' k'. rewrite Ea. unfold upd.
    destruct ((t' =? t) && (k' =? k)%N)%bool; [congruence|auto]. }
  assert (F1 : forall s0, m_filters s0 = m_filters s -> finv c s0 sl' b).
  { intros s0 E0. eapply finv_same; [exact F|exact E0|lia|]. intros k' u w. unfold sl'. destruct (k' =? k)%N; [discriminate|auto]. }
  destruct (mb_recs x') as [|y l] eqn:Er.
  2:{ split; [exact W1|now apply Fr1|exact H1|now apply F1|exact Q]. }
  set (s1 := set_block s p x') in *.
  assert (Hl1 : live s1 t = Some p) by exact Hl.
  assert (B1 : nth_error (m_blocks s1) p = Some x').
  { unfold s1; cbn [m_blocks set_block]. rewrite nth_error_update by (eapply nth_error_lt, G1). now rewrite Nat.eqb_refl. }
  assert (Rl : exists s2, releaseLog s1 t = Some s2 /\ m_blocks s2 = m_blocks s1 /\ m_bufs s2 = update (m_bufs s1) (mb_buf x) [] /\
     m_live s2 = adel Z.eqb (m_live s1) t /\ m_pool s2 = mb_buf x :: m_pool s1 /\ m_closed s2 = m_closed s1).
  { unfold releaseLog. rewrite Hl1, B1. eexists. split; [reflexivity|]. repeat split. }
  destruct Rl as (s2 & Rl & S1 & S2 & S3 & S4 & S5).
  assert (Hno : forall k' w, sl' k' <> Held t w).
  { intros k' w Hk'. assert (A_of sl' t k' = None) as En.
    { apply (has_spec _ _ _ _ _ W1 Hl1). unfold rec_off. rewrite B1, Er. reflexivity. }
    apply A_of_held in Hk'. congruence. }
  destruct (releaseLog_inv _ _ _ _ W1 Rl) as (W2 & _ & _).
  pose proof (hinv_release _ _ _ _ H1 W1 Rl) as H2.
  split.
  - apply (winv_ext _ (clear (A_of sl') t)).
    + eapply winv_same; [exact W2|cbn [m_blocks m_bufs m_pool m_live m_closed set_live set_buf]; congruence..].
    + intros u k'. unfold clear. destruct (Z.eqb_spec u t) as [->|]; [|reflexivity].
      destruct (A_of sl' t k') as [w|] eqn:Ew; [|reflexivity]. apply A_of_held in Ew. exfalso. eapply Hno, Ew.
  - now apply Fr1.
  - eapply hinv_same; [exact H2|cbn [m_blocks m_bufs m_pool m_live m_closed set_live set_buf]; congruence..|].
    intros k'. transitivity (sl' k'); [reflexivity|]. destruct (sl' k') as [|u w|] eqn:Ek; [reflexivity| |reflexivity].
    destruct (Z.eqb_spec u t) as [->|]; [|reflexivity]. exfalso. eapply Hno, Ek.
  - now apply F1.
  - exact Q.
Qed.

(** One group of deletes: each key, if held, is held at the time of the group. *)
Definition without (sl : N -> slot) (ks : list N) (k : N) : slot := if existsb (N.eqb k) ks then Absent else sl k.

Lemma forget_live s t p k : forall u q, live (forget s t p k) u = Some q -> live s u = Some q.
Proof.
  intros u q. unfold forget. destruct (nth_error (m_blocks s) p) as [b|]; [|auto].
  cbn [mb_recs]. destruct (adel ik_eqb (mb_recs b) (false, k)); [|auto]. unfold live; cbn [m_live set_live set_block].
  destruct (Z.eq_dec u t) as [->|Hn]; [now rewrite afind_adel_same|].
  now rewrite afind_adel_other by (first [exact Zeqb_iff|congruence]).
Qed.

Lemma recover_dels_inv c s sl b t ks : rinv c s sl b ->
  (forall k, In k ks -> forall t' v, sl k = Held t' v -> t' = t) -> (forall k, sl k <> Freed) ->
  rinv c (recover_dels c s (t, ks)) (without sl ks) b.
Proof.
  intros R Hk Hf. unfold recover_dels. cbn [fst snd]. destruct (live s t) as [p|] eqn:El.
  - assert (Gen : forall ks s sl, rinv c s sl b -> (live s t = Some p \/
        (forall k, rec_off s p (false, k) = None) /\ live s t = None) ->
       (forall k, In k ks -> forall t' v, sl k = Held t' v -> t' = t) -> (forall k, sl k <> Freed) ->
       rinv c (fold_left (fun s k => match rec_off s p (false, k) with None => s | Some _ => forget s t p k end) ks s)
              (without sl ks) b).
    { clear s sl R Hk Hf El ks. induction ks as [|k ks IH]; intros s sl R Hp Hk Hf; cbn [fold_left].
      - eapply rinv_ext; [exact R|reflexivity].
      - destruct (rec_off s p (false, k)) as [off|] eqn:Er.
        + destruct Hp as [Hp|[Hp _]]; [|rewrite Hp in Er; discriminate].
          assert (Hh : exists v, sl k = Held t v).
          { apply A_of_some. rewrite <- (has_spec s _ t p k (ri_w _ _ _ _ R) Hp). congruence. }
          destruct Hh as [v Hh]. pose proof (forget_inv _ _ _ _ _ _ _ _ R Hp Hh) as R1.
          eapply rinv_ext; [apply (IH _ _ R1)|].
          * destruct (live (forget s t p k) t) as [q|] eqn:El.
            -- left. pose proof (forget_live _ _ _ _ _ _ El). congruence.
            -- right. split; [|reflexivity]. intros k2. unfold forget in El |- *. unfold rec_off.
               unfold rec_off in Er. destruct (nth_error (m_blocks s) p) as [x|] eqn:Ex; [|now rewrite Ex].
               cbn [mb_recs] in *. destruct (adel ik_eqb (mb_recs x) (false, k)) as [|y l] eqn:Ea.
               ++ cbn [m_blocks set_live set_buf set_block]. rewrite nth_error_update by (eapply nth_error_lt, Ex).
                  now rewrite Nat.eqb_refl.
               ++ exfalso. unfold live in El, Hp. cbn [m_live set_block] in El. congruence.
          * intros k2 Hin t' w. destruct (k2 =? k)%N; [discriminate|]. apply Hk. now right.
          * intros k2. destruct (k2 =? k)%N; [discriminate|apply Hf].
          * intros k2. unfold without. cbn [existsb]. destruct (N.eqb_spec k2 k) as [->|]; cbn [orb]; [|reflexivity].
            now destruct (existsb (N.eqb k) ks).
        + eapply rinv_ext; [apply (IH _ _ R Hp)|].
          * intros k2 Hin. apply Hk. now right.
          * exact Hf.
          * intros k2. unfold without. cbn [existsb]. destruct (N.eqb_spec k2 k) as [->|]; cbn [orb]; [|reflexivity].
            destruct (existsb (N.eqb k) ks); [reflexivity|].
            destruct (sl k) as [|t' v|] eqn:Es; [reflexivity| |now apply Hf in Es].
            exfalso. pose proof (Hk k (or_introl eq_refl) t' v Es). subst t'.
            destruct Hp as [Hp|[_ Hp]].
            -- apply (has_spec s _ t p k (ri_w _ _ _ _ R) Hp) in Er. apply A_of_held in Es. congruence.
            -- apply A_of_held in Es. rewrite (wi_none _ _ (ri_w _ _ _ _ R) _ k Hp) in Es. discriminate. }
    apply Gen; auto.
  - assert (Hno : forall k, In k ks -> sl k = Absent).
    { intros k Hin. destruct (sl k) as [|t' v|] eqn:Es; [reflexivity| |now apply Hf in Es]. exfalso.
      pose proof (Hk k Hin t' v Es). subst t'. apply A_of_held in Es.
      rewrite (wi_none _ _ (ri_w _ _ _ _ R) _ k El) in Es. discriminate. }
    assert (Id : forall ks', (forall k, In k ks' -> sl k = Absent) ->
      fold_left (fun s k => match newest c s k with None => s | Some (t, p) => forget s t p k end) ks' s = s).
    { induction ks' as [|k ks' IH]; intros Hn; cbn [fold_left]; [reflexivity|].
      destruct (newest c s k) as [[t' p]|] eqn:En; [|apply IH; intros; apply Hn; now right].
      exfalso. destruct (newest_held_inv _ _ _ _ _ _ (ri_w _ _ _ _ R) (ri_fr _ _ _ _ R) En) as [_ [v Hv]].
      rewrite (Hn k (or_introl eq_refl)) in Hv. discriminate. }
    rewrite Id by exact Hno. eapply rinv_ext; [exact R|]. intros k. unfold without.
    destruct (existsb (N.eqb k) ks) eqn:Ex; [|reflexivity]. symmetry. apply Hno.
    apply existsb_exists in Ex as (k2 & Hin & E). apply N.eqb_eq in E. now subst.
Qed.

Lemma all_dels_inv c b dels : forall s sl, rinv c s sl b ->
  (forall t ks k, In (t, ks) dels -> In k ks -> forall t' v, sl k = Held t' v -> t' = t) -> (forall k, sl k <> Freed) ->
  exists sl', rinv c (fold_left (recover_dels c) dels s) sl' b /\
    forall k, sl' k = if existsb (fun d => existsb (N.eqb k) (snd d)) dels then Absent else sl k.
Proof.
  induction dels as [|[t ks] dels IH]; intros s sl R Hk Hf; cbn [fold_left existsb snd].
  - exists sl. auto.
  - assert (R1 : rinv c (recover_dels c s (t, ks)) (without sl ks) b).
    { apply recover_dels_inv; [exact R| |exact Hf]. intros k Hin. apply (Hk t ks k); [now left|exact Hin]. }
    destruct (IH _ _ R1) as (sl' & R' & E').
    + intros t2 ks2 k Hin Hin2 t' v. unfold without. destruct (existsb (N.eqb k) ks); [discriminate|].
      apply (Hk t2 ks2 k); [now right|exact Hin2].
    + intros k. unfold without. destruct (existsb (N.eqb k) ks); [discriminate|apply Hf].
    + exists sl'. split; [exact R'|]. intros k. rewrite E'. unfold without.
      destruct (existsb (N.eqb k) ks); cbn [orb]; [|reflexivity]. now destruct (existsb _ dels).
Qed.

Lemma recover_inv_as c gens d logs now : cfg_ok c gens -> logs_ok c logs ->
  recover_logs c (mem_empty gens d) (replay d) [] = recover_logs c (mem_empty gens d) (map (fun l => (fst l, ([log_bytes (snd l)], EndOk))) logs) [] ->
  (forall a, In a logs -> trunc (fst a) (c_logint c) <= trunc now (c_dur c)) ->
  exists s, mem_open c gens d now = Some s /\ ginv c s (recovered c logs now).
Proof.
  intros [Hg Hc] Lo Hr Ht. unfold mem_open. rewrite Hr.
  set (b0 := fold_right (fun (a : Z * list (ikey * bytes)) x => Z.min (trunc (fst a) (c_logint c)) x) (trunc now (c_dur c)) logs).
  assert (Hb0 : b0 <= trunc now (c_dur c) /\ forall a, In a logs -> b0 <= trunc (fst a) (c_logint c)).
  { unfold b0. clear. induction logs as [|a l [IH1 IH2]]; cbn [fold_right].
    - split; [lia|intros a []].
    - split; [lia|]. intros a2 [<-|Hin]; [lia|]. specialize (IH2 a2 Hin). lia. }
  assert (R0 : rinv c (mem_empty gens d) (slots_of c (flat [])) b0).
  { split.
    - split; unfold live; cbn [mem_empty m_closed m_live m_pool m_bufs afind]; try reflexivity; try discriminate. intros i [].
    - split; [|intros t k Ha; now elim Ha]. intros k. cbn [mem_empty m_filters]. rewrite map_length. apply Hc.
    - split; cbn [mem_empty m_blocks m_bufs]; [reflexivity|intros [|p] x; discriminate|intros [|p] x; discriminate].
    - intros i r. cbn [mem_empty m_filters]. rewrite nth_error_map. destruct (nth_error gens i) as [g|] eqn:Eg; [|discriminate].
      intros [= <-]. cbn [tf_gen tf_recs]. split; [|split; [intros t f []|discriminate]].
      exists g, []. split; [|reflexivity]. apply (proj1 (Forall_forall _ _) Hg). eapply nth_error_In, Eg.
    - cbn [mem_empty m_qfilters m_filters]. now rewrite !map_length. }
  assert (D0 : dels_inv [] (flat [])) by (split; [intros t ks k []|split; [intros id k w []|constructor]]).
  destruct (recover_logs_inv c logs Lo logs [] _ [] b0 eq_refl R0 D0 (proj2 Hb0)) as (s1 & dels & b1 & E1 & R1 & D1 & Hb1).
  rewrite E1. destruct D1 as (D1 & D2 & _).
  destruct (all_dels_inv c b1 dels s1 _ R1) as (sl & R2 & Esl).
  { intros t ks k Hin Hk t' v Hs. destruct (D1 _ _ _ Hin Hk) as (id & w & Hi & Hw). unfold slots_of in Hs.
    destruct (lastput_in k (flat logs) None) as [E|(id2 & v2 & E & Hi2)]; rewrite E in Hs; [discriminate|].
    injection Hs as <- _. destruct (lo_tomb _ _ Lo id k w Hi) as [_ T]. rewrite <- Hw. symmetry. eapply T, Hi2. }
  { intros k. unfold slots_of. destruct (lastput k (flat logs) None) as [[id v]|]; discriminate. }
  set (s2 := fold_left (recover_dels c) dels s1) in *.
  assert (Hb : b1 <= trunc now (c_dur c)).
  { destruct Hb1 as [->|(a & Ha & ->)]; [apply Hb0|now apply Ht]. }
  destruct (rinv_add c s2 sl b1 (trunc now (c_dur c)) R2 Hb) as [R3 [p Hp]].
  exists (newTinyLog c s2 now None). split; [reflexivity|].
  assert (Er : forall k, g_slot (recovered c logs now) k = sl k).
  { intros k. cbn [recovered g_slot]. rewrite Esl.
    destruct (existsb (fun d0 => existsb (N.eqb k) (snd d0)) dels) eqn:Ex.
    - apply existsb_exists in Ex as ([t ks] & Hin & Hk). apply existsb_exists in Hk as (k2 & Hk & E). apply N.eqb_eq in E. subst k2.
      cbn [snd] in Hk. destruct (D1 _ _ _ Hin Hk) as (id & w & Hi & _). apply in_split in Hi as (l1 & l2 & El).
      rewrite El, final_tomb; [reflexivity|]. intros id2 v. eapply (lo_last _ _ Lo), El.
    - unfold slots_of. rewrite final_no_tomb; [reflexivity|]. intros id w Hin. destruct (D2 _ _ _ Hin) as (t & ks & H1 & H2).
      assert (existsb (fun d0 => existsb (N.eqb k) (snd d0)) dels = true); [|congruence].
      apply existsb_exists. exists (t, ks). split; [exact H1|]. apply existsb_exists. exists k. split; [exact H2|apply N.eqb_refl]. }
  apply rinv_ext with (sl' := g_slot (recovered c logs now)) in R3; [|exact Er].
  assert (R4 : rinv c (newTinyLog c s2 now None) (g_slot (recovered c logs now)) (trunc now (c_dur c)))
    by (eapply rinv_same; [exact R3|reflexivity..|lia]).
  destruct R4 as [W Fr H F Q]. split; try assumption.
  - reflexivity.
  - split; [reflexivity|]. intros _. cbn [g_cur recovered]. change (live (addTimeBlock s2 (trunc now (c_dur c)) None) (trunc now (c_dur c)) <> None).
    congruence.
Qed.
Lemma recover_inv c gens d logs now : cfg_ok c gens -> logs_ok c logs ->
  replay d = map (fun l => (fst l, ([log_bytes (snd l)], EndOk))) logs ->
  (forall a, In a logs -> trunc (fst a) (c_logint c) <= trunc now (c_dur c)) ->
  exists s, mem_open c gens d now = Some s /\ ginv c s (recovered c logs now).
Proof. intros Hc Lo Hr Ht. apply recover_inv_as; try assumption. now rewrite Hr. Qed.
