(** Runs with spans of time, and how many messages a relay sends. *)
From Verif Require Import M_Bytes M_Hash M_Bloom M_MsgId M_Mac M_MemDB M_Window M_Query M_Topic M_Trie M_Get M_DB M_SubStore M_Relay S_Trie S_MemDB S_DB S_Session S_Only S_SubStore S_Since S_Relay
  P_Mac P_DB P_Session2 P_MemEx P_DBEx P_SessionEx P_Only P_SubStore P_SubFind P_SubEx P_Since P_Relay.
From Coq Require Import Lia ZifyBool ZifyNat ZifyN Permutation.
Open Scope Z_scope.

(** "1s" and "2s" are durations, "1d" is none. *)
Definition t1s : bytes := [49; 115]%N.
Definition t2s : bytes := [50; 115]%N.
Definition t1d : bytes := [49; 100]%N.
Definition pdx (txt : bytes) : option Z :=
  if list_eq_dec N.eq_dec txt t1s then Some 1000000000 else if list_eq_dec N.eq_dec txt t2s then Some 2000000000 else None.
Definition dl : dcfg :=
  mkDC (c_mem dx) (c_snap dx) (c_unsnap dx) (c_mac dx) pdx (c_find dx) (c_min dx) (c_def dx) (c_max dx).
Lemma dl_ok : setting_ok dl [ex_gen].
Proof. destruct dx_ok as [H1 H2 H3 H4 H5 H6 H7 H8]. constructor; assumption. Qed.

Definition T3 : Z := T0 + 3000000005.
Definition lsess : list lop :=
  [LDo (SPut T0 0 pC (pay 9) 0 false);
   LDo (SPut T0 0 pAB (pay 1) 0 false);
   LDo (STick (T0 + 20));
   LDo (SPut (T0 + 1000000000) 0 pAstar (pay 2) 0 true);
   LDo (STick (T0 + 1000000020));
   LDo SCommit;
   LDo (SSync (T0 + 1000000030) (fun m => m));
   LDo (SPut (T0 + 3000000000) 0 pAB (pay 3) 0 false);
   LDo (SGet T3 gx 0 [nA; nB] 0);
   LLast T3 gx 0 [nA; nB] 0 t2s;
   LOpt T3 gx 0 [nA; nB] 5 t1s;
   LOpt T3 gx 0 [nA; nC] 0 t2s;
   LLast T3 gx 0 [nA; nB] 0 t1d].
Ltac spans Hn Hp :=
  repeat match goal with |- _ /\ _ => split end; try lia; try exact I; try (intros m; reflexivity);
  match goal with
  | |- put_ok _ _ _ _ _ _ => constructor; [vm_compute; reflexivity|apply Hp; cbn; tauto|vm_compute; congruence|
       split; [discriminate|]; split; [vm_compute; congruence|vm_compute; repeat constructor]|cbn; lia|reflexivity|
       intros m Hi; cbn [In] in Hi; repeat destruct Hi as [<-|Hi]; try contradiction; intros E; vm_compute in E; try discriminate E; split; reflexivity]
  | |- S_Session.get_ok _ _ _ _ _ _ => constructor; [vm_compute; reflexivity|
       split; [discriminate|]; split; [repeat (apply Forall_cons; [apply Hn; cbn; tauto|]); apply Forall_nil|cbn; lia]|vm_compute; congruence|vm_compute; congruence|
       intros m Hi; cbn [In] in Hi; repeat destruct Hi as [<-|Hi]; try contradiction; intros E1 E2; try (vm_compute; reflexivity); exfalso;
         first [vm_compute in E1; discriminate E1|cbn [covers pt_levels pt_multi s_pattern pAB pAstar pAall pC] in E2; unfold same_hash in E2; vm_compute in E2; intuition discriminate]|
       reflexivity|reflexivity|intros x; apply Z.le_refl]
  | |- Forall no_sign _ => repeat constructor; discriminate
  | _ => vm_compute; congruence
  end.
Lemma names_ok : forall n, In n [nA; nB; nC] -> name_ok n.
Proof. intros n Hi. repeat destruct Hi as [<-|Hi]; try contradiction; (split; [discriminate|]); repeat constructor; discriminate. Qed.
Lemma plains : forall k p, In k [MasterContract; 7%N; kB; N.lxor 8 connStoreId] -> In p [pAB; pAstar; pAall; pC] -> plain k p.
Proof.
  intros k p Hk Hi. repeat destruct Hk as [<-|Hk]; try contradiction; repeat destruct Hi as [<-|Hi]; try contradiction;
    (split; [vm_compute; reflexivity|]); (split; [vm_compute; congruence|]);
    (split; [cbn [pt_levels pAB pAstar pAall pC]; repeat (apply Forall_cons; [cbn [level_ok]; first [exact I|apply names_ok; cbn; tauto]|]); apply Forall_nil|]); (split; [cbn; trivial|]); (split; [cbn; lia|]);
    intros n Hx; cbn in Hx; repeat destruct Hx as [Hx|Hx]; try contradiction; try discriminate Hx; injection Hx as <-; vm_compute; congruence.
Qed.
Lemma lsess_ok : span_ok dl T0 [] lsess.
Proof. unfold lsess. cbn [span_ok lclock clock stamps sends map snd app]. unfold T3, T0, Offset. spans names_ok plains. Qed.
Definition lsess_outs : list dout :=
  [OOpened true; ORes DOk; ORes DOk; ODone; ORes DOk; ODone; ODone; ORes DOk; ORes DOk; got [3; 2; 1]%N; got [3; 2]%N; got [3]%N; got [2]%N; got [3; 2; 1]%N].
Lemma lsess_run : snd (drun dl (Down no_files) (open_x T0 :: map (as_ldop dl) lsess)) = lsess_outs.
Proof. vm_compute. reflexivity. Qed.

(** ** Relays *)
Definition vsess : list relay_op :=
  [VDo (PMsg T0 kA pC (pay 9) 0);
   VDo (PMsg T0 kA pAB (pay 1) 0);
   VDo (PSub T0 kA pAB 0 5 0);
   VDo (PTick (T0 + 20));
   VDo (PMsg (T0 + 1000000000) kA pAstar (pay 2) 0);
   VDo (PSub (T0 + 1000000000) 8 pAB 0 6 0);
   VDo (PTick (T0 + 1000000020));
   VDo PCommit;
   VDo (PSync (T0 + 1000000030) (fun m => m));
   VDo (PMsg (T0 + 3000000000) kA pAB (pay 3) 0);
   VRelay T3 gx kA [nA; nB] t2s;
   VRelay T3 gx kA [nA; nB] [];
   VRelay T3 gx kA [nA; nB] t1d].
Lemma vsess_ok : span_ok dl T0 [] (map as_lop vsess).
Proof. unfold vsess, t2s, t1d. cbn [map as_lop as_sop span_ok lclock clock stamps sends map snd app]. unfold T3, T0, Offset. spans names_ok plains. Qed.
Lemma vsess_fits : Forall rel_fits vsess.
Proof. unfold vsess. repeat (apply Forall_cons; [cbn [rel_fits sub_fits]; first [exact I|repeat match goal with |- _ /\ _ => split end; reflexivity]|]). apply Forall_nil. Qed.
Lemma vsess_apart : relays_apart vsess.
Proof.
  unfold relays_apart. cbn [flat_map app subs_of relays_of vsess].
  intros a b Ha Hb. repeat (destruct Hb as [<-|Hb]; [repeat (destruct Ha as [<-|Ha]; [vm_compute; discriminate|]); destruct Ha|]). destruct Hb.
Qed.
Definition vsess_outs : list rel_out :=
  map RDone [TDone (ORes DOk); TDone (ORes DOk); TSubbed (id_x T0 3) (ORes DOk); TDone ODone; TDone (ORes DOk); TSubbed (id_x (T0 + 1000000000) 5) (ORes DOk); TDone ODone; TDone ODone; TDone (ORes DOk); TDone (ORes DOk)] ++
  [RSent [(topA, pay 3); (topA, pay 2)]; RSent []; RSent [(topA, pay 3); (topA, pay 2); (topA, pay 1)]].
Lemma vsess_run : snd (rel_run dl (store_start dl [ex_gen] T0 (fun m => m)) (map as_rel vsess)) = vsess_outs.
Proof. vm_compute. reflexivity. Qed.

(** ** No more than a thousand *)
Lemma relay_limit c s now g k names txt d w l : (forall x, Z.of_nat (length x) <= g_cap g x) -> names <> [] -> Forall name_ok names -> txt <> [] -> c_pd c txt = Some d ->
  rel_step c (Up s) (RRelay now g k (text (static names)) txt) = (w, RSent l) -> Z.of_nat (length l) <= defaultQueryLimit.
Proof.
  intros Hg Hn Hok Ht Hd E. cbn [rel_step] in E. destruct txt as [|b txt]; [congruence|]. cbn [dstep] in E.
  destruct (db_get c s now g (relay_query c now k (text (static names)) (b :: txt))) as [[s' q'] r] eqn:Eg.
  assert (Er : RSent l = relay_sent (text (static names)) (OGot r)) by (destruct r; cbn [alive_q] in E; congruence). clear E.
  destruct r as [items|items e| |]; cbn [relay_sent] in Er; try discriminate. injection Er as ->. rewrite map_length.
  pose proof (db_get_limit _ _ _ _ _ _ _ _ Hg (or_introl Eg)) as Hl.
  enough (q_limit q' = defaultQueryLimit) as Eq1 by (rewrite Eq1 in Hl; unfold defaultQueryLimit in *; lia).
  unfold relay_query, with_last in Eg. rewrite Hd in Eg. cbn [Z.eqb] in Eg.
  unfold db_get in Eg. destruct (d_closed s); [discriminate|]. destruct (Nat.eqb _ _) eqn:E0; [discriminate|].
  destruct (_ <? _)%N; [discriminate|]. cbv zeta in Eg. cbn [q_contract q_topic q_limit q_cutoff q_win] in Eg.
  rewrite no_options in Eg.
  - destruct (parse_limit _ _ _ _ _) as [L cutoff] eqn:EL.
    assert (L = defaultQueryLimit) by (unfold parse_limit, topic_last in EL; cbn in EL; congruence). subst L.
    destruct (lookup_topics _ _ _ _ _ _ _); [|discriminate]. destruct (get_entries _ _ _ _ _) as [s1 []]; inversion Eg; reflexivity.
  - unfold static. cbn [pt_levels]. apply Forall_map. exact Hok.
  - cbn [q_topic] in E0. intros Hx. rewrite Hx in E0. discriminate.
Qed.
Lemma some_not_relayed c s now g k names txt d w l payloads : (forall x, Z.of_nat (length x) <= g_cap g x) -> names <> [] -> Forall name_ok names -> txt <> [] -> c_pd c txt = Some d ->
  rel_step c (Up s) (RRelay now g k (text (static names)) txt) = (w, RSent l) -> NoDup payloads -> defaultQueryLimit < Z.of_nat (length payloads) ->
  exists p, In p payloads /\ ~ In p (map snd l).
Proof.
  intros Hg Hn Hok Ht Hd E Hnd Hlt. pose proof (relay_limit _ _ _ _ _ _ _ _ _ _ Hg Hn Hok Ht Hd E) as Hl.
  destruct (Forall_Exists_dec (fun p => In p (map snd l)) (fun p => in_dec (list_eq_dec N.eq_dec) p _) payloads) as [Ha|Hex].
  - exfalso. rewrite Forall_forall in Ha. pose proof (NoDup_incl_length Hnd Ha) as Hc. rewrite map_length in Hc. lia.
  - apply Exists_exists in Hex. exact Hex.
Qed.
