(** Runs of the subscription store, and how many are reached. *)
From Verif Require Import M_Bytes M_Hash M_Bloom M_MsgId M_Mac M_MemDB M_Window M_Query M_Topic M_Trie M_Get M_DB M_SubStore S_Trie S_MemDB S_DB S_Session S_Only S_SubStore
  P_Mac P_DB P_Session2 P_MemEx P_DBEx P_SessionEx P_Only P_SubStore P_SubFind.
From Coq Require Import Lia ZifyBool ZifyNat ZifyN Permutation.
Open Scope N_scope.

Lemma loop_length : forall items acc, (length (served (sub_loop items acc)) <= length acc + length items)%nat.
Proof.
  induction items as [|p r IH]; intros acc; cbn [sub_loop]; [cbn [served length]; lia|].
  destruct (sub_decode p); cbn [served length]; [|lia]. pose proof (IH (acc ++ [p0])) as H. rewrite app_length in H. cbn [length] in H. lia.
Qed.

Lemma found_limit c s now g k names w f : (0 <= c_def c)%Z -> (forall x, (Z.of_nat (length x) <= g_cap g x)%Z) -> names <> [] -> Forall name_ok names ->
  store_step c (Up s) (TFind now g k (text (static names))) = (w, TFound f) -> (Z.of_nat (length (served f)) <= c_def c)%Z.
Proof.
  intros Hd Hg Hn Hok E. cbn [store_step dstep] in E.
  destruct (db_get c s now g (query_of (sub_contract k) (text (static names)))) as [[s' q'] r] eqn:Eg.
  assert (Er : f = sub_found (OGot r)) by (destruct r; cbn [alive_q] in E; injection E as _ <-; reflexivity). subst f. clear E.
  destruct r as [l|l e| |]; cbn [sub_found served length]; try lia.
  pose proof (db_get_limit _ _ _ _ _ _ _ _ Hg (or_introl Eg)) as Hl. pose proof (loop_length l []) as Hll. cbn [length] in Hll.
  enough (q_limit q' = c_def c) by lia.
  unfold db_get in Eg. destruct (d_closed s); [discriminate|]. destruct (Nat.eqb _ _) eqn:E0; [discriminate|].
  destruct (_ <? _); [discriminate|]. cbv zeta in Eg. cbn [query_of q_contract q_topic q_limit q_cutoff q_win] in Eg.
  rewrite no_options in Eg.
  - destruct (parse_limit _ _ _ _ _) as [L cutoff] eqn:EL.
    assert (L = c_def c) by (unfold parse_limit, topic_last in EL; cbn in EL; congruence). subst L.
    destruct (lookup_topics _ _ _ _ _ _ _); [|discriminate]. destruct (get_entries _ _ _ _ _) as [s1 []]; inversion Eg; reflexivity.
  - unfold static. cbn [pt_levels]. apply Forall_map. exact Hok.
  - cbn [query_of q_topic] in E0. intros Ht. rewrite Ht in E0. discriminate.
Qed.
Lemma some_left_out c s now g k names w f conns : (0 <= c_def c)%Z -> (forall x, (Z.of_nat (length x) <= g_cap g x)%Z) -> names <> [] -> Forall name_ok names ->
  store_step c (Up s) (TFind now g k (text (static names))) = (w, TFound f) -> NoDup conns -> (c_def c < Z.of_nat (length conns))%Z ->
  exists conn, In conn conns /\ ~ In conn (map conn_of (served f)).
Proof.
  intros Hd Hg Hn Hok E Hnd Hlt. pose proof (found_limit _ _ _ _ _ _ _ _ Hd Hg Hn Hok E) as Hl.
  destruct (Forall_Exists_dec (fun conn => In conn (map conn_of (served f))) (fun conn => in_dec N.eq_dec conn _) conns) as [Ha|Hex].
  - exfalso. rewrite Forall_forall in Ha. pose proof (NoDup_incl_length Hnd Ha) as Hc. rewrite map_length in Hc. lia.
  - apply Exists_exists in Hex. exact Hex.
Qed.

(** ** Runs *)
Notation sx ops := (snd (store_run dx (store_start dx [ex_gen] T0 (fun m => m)) ops)).
Definition kA : N := 7.
Definition kB : N := N.lxor 7 connStoreId.
Definition sflush (now : Z) : list store_op := [TTick now; TCommit; TSync now (fun m => m)].
(** "a.b", "a.*", "a.b?last=2" *)
Definition topS : bytes := [97; 46; 42].
Definition topL : bytes := topA ++ [63; 108; 97; 115; 116; 61; 50].
Definition sfind (now : Z) (k : N) (t : bytes) : store_op := TFind now gx k t.
Notation ok := (ORes DOk).
Notation to l := (TFound (FSent l)).

(** Connections 5 and 6 of one contract and 8 of another; one leaves. *)
Definition sub_ops1 : list store_op :=
  [TSub T0 kA topA 0 5 0; TSub T0 kA topS 1 6 9; TSub T0 8 topA 2 8 0; TMsg T0 kA topA (pay 1) 0; sfind T0 kA topA; sfind T0 8 topA; TRelay T0 gx kA topA].
Definition sub_ops2 : list store_op := [TTick T0; TSub T0 kA topA 0 10 0; sfind T0 kA topA; sfind T0 8 topA].
Definition sub_outs1 : list store_out :=
  [TSubbed (id_x T0 1) ok; TSubbed (id_x T0 2) ok; TSubbed (id_x T0 3) ok; TDone ok; to [(1, 6, 9); (0, 5, 0)]; to [(2, 8, 0)]; TDone (got [1])].
Definition sub_outs2 : list store_out := [TDone ODone; TSubbed (id_x T0 5) ok; TFound FFailed; to [(2, 8, 0)]].
Lemma sub_runs : sx (sub_ops1 ++ TUnsub kA (id_x T0 2) topS :: sub_ops2) = sub_outs1 ++ TDone ok :: sub_outs2.
Proof. vm_compute. reflexivity. Qed.
Lemma sub_calm : calm T0 (sub_ops1 ++ TUnsub kA (id_x T0 2) topS :: sub_ops2).
Proof.
  assert (Hid : Forall is_byte (id_x T0 2)) by (vm_compute; repeat constructor).
  assert (Hp : Forall is_byte (pay 1)) by (unfold pay, is_byte; repeat constructor).
  unfold sub_ops1, sub_ops2, sfind. cbn [app calm g_walk gx].
  repeat match goal with |- _ /\ _ => split end.
  all: match goal with
  | |- real_time _ _ => unfold real_time, T0; lia
  | |- forall l, Permutation _ _ => intros l; reflexivity
  | |- Forall _ _ => assumption
  | |- True => exact I
  | |- _ < _ => reflexivity
  end.
Qed.
Lemma sub_apart : apart (sub_ops1 ++ TUnsub kA (id_x T0 2) topS :: sub_ops2).
Proof.
  split; cbn [flat_map app sub_side msg_side sub_ops1 sub_ops2 sfind].
  - intros a b Ha Hb. repeat (destruct Hb as [<-|Hb]; [repeat (destruct Ha as [<-|Ha]; [vm_compute; discriminate|]); destruct Ha|]). destruct Hb.
  - intros Ha. repeat (destruct Ha as [Ha|Ha]; [discriminate Ha|]). exact Ha.
Qed.

(** A message of the other contract as a subscription, and one too short. *)
Lemma forged : sx [TSub T0 kA topA 0 5 0; TMsg T0 kB topA [0; 77; 0; 0; 0; 0; 0; 0; 0] 0; sfind T0 kA topA] =
  [TSubbed (id_x T0 1) ok; TDone ok; to [(0, 77, 0); (0, 5, 0)]].
Proof. vm_compute. reflexivity. Qed.
Lemma too_short : sx [TSub T0 kA topA 0 5 0; TMsg T0 kB topA (pay 1) 0; sfind T0 kA topA] =
  [TSubbed (id_x T0 1) ok; TDone ok; TFound (FDied [])].
Proof. vm_compute. reflexivity. Qed.

(** Unsubscribed after Sync. *)
Lemma stays : sx ([TSub T0 kA topB 0 5 0; TSub T0 kA topA 0 6 0] ++ sflush (T0 + 10) ++ [TUnsub kA (id_x T0 1) topB; sfind (T0 + 10) kA topB]) =
  [TSubbed (id_x T0 1) ok; TSubbed (id_x T0 2) ok; TDone ODone; TDone ODone; TDone ok; TDone ok; to [(0, 5, 0)]].
Proof. vm_compute. reflexivity. Qed.
(** Before Sync: nobody is reached. *)
Lemma others : sx [TSub T0 kA topA 0 5 0; TSub T0 kA topA 0 6 0; sfind T0 kA topA; TUnsub kA (id_x T0 1) topA; sfind T0 kA topA] =
  [TSubbed (id_x T0 1) ok; TSubbed (id_x T0 2) ok; to [(0, 6, 0); (0, 5, 0)]; TDone ok; TFound FFailed].
Proof. vm_compute. reflexivity. Qed.
(** "last" in the topic of a publication. *)
Lemma only_last : sx [TSub T0 kA topA 0 5 0; TSub T0 kA topA 0 6 0; TSub T0 kA topA 0 8 0; sfind T0 kA topA; sfind T0 kA topL] =
  [TSubbed (id_x T0 1) ok; TSubbed (id_x T0 2) ok; TSubbed (id_x T0 3) ok; to [(0, 8, 0); (0, 6, 0); (0, 5, 0)]; to [(0, 8, 0); (0, 6, 0)]].
Proof. vm_compute. reflexivity. Qed.
(** After a restart. *)
Lemma after_restart : sx [TSub T0 kA topB 0 5 0; TRestart [ex_gen] (T0 + 10) (fun m => m); sfind (T0 + 10) kA topB] =
  [TSubbed (id_x T0 1) ok; TDone (OOpened true); to [(0, 5, 0)]].
Proof. vm_compute. reflexivity. Qed.
(** Two syncs: the first topic loses its subscribers. *)
Lemma lost_at_sync : sx ([TSub T0 kA topA 0 5 0; TSub T0 kA topA 0 6 0] ++ sflush (T0 + 10) ++ [sfind (T0 + 10) kA topA; TSub (T0 + 10) kA topA 0 8 0] ++ sflush (T0 + 20) ++ [sfind (T0 + 20) kA topA]) =
  [TSubbed (id_x T0 1) ok; TSubbed (id_x T0 2) ok; TDone ODone; TDone ODone; TDone ok; to [(0, 6, 0); (0, 5, 0)]; TSubbed (id_x (T0 + 10) 3) ok;
   TDone ODone; TDone ODone; TDone ok; to [(0, 8, 0)]].
Proof. vm_compute. reflexivity. Qed.

(** Subscriptions with wildcards in two contracts, messages and two syncs. *)
Definition psess : list sub_op :=
  [PMsg T0 kA pC (pay 9) 0;
   PSub T0 kA pAB 0 5 0;
   PSub (T0 + 1) kA pAstar 1 6 300;
   PSub (T0 + 1) 8 pAB 2 4294967295 0;
   PTick (T0 + 20);
   PFind (T0 + 20) gx kA [nA; nB];
   PMsg (T0 + 20) kA pAB (pay 3) 0;
   PCommit;
   PSync (T0 + 21) (fun m => m);
   PSub (T0 + 30) kA pAall 0 10 0;
   PFind (T0 + 30) gx kA [nA; nB];
   PTick (T0 + 3000000000); PCommit; PTick (T0 + 3000000010); PCommit;
   PSync (T0 + 3000000020) (fun m => m);
   PFind (T0 + 3000000020) gx kA [nA; nB];
   PFind (T0 + 3000000020) gx kA [nA; nC];
   PFind (T0 + 3000000020) gx 8 [nA; nB]].
Lemma psess_ok : session_ok dx T0 [] (map as_sop psess).
Proof.
  assert (Hn : forall n, In n [nA; nB; nC] -> name_ok n).
  { intros n Hi. repeat destruct Hi as [<-|Hi]; try contradiction; (split; [discriminate|]); repeat constructor; discriminate. }
  assert (Hp : forall k p, In k [7; kB; N.lxor 8 connStoreId] -> In p [pAB; pAstar; pAall; pC] -> plain k p).
  { intros k p Hk Hi. repeat destruct Hk as [<-|Hk]; try contradiction; repeat destruct Hi as [<-|Hi]; try contradiction;
      (split; [vm_compute; reflexivity|]); (split; [vm_compute; congruence|]);
      (split; [cbn [pt_levels pAB pAstar pAall pC]; repeat (apply Forall_cons; [cbn [level_ok]; first [exact I|apply Hn; cbn; tauto]|]); apply Forall_nil|]); (split; [cbn; trivial|]); (split; [cbn; lia|]);
      intros n Hx; cbn in Hx; repeat destruct Hx as [Hx|Hx]; try contradiction; try discriminate Hx; injection Hx as <-; vm_compute; congruence. }
  unfold psess. cbn [map as_sop session_ok clock sends app]. unfold T0.
  repeat match goal with |- _ /\ _ => split end; try lia; try exact I; try (intros m; reflexivity).
  all: match goal with
  | |- put_ok _ _ _ _ _ _ => constructor; [vm_compute; reflexivity|apply Hp; cbn; tauto|vm_compute; congruence|
       split; [discriminate|]; split; [vm_compute; congruence|vm_compute; repeat constructor]|cbn; lia|reflexivity|
       intros m Hi; cbn [In] in Hi; repeat destruct Hi as [<-|Hi]; try contradiction; intros E; vm_compute in E; try discriminate E; split; reflexivity]
  | |- S_Session.get_ok _ _ _ _ _ _ => constructor; [vm_compute; reflexivity|
       split; [discriminate|]; split; [repeat (apply Forall_cons; [apply Hn; cbn; tauto|]); apply Forall_nil|cbn; lia]|vm_compute; congruence|vm_compute; congruence|
       intros m Hi; cbn [In] in Hi; repeat destruct Hi as [<-|Hi]; try contradiction; intros E1 E2; try (vm_compute; reflexivity); exfalso;
         first [vm_compute in E1; discriminate E1|cbn [covers pt_levels pt_multi s_pattern pAB pAstar pAall pC] in E2; unfold same_hash in E2; vm_compute in E2; intuition discriminate]|
       reflexivity|reflexivity|intros x; apply Z.le_refl]
  end.
Qed.
Lemma psess_fits : Forall sub_fits psess.
Proof. unfold psess. repeat (apply Forall_cons; [cbn [sub_fits]; first [exact I|repeat match goal with |- _ /\ _ => split end; reflexivity]|]). apply Forall_nil. Qed.
Lemma psess_apart : apart (map as_store psess).
Proof.
  split; cbn [flat_map app sub_side msg_side psess map as_store].
  - intros a b Ha Hb. repeat (destruct Hb as [<-|Hb]; [repeat (destruct Ha as [<-|Ha]; [vm_compute; discriminate|]); destruct Ha|]). destruct Hb.
  - intros Ha. repeat (destruct Ha as [Ha|Ha]; [discriminate Ha|]). exact Ha.
Qed.
Definition psess_outs : list store_out :=
  [TDone ok; TSubbed (id_x T0 2) ok; TSubbed (id_x T0 3) ok; TSubbed (id_x T0 4) ok; TDone ODone; to [(1, 6, 300); (0, 5, 0)]; TDone ok;
   TDone ODone; TDone ok; TSubbed (id_x T0 6) ok; to [(0, 10, 0); (1, 6, 300); (0, 5, 0)]; TDone ODone; TDone ODone; TDone ODone; TDone ODone; TDone ok;
   to [(0, 10, 0); (1, 6, 300); (0, 5, 0)]; to [(0, 10, 0); (1, 6, 300)]; to [(2, 4294967295, 0)]].
Lemma psess_run : sx (map as_store psess) = psess_outs.
Proof. vm_compute. reflexivity. Qed.
