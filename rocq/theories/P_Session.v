(** Proofs about sessions: the invariant, and Get. *)
From Verif Require Import M_Bytes P_Bytes M_File M_Hash M_Bloom M_Entry P_Codec M_MsgId M_Mac P_Mac M_Topic M_Trie M_Query M_IndexBlock M_Lease
  M_BlockStore M_WinBlock M_Wal M_MemDB M_Window M_Get M_DB S_Trie S_Window S_BlockStore S_MemDB S_Get S_DB S_Session
  P_Topic P_Trie P_Trie2 P_Trie3 P_BlockStore4 P_Window4 P_WindowEx P_Get P_MemDB P_MemGet P_DB.
From Coq Require Import Lia ZifyBool ZifyNat ZifyN Permutation Sorted.
Open Scope Z_scope.

(** * Messages with what the database makes of them *)
Record gmsg := mkGM { gm_seq : N; gm_sent : sent; gm_raw : bytes; gm_id : bytes; gm_val : bytes }.
Definition gm_hash (m : gmsg) : N := number (gm_sent m).
Definition gm_entry (m : gmsg) : entry :=
  mkEntry (gm_seq m) (N.of_nat (length (gm_raw m))) (N.of_nat (length (gm_val m))) (s_expires (gm_sent m)) (gm_hash m).
Definition gm_ie (m : gmsg) : ientry := mkIE (gm_seq m) (N.of_nat (length (gm_raw m))) (N.of_nat (length (gm_val m))) 0.
Definition gm_body (m : gmsg) : bytes := gm_id m ++ gm_raw m ++ gm_val m.
Definition gm_cache (m : gmsg) : bytes := entry_marshal (gm_entry m) ++ gm_body m.
Definition gm_we (m : gmsg) : wentry := mkWE (gm_seq m) (s_expires (gm_sent m)).

Record gm_ok (c : dcfg) (m : gmsg) : Prop := {
  gk_seq : (1 <= gm_seq m <= 130000)%N;
  gk_id : length (gm_id m) = 9%nat;
  gk_owner : id_contract (gm_id m) = s_owner (gm_sent m);
  gk_crypt : nth 8 (gm_id m) 0%N = 1%N;
  gk_raw : (N.of_nat (length (gm_raw m)) <= 2000)%N;
  gk_val : exists z, fst (mac_decrypt (c_mac c) (gm_val m)) = Some z /\ c_unsnap c z = Some (s_payload (gm_sent m));
  gk_len : (N.of_nat (length (gm_val m)) < 2 ^ 31 + 100)%N;
  gk_exp : (s_expires (gm_sent m) < 2 ^ 32)%N;
  gk_hash : (gm_hash m < 2 ^ 64)%N;
  gk_plain : plain (s_owner (gm_sent m)) (s_pattern (gm_sent m));
  gk_item : item_ok (gm_seq m) (gm_cache m);
  gk_size : (length (gm_val m) <= length (c_snap c (s_payload (gm_sent m))) + 20)%nat
}.

Lemma gm_entry_ok c m : gm_ok c m -> entry_ok (gm_entry m).
Proof. intros [H1 H2 H3 H4 H5 H6 H7 H8 H9 H10 H11 H12]. unfold entry_ok, gm_entry; cbn [e_seq e_topicSize e_valueSize e_expiresAt e_topicHash]. repeat split; try assumption; lia. Qed.
Lemma gm_unmarshal c m : gm_ok c m -> entry_unmarshal (gm_cache m) = Some (gm_entry m).
Proof. intros H. unfold gm_cache. apply entry_roundtrip. now apply (gm_entry_ok c). Qed.
Lemma gm_skip m : skipn entrySize (gm_cache m) = gm_body m.
Proof. unfold gm_cache. rewrite skipn_app, entry_marshal_length. unfold entrySize. rewrite Nat.sub_diag, skipn_O.
  rewrite skipn_all2 by (rewrite entry_marshal_length; apply Nat.le_refl). reflexivity. Qed.
Lemma gm_message c m : gm_ok c m -> cache_message (e_topicSize (gm_entry m)) (gm_body m) = Some (gm_id m, gm_val m).
Proof.
  intros [H1 H2 H3 H4 H5 H6 H7 H8 H9 H10 H11 H12]. unfold cache_message, gm_entry, gm_body; cbn [e_topicSize].
  unfold u16, idSize. rewrite N.mod_small by lia. rewrite !app_length, H2.
  replace (N.to_nat (N.of_nat (length (gm_raw m)) + N.of_nat 9)) with (9 + length (gm_raw m))%nat by lia.
  destruct (Nat.ltb_spec (9 + (length (gm_raw m) + length (gm_val m))) 9); [lia|].
  destruct (Nat.ltb_spec (9 + (length (gm_raw m) + length (gm_val m))) (9 + length (gm_raw m))); [lia|]. cbn [orb]. f_equal. f_equal.
  - rewrite firstn_app, H2, Nat.sub_diag, firstn_O, app_nil_r. now rewrite firstn_all2 by lia.
  - rewrite skipn_app, H2. rewrite skipn_all2 by lia. cbn [app]. replace (9 + length (gm_raw m) - 9)%nat with (length (gm_raw m)) by lia.
    rewrite skipn_app, Nat.sub_diag, skipn_all. reflexivity.
Qed.
Lemma gm_body_len c m : gm_ok c m -> length (gm_body m) = (9 + length (gm_raw m) + length (gm_val m))%nat.
Proof. intros H. unfold gm_body. rewrite !app_length, (gk_id c m H). lia. Qed.
Lemma gm_decode c m : gm_ok c m -> decode c (s_owner (gm_sent m)) 0 (gm_id m) (gm_val m) = OItem (s_payload (gm_sent m)).
Proof.
  intros H. unfold decode, evalPrefix. cbn [Z.ltb Z.compare]. rewrite (gk_owner c m H), N.eqb_refl. cbn [negb].
  rewrite (gk_crypt c m H), N.eqb_refl. destruct (gk_val c m H) as (z & -> & ->). reflexivity.
Qed.
Lemma gm_req c m : gm_ok c m -> entry_req (gm_ie m) (gm_body m).
Proof.
  intros H. pose proof (gm_body_len c m H) as L. destruct H as [H1 H2 H3 H4 H5 H6 H7 H8 H9 H10 H11 H12].
  unfold entry_req, gm_ie, seq_ok; cbn [x_seq x_topicSize x_valueSize]. rewrite L. lia.
Qed.

(** * The invariant *)
Definition in_store (g : gstate) (m : gmsg) : bool := match g_slot g (gm_seq m) with Freed => true | _ => false end.
Definition held_at (g : gstate) (t : Z) (h : N) (m : gmsg) : bool :=
  ((gm_hash m =? h)%N && match g_slot g (gm_seq m) with Held t' _ => t' =? t | _ => false end)%bool.
Definition stored_of (g : gstate) (h : N) (m : gmsg) : bool := ((gm_hash m =? h)%N && in_store g m)%bool.
Definition nstored (g : gstate) (l : list gmsg) : Z := Z.of_nat (length (filter (in_store g) l)).

Record mem_part (c : dcfg) (mem : mdb) (g : gstate) (l : list gmsg) : Prop := {
  mp_inv : ginv (c_mem c) mem g;
  mp_open : g_open g = true;
  mp_held : forall k t v, g_slot g k = Held t v -> exists m, In m l /\ gm_seq m = k /\ v = gm_cache m;
  mp_all : forall m, In m l -> g_slot g (gm_seq m) = Freed \/ exists t, g_slot g (gm_seq m) = Held t (gm_cache m);
  mp_freed : forall k, g_slot g k = Freed -> exists m, In m l /\ gm_seq m = k
}.

Definition tw_part (tw : twmap) (g : gstate) (l : list gmsg) : Prop :=
  NoDup (map fst tw) /\
  forall t h, match afind tk_eqb tw (t, h) with
              | Some es => es <> [] /\ es = map gm_we (filter (held_at g t h) l)
              | None => filter (held_at g t h) l = []
              end.

Record win_part (win : bytes) (g : gstate) (l : list gmsg) (off : offsets) (H : hist) (first : option N) (T e : Z) : Prop := {
  wp_run : wrun (newWindowWriter win) off H first T;
  wp_idx : ww_idx (newWindowWriter win) <= 2 * nstored g l + e;
  wp_hist : forall h, Permutation (map fst (H h)) (map gm_we (filter (stored_of g h) l));
  wp_first : forall h, first = Some h -> exists m, In m l /\ gm_hash m = h
}.

Definition reads (index data : bytes) (m : gmsg) : Prop :=
  exists off, 0 <= off /\
    readEntry index (gm_seq m) = Some (RFound (mkIE (gm_seq m) (N.of_nat (length (gm_raw m))) (N.of_nat (length (gm_val m))) off)) /\
    read_at data off (length (gm_body m)) = Some (gm_body m).
Record ghost_part (g : gstate) (l : list gmsg) (M : ghost) : Prop := {
  xp_in : forall m, In m l -> in_store g m = true -> M (gm_seq m) = Some (gm_ie m, gm_body m, false);
  xp_out : forall k, M k <> None -> g_slot g k = Freed
}.
Record store_part (index data : bytes) (ls : lease) (g : gstate) (l : list gmsg) (M : ghost) : Prop := {
  sp_open : exists w, newBlockWriter index data ls = Some w /\ store w M /\ w_offset w <= 2 ^ 32 * nstored g l;
  sp_ghost : ghost_part g l M;
  sp_read : forall m, In m l -> in_store g m = true -> reads index data m
}.

Definition topic_of (l : list gmsg) (off : offsets) (h : N) : option (N * bytes * Z) :=
  match find (fun m => (gm_hash m =? h)%N) l with
  | Some m => Some (s_owner (gm_sent m), text (s_pattern (gm_sent m)), off h)
  | None => None
  end.
Definition trie_part (tr : trie) (l : list gmsg) (off : offsets) : Prop :=
  exists Mt, tries tr Mt /\ forall h, Mt h = topic_of l off h.

(** Messages without the state. *)
Record list_part (c : dcfg) (l : list gmsg) (n : N) : Prop := {
  lp_ok : Forall (gm_ok c) l;
  lp_sorted : StronglySorted N.lt (map gm_seq l);
  lp_below : Forall (fun m => (gm_seq m <= n)%N) l;
  lp_clash : forall m1 m2, In m1 l -> In m2 l -> gm_hash m1 = gm_hash m2 ->
    s_owner (gm_sent m1) = s_owner (gm_sent m2) /\ s_pattern (gm_sent m1) = s_pattern (gm_sent m2)
}.

Record inv (c : dcfg) (s : db) (l : list gmsg) (g : gstate) (off : offsets) (H : hist) (first : option N) (M : ghost) (T e t : Z) : Prop := {
  iv_closed : d_closed s = false;
  iv_enc : d_enc s = 1%N;
  iv_list : list_part c l (d_seq s);
  iv_mem : mem_part c (d_mem s) g l;
  iv_tw : tw_part (d_tw s) g l;
  iv_win : win_part (d_win s) g l off H first T e;
  iv_store : store_part (d_index s) (d_data s) (d_lease s) g l M;
  iv_trie : trie_part (d_trie s) l off;
  iv_cur : g_cur g <= trunc t (c_dur (c_mem c));
  iv_T : T <= unix t
}.

(** * Lists *)
Lemma sorted_nodup l : StronglySorted N.lt l -> NoDup l.
Proof.
  induction 1 as [|x r Hs IH Hf]; constructor; [|assumption]. intros Hi. rewrite Forall_forall in Hf. specialize (Hf x Hi). lia.
Qed.
Lemma same_seq c l n m1 m2 : list_part c l n -> In m1 l -> In m2 l -> gm_seq m1 = gm_seq m2 -> m1 = m2.
Proof.
  intros Hl H1 H2 E. pose proof (sorted_nodup _ (lp_sorted _ _ _ Hl)) as Hn. revert Hn H1 H2. clear - E.
  induction l as [|a r IH]; intros Hn H1 H2; [contradiction|]. cbn [map] in Hn. inversion Hn as [|? ? Ha Hr]; subst.
  destruct H1 as [->|H1]; destruct H2 as [->|H2]; try reflexivity.
  - exfalso. apply Ha. rewrite E. now apply in_map.
  - exfalso. apply Ha. rewrite <- E. now apply in_map.
  - auto.
Qed.

Lemma sorted_filter (f : gmsg -> bool) l : StronglySorted N.lt (map gm_seq l) -> StronglySorted N.lt (map gm_seq (filter f l)).
Proof.
  induction l as [|m r IH]; cbn [map filter]; intros Hs; [constructor|]. inversion Hs as [|? ? Hr Hf]; subst.
  destruct (f m); [|auto]. cbn [map]. constructor; [auto|]. rewrite Forall_forall in *. intros x Hx. apply in_map_iff in Hx as (y & <- & Hy).
  apply filter_In in Hy as [Hy _]. apply Hf. now apply in_map.
Qed.
Lemma sorted_rev l : StronglySorted N.lt l -> StronglySorted N.ge (rev l).
Proof.
  induction 1 as [|x r Hs IH Hf]; cbn [rev]; [constructor|].
  assert (G : Forall (fun y => (y >= x)%N) (rev r)) by (apply Forall_rev; eapply Forall_impl; [|exact Hf]; cbn; lia).
  revert IH G. generalize (rev r). intros k IH G. induction IH as [|y k Hk IHk Hy]; cbn [app].
  - constructor; constructor.
  - inversion G; subst. constructor; [auto|]. apply Forall_app. split; [assumption|]. constructor; [assumption|constructor].
Qed.

(** * Patterns *)
Lemma beq_eq a b : beq a b = true <-> a = b.
Proof. unfold beq. destruct (list_eq_dec N.eq_dec a b); split; congruence. Qed.
Lemma matches_covers ls multi : forall q, matches ls multi q = true <-> covers eq ls multi q.
Proof.
  induction ls as [|[n|] ls IH]; intros [|x q]; cbn [matches covers]; try (split; [discriminate|tauto]).
  - destruct multi; cbn; split; congruence.
  - tauto.
  - rewrite andb_true_iff, beq_eq, IH. tauto.
  - apply IH.
Qed.
Lemma covers_hash k ls multi : forall q, covers eq ls multi q -> covers (same_hash k) ls multi q.
Proof.
  induction ls as [|[n|] ls IH]; intros [|x q]; cbn [covers]; auto.
  intros [-> Hc]. split; [reflexivity|auto].
Qed.
Lemma level_text_inj ls : forall ls', Forall level_ok ls -> Forall level_ok ls' -> map level_text ls = map level_text ls' -> ls = ls'.
Proof.
  induction ls as [|a ls IH]; intros [|b ls'] H1 H2 E; cbn [map] in E; try discriminate; [reflexivity|].
  inversion H1; inversion H2; subst. injection E as E1 E2. f_equal; [|auto].
  destruct a as [n|], b as [n'|]; cbn [level_text level_ok] in *; try congruence.
  - subst n. destruct H3 as [_ H3]. inversion H3 as [|? ? [_ [_ Hs]] _]. congruence.
  - subst n'. destruct H7 as [_ H7]. inversion H7 as [|? ? [_ [_ Hs]] _]. congruence.
Qed.
Lemma text_inj p p' : Forall level_ok (pt_levels p) -> Forall level_ok (pt_levels p') -> text p = text p' -> p = p'.
Proof.
  destruct p as [ls mu], p' as [ls' mu']. cbn [pt_levels]. unfold text. cbn [pt_levels pt_multi]. intros H1 H2 E.
  assert (W1 : Forall word_ok (map level_text ls)).
  { apply Forall_forall. intros w Hw. apply in_map_iff in Hw as (x & <- & Hx). apply level_word. rewrite Forall_forall in H1. auto. }
  assert (W2 : Forall word_ok (map level_text ls')).
  { apply Forall_forall. intros w Hw. apply in_map_iff in Hw as (x & <- & Hx). apply level_word. rewrite Forall_forall in H2. auto. }
  set (d3 := [cDot; cDot; cDot]) in *.
  assert (Key : forall a b, Forall level_ok a -> Forall level_ok b -> Forall word_ok (map level_text a) -> Forall word_ok (map level_text b) ->
    join (map level_text a) ++ d3 = join (map level_text b) ++ [] -> False).
  { intros a b Ha Hb Wa Wb Ee. rewrite app_nil_r in Ee. destruct b as [|y b].
    - cbn [map join] in Ee. destruct (join (map level_text a)); discriminate.
    - destruct (join_last (map level_text (y :: b))) as (x & z & Ex & Hz); [discriminate|exact Wb|]. rewrite Ex in Ee.
      unfold d3 in Ee. change [cDot; cDot; cDot] with ([cDot; cDot] ++ [cDot]) in Ee. rewrite app_assoc in Ee. apply app_inj_tail in Ee as [_ Ee]. congruence. }
  destruct mu, mu'.
  - apply app_inv_tail in E. f_equal. apply level_text_inj; auto.
    rewrite <- (fields_join _ W1), <- (fields_join _ W2), E. reflexivity.
  - exfalso. eapply (Key ls ls'); eauto.
  - exfalso. symmetry in E. eapply (Key ls' ls); eauto.
  - rewrite !app_nil_r in E. f_equal. apply level_text_inj; auto.
    rewrite <- (fields_join _ W1), <- (fields_join _ W2), E. reflexivity.
Qed.
Lemma spells_inj p p' : Forall level_ok (pt_levels p) -> Forall level_ok (pt_levels p') -> spells (text p) p' -> p = p'.
Proof.
  intros H1 H2 [E|(o & E)]; [now apply text_inj|]. exfalso. pose proof (text_noquest p H1) as Hn. rewrite E in Hn.
  apply Forall_app in Hn as [_ Hn]. inversion Hn. congruence.
Qed.

(** * Reading *)
Lemma pass_ext {S} (rd rd' : S -> N -> S * outcome) qs : (forall s q, In q qs -> q <> 0%N -> rd s q = rd' s q) ->
  forall s items i, pass rd s qs items i = pass rd' s qs items i.
Proof.
  induction qs as [|q r IH]; intros He s items i; [reflexivity|]. cbn [pass]. destruct (N.eqb_spec q 0) as [->|Hq].
  - apply IH. intros. apply He; [now right|assumption].
  - rewrite (He s q (or_introl eq_refl) Hq). destruct (rd' s q) as [s' [v| | |]]; auto; apply IH; intros; apply He; auto; now right.
Qed.
Lemma cut_in win cap a b qs q : cut win cap a b = Some qs -> In q qs -> q = 0%N \/ In q win.
Proof.
  unfold cut. destruct (_ && _)%bool; [|discriminate]. intros E Hq. apply Some_inj in E. subst qs.
  assert (In q (win ++ repeat 0%N (Z.to_nat (cap - Z.of_nat (length win))))) as Hi.
  { rewrite <- (firstn_skipn (Z.to_nat a) (win ++ _)). apply in_app_iff. right.
    rewrite <- (firstn_skipn (Z.to_nat (b - a)) (skipn _ _)). apply in_app_iff. now left. }
  apply in_app_iff in Hi as [Hi|Hi]; [now right|left]. now apply repeat_spec in Hi.
Qed.
Lemma loop_ext {S} (rd rd' : S -> N -> S * outcome) win : (forall s q, In q win -> rd s q = rd' s q) ->
  forall fuel s cap L a b items, get_loop fuel rd s win cap L a b items = get_loop fuel rd' s win cap L a b items.
Proof.
  intros He. induction fuel as [|fuel IH]; intros s cap L a b items; [reflexivity|]. cbn [get_loop].
  destruct (cut win cap a b) as [qs|] eqn:Ec; [|reflexivity].
  rewrite (pass_ext rd rd' qs) by (intros s0 q Hq Hz; destruct (cut_in _ _ _ _ _ _ Ec Hq); [contradiction|auto]).
  destruct (pass rd' s qs items 0) as [[[s1 it] i] [| |]]; auto.
  destruct (_ || _)%bool; [reflexivity|]. destruct (_ <=? _); apply IH.
Qed.
Lemma get_entries_ext {S} (rd rd' : S -> N -> S * outcome) win : (forall s q, In q win -> rd s q = rd' s q) ->
  forall s cap L, get_entries rd s win cap L = get_entries rd' s win cap L.
Proof. intros He s cap L. unfold get_entries. destruct win as [|w r] eqn:Ew; [reflexivity|]. rewrite <- Ew in *. now apply loop_ext. Qed.

(** The reader on the messages of one owner. *)
Definition mine (s0 : db) (c : dcfg) (g : gstate) (s : db) : Prop := exists mm, s = set_mem s0 mm /\ ginv (c_mem c) mm g /\ exists qr qf qb, mm = set_query (d_mem s0) qr qf qb.

Lemma read_msg c s0 l g M s m : list_part c l (d_seq s0) -> 
  (forall m, In m l -> g_slot g (gm_seq m) = Freed \/ exists t, g_slot g (gm_seq m) = Held t (gm_cache m)) ->
  store_part (d_index s0) (d_data s0) (d_lease s0) g l M ->
  mine s0 c g s -> In m l ->
  exists s', read_one c (s_owner (gm_sent m)) 0 s (gm_seq m) = (s', OItem (s_payload (gm_sent m))) /\ mine s0 c g s'.
Proof.
  intros Hl Hall Hst (mm & -> & Hg & qr & qf & qb & Eq0) Hm.
  assert (Hok : gm_ok c m) by (pose proof (lp_ok _ _ _ Hl) as H; rewrite Forall_forall in H; auto).
  destruct (mem_get (c_mem c) mm (gm_seq m)) as [mm' r] eqn:Eg.
  assert (Hk : (gm_seq m < 2 ^ 64)%N) by (pose proof (gk_seq _ _ Hok); lia).
  destruct (gstep (c_mem c) mm g (OGet (gm_seq m)) mm' (OVal r) Hg I Hk) as (g' & Ha & Hg').
  { cbn [mstep]. now rewrite Eg. }
  assert (Hs : set_mem (set_mem s0 mm) mm' = set_mem s0 mm') by reflexivity.
  assert (mine s0 c g (set_mem s0 mm')) as Hmine.
  { exists mm'. split; [reflexivity|]. split; [inversion Ha; subst; assumption|]. unfold mem_get in Eg. apply mem_get_same in Eg as (qr' & qf' & qb' & ->). rewrite Eq0. now exists qr', qf', qb'. }
  destruct (Hall m Hm) as [Hf|(t & Hh)].
  - assert (r = GNotExist \/ r = GErr) as Hr.
    { inversion Ha; subst; try congruence. }
    destruct (sp_read _ _ _ _ _ _ Hst m Hm) as (off & Ho & Hre & Hra); [unfold in_store; now rewrite Hf|].
    pose proof (gm_body_len c m Hok) as Lb.
    destruct (read_parts (d_data s0) off (gm_seq m) (gm_id m) (gm_raw m) (gm_val m)) as [Rm _]; auto.
    + exact (gk_id _ _ Hok).
    + pose proof (gk_raw _ _ Hok). lia.
    + fold (gm_body m). rewrite Lb. pose proof (gk_raw _ _ Hok). pose proof (gk_len _ _ Hok). lia.
    + unfold read_one. cbn [set_mem d_mem]. rewrite Eg.
      exists (set_mem s0 mm'). split; [|exact Hmine].
      destruct Hr as [-> | ->]; cbn [set_mem d_index d_data]; rewrite Hre, Rm, (gm_decode c m Hok); reflexivity.
  - assert (r = GOk (gm_cache m)) as ->.
    { inversion Ha; subst; try congruence. }
    unfold read_one. cbn [set_mem d_mem]. rewrite Eg, (gm_unmarshal c m Hok), gm_skip, (gm_message c m Hok), (gm_decode c m Hok).
    exists (set_mem s0 mm'). split; [reflexivity|exact Hmine].
Qed.

Definition by_seq (l : list gmsg) (q : N) : option gmsg := find (fun m => (gm_seq m =? q)%N) l.
Lemma by_seq_in c l n m : list_part c l n -> In m l -> by_seq l (gm_seq m) = Some m.
Proof.
  intros Hl Hm. unfold by_seq. destruct (find _ l) as [m'|] eqn:Ef.
  - apply find_some in Ef as [Hi E]. apply N.eqb_eq in E. f_equal. eapply same_seq; eauto.
  - eapply find_none in Ef; [|exact Hm]. cbn in Ef. rewrite N.eqb_refl in Ef. discriminate.
Qed.

(** Get over any selection of the messages of one owner. *)
Lemma get_selection c s0 l g M k sel cap L : list_part c l (d_seq s0) -> mem_part c (d_mem s0) g l ->
  store_part (d_index s0) (d_data s0) (d_lease s0) g l M ->
  incl sel l -> Forall (fun m => s_owner (gm_sent m) = k) sel -> StronglySorted N.ge (map gm_seq sel) ->
  Z.of_nat (length sel) <= cap -> Z.of_nat (length sel) <= L ->
  exists s', get_entries (read_one c k 0) s0 (map gm_seq sel) cap L = (s', GotItems (map (fun m => s_payload (gm_sent m)) sel)) /\ mine s0 c g s'.
Proof.
  intros Hl Hmem Hst Hin Hk Hs Hcap HL.
  set (val := fun q => match by_seq sel q with Some m => Some (s_payload (gm_sent m)) | None => None end).
  set (rd' := fun s q => match by_seq sel q with Some m => read_one c k 0 s q | None => (s, OSkip) end).
  assert (Hsel : forall m, In m sel -> by_seq sel (gm_seq m) = Some m).
  { intros m Hm. unfold by_seq. destruct (find _ sel) as [m'|] eqn:Ef.
    - apply find_some in Ef as [Hi E]. apply N.eqb_eq in E. f_equal. eapply (same_seq c l); eauto.
    - eapply find_none in Ef; [|exact Hm]. cbn in Ef. rewrite N.eqb_refl in Ef. discriminate. }
  assert (Hsteady : steady rd' (mine s0 c g) val).
  { intros s q Hs0 Hq. unfold rd', val. destruct (by_seq sel q) as [m|] eqn:Eb; [|exists s; auto].
    unfold by_seq in Eb. apply find_some in Eb as [Hi E]. apply N.eqb_eq in E. subst q.
    assert (s_owner (gm_sent m) = k) as <- by (rewrite Forall_forall in Hk; auto).
    eapply read_msg; eauto. exact (mp_all _ _ _ _ Hmem). }
  rewrite (get_entries_ext _ rd').
  2:{ intros s q Hq. unfold rd'. apply in_map_iff in Hq as (m & <- & Hm). now rewrite (Hsel m Hm). }
  destruct (get_steady rd' (mine s0 c g) val Hsteady s0 (map gm_seq sel) cap L) as (s' & Hi & [E|(H1 & H2 & _)]).
  - exists (d_mem s0). split; [now destruct s0|]. split; [exact (mp_inv _ _ _ _ Hmem)|]. exists (m_qrec (d_mem s0)), (m_qfilters (d_mem s0)), (m_qblocks (d_mem s0)). now destruct (d_mem s0).
  - lia.
  - now rewrite map_length.
  - exact Hs.
  - apply Forall_forall. intros q Hq. apply in_map_iff in Hq as (m & <- & Hm). pose proof (lp_ok _ _ _ Hl) as Ho. rewrite Forall_forall in Ho.
    pose proof (gk_seq _ _ (Ho m (Hin m Hm))). lia.
  - exists s'. split; [|exact Hi]. rewrite E. f_equal. f_equal.
    assert (Ep : payloads val (map gm_seq sel) = map (fun m => s_payload (gm_sent m)) sel).
    { unfold payloads. rewrite flat_map_concat_map, map_map. transitivity (concat (map (fun m => [s_payload (gm_sent m)]) sel)).
      - f_equal. apply map_ext_in. intros m Hm. unfold val. now rewrite (Hsel m Hm).
      - clear. induction sel as [|m r IH]; [reflexivity|]. cbn. now f_equal. }
    rewrite Ep. apply firstn_all2. rewrite map_length. lia.
  - rewrite map_length in H2. lia.
Qed.
