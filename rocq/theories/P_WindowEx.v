(** Runs of the window file that lose messages. *)
From Verif Require Import M_Bytes P_Bytes M_Hash P_Hash P_Bloom P_Mac M_File P_File P_Index M_BlockRange P_BlockRange
  M_MemDB P_MemBlock M_Query M_BlockStore P_BlockStore M_WinBlock M_Window S_Window P_Window P_Window2 P_Window3 P_Window4.
From Coq Require Import Lia ZifyBool ZifyNat ZifyN.
Open Scope Z_scope.

Lemma unix0 : unix 0 = 0.
Proof. reflexivity. Qed.

(** ** The iterator that rebuilds the trie *)
Lemma iter_in f s h o : forall n idx, In (s, h, o) (iter_blocks n idx f) ->
  exists b, readWindowBlock f o = Some b /\ wb_next b = 0 /\ wb_topicHash b = h.
Proof.
  induction n as [|n IH]; intros idx; cbn [iter_blocks]; [intros []|].
  destruct (readWindowBlock f (winBlockOffset idx)) as [b|] eqn:E; [|intros []].
  destruct ((wb_entryIdx b =? 0)%N || negb (wb_next b =? 0))%bool eqn:Hc; [apply IH|].
  intros [Hi|Hi]; [|now apply IH in Hi]. injection Hi as _ <- <-. exists b. split; [exact E|]. split; [|reflexivity].
  apply orb_false_iff in Hc as [_ Hc]. lia.
Qed.

Lemma newest_len now l es : (length (newest_live now l es) <= length es)%nat.
Proof.
  unfold newest_live. etransitivity; [apply filter_len|]. rewrite firstn_length, rev_length. lia.
Qed.
Lemma used_len b es : wb_used b = Some es -> (length es <= 335)%nat.
Proof.
  unfold wb_used. destruct (Nat.ltb_spec entriesPerWindowBlock (N.to_nat (wb_entryIdx b))); [discriminate|].
  intros E. apply Some_inj in E. subst es. rewrite firstn_length. unfold entriesPerWindowBlock in H. lia.
Qed.

Lemma reopened_short f s h o now cutoff limit r : In (s, h, o) (blockIterator f) -> 335 <= limit ->
  tw_lookup now [] f h o cutoff limit = Some r -> (length r <= 335)%nat.
Proof.
  intros Hi Hl. unfold blockIterator in Hi. destruct (0 <? fsize f); [|destruct Hi].
  apply iter_in in Hi as (b & E & Hn & Hh). unfold tw_lookup, tw_ilookup. cbn [ilookup_loop length].
  destruct (Z.leb_spec limit (Z.of_nat 0)); [lia|]. cbn [look_chain]. rewrite E.
  unfold look_block. rewrite Hh, N.eqb_refl. cbn [negb]. destruct (wb_used b) as [es|] eqn:Eu; [|discriminate].
  pose proof (used_len _ _ Eu) as Hes.
  replace (limit - Z.of_nat (length es) <? Z.of_nat (length (@nil wentry))) with false by (cbn [length]; lia).
  cbn [app]. pose proof (newest_len now (Z.of_nat (length es)) es) as Hx.
  destruct (wb_old b cutoff); [|rewrite Hn; cbn [Z.eqb]]; intros X; apply Some_inj in X; subst r; lia.
Qed.

Definition many (n : nat) : list wentry := map (fun i => mkWE (N.of_nat i) 0) (seq 1 n).
Lemma many_ok n : Z.of_nat n < 1000000 -> Forall went_ok (many n).
Proof.
  intros Hn. apply Forall_forall. intros e He. apply in_map_iff in He as (i & <- & Hi). apply in_seq in Hi.
  split; cbn [w_seq w_expiresAt]; [|reflexivity]. change (2 ^ 64)%N with 18446744073709551616%N. lia.
Qed.
Lemma many_len n : length (many n) = n.
Proof. unfold many. now rewrite map_length, seq_length. Qed.
Lemma many_live now n e : In e (many n) -> we_live now e = true.
Proof. intros He. apply in_map_iff in He as (i & <- & _). reflexivity. Qed.

(** Two topics, [n] messages of the second. *)
Lemma two_topics n : 0 < Z.of_nat n < 500000 -> exists w off H w', win_run w off H (Some 1%N) 0 /\ ww_write w = Some w' /\
  map fst (H 2%N) = many n.
Proof.
  intros Hn.
  assert (R1 : exists w off H, win_run w off H (Some 1%N) 0 /\ H 2%N = [] /\ ww_idx w = 0).
  { destruct (proj2 (run_progress _ _ _ _ _ wr_new) 0 1%N (many 1)) as (w1 & o1 & E1); try reflexivity.
    - discriminate.
    - apply many_ok. lia.
    - rewrite unix0. change (2 ^ 63) with 9223372036854775808. lia.
    - assert (R := wr_append _ _ _ None 0 0 1%N (many 1) w1 o1 wr_new).
      exists w1, (fset (fun _ => 0) 1%N o1), (fset (fun _ => []) 1%N (map (fun e => (e, unix 0)) (many 1))).
      split; [|split; [reflexivity|vm_compute in E1; injection E1 as <- _; reflexivity]].
      apply R; try exact E1; try reflexivity.
      + discriminate.
      + apply many_ok. lia.
      + rewrite unix0. change (2 ^ 63) with 9223372036854775808. lia. }
  destruct R1 as (w1 & off1 & H1 & R1 & E1 & I1).
  assert (Hx : exists w2 o2, ww_append 0 w1 2 (off1 2%N) (many n) = AppOk w2 o2).
  { apply (proj2 (run_progress _ _ _ _ _ R1)); try reflexivity.
    - intros E. apply (f_equal (@length _)) in E. rewrite many_len in E. cbn in E. lia.
    - apply many_ok. lia.
    - rewrite unix0. change (2 ^ 63) with 9223372036854775808. lia.
    - rewrite many_len. lia. }
  destruct Hx as (w2 & o2 & E2).
  assert (R2 : win_run w2 (fset off1 2%N o2) (fset H1 2%N (H1 2%N ++ map (fun e => (e, unix 0)) (many n))) (Some 1%N) (unix 0)).
  { apply (wr_append _ _ _ (Some 1%N) 0 0 2%N (many n) w2 o2 R1); try exact E2; try reflexivity.
    - intros E. apply (f_equal (@length _)) in E. rewrite many_len in E. cbn in E. lia.
    - apply many_ok. lia.
    - rewrite unix0. change (2 ^ 63) with 9223372036854775808. lia.
    - rewrite many_len. lia. }
  destruct (proj1 (run_progress _ _ _ _ _ R2)) as (w3 & E3).
  exists w2, (fset off1 2%N o2), (fset H1 2%N (H1 2%N ++ map (fun e => (e, unix 0)) (many n))), w3.
  split; [rewrite unix0 in R2 |- *; exact R2|]. split; [exact E3|]. unfold fset. rewrite N.eqb_refl, E1. cbn [app].
  rewrite map_map. cbn [fst]. apply map_id.
Qed.

Lemma lookup_exact w off H first T w' h now limit ls :
  win_run w off H first T -> ww_write w = Some w' -> first <> Some h -> Z.of_nat (total ls + length (H h)) <= limit ->
  tw_lookup now ls (ww_file w') h (off h) 0 limit = Some (live_lists now ls ++ live_desc now (H h)).
Proof.
  intros Hr E Hf Hl. destruct (lookup_all w off H first T w' h now 0 limit ls Hr E Hl) as (lost & old & kept & EH & Hlost & Hold & EL).
  destruct Hlost as [->|]; [|contradiction]. pose proof (nonneg_times _ _ _ _ _ h Hr) as Hn. rewrite EH in Hn.
  cbn [app] in *. apply Forall_app in Hn as [Hn _]. rewrite (no_old old Hn Hold) in EH. cbn [app] in EH. now rewrite EH.
Qed.

Lemma live_desc_all now l : all_live now l -> live_desc now l = rev (map fst l).
Proof.
  intros Ha. unfold live_desc. apply filter_all. intros e He. apply in_rev, in_map_iff in He as (x & <- & Hx).
  unfold all_live in Ha. rewrite Forall_forall in Ha. now apply Ha.
Qed.

Lemma reopen_loses n : 335 < Z.of_nat n < 500000 -> exists w off H w',
  win_run w off H (Some 1%N) 0 /\ ww_write w = Some w' /\ length (H 2%N) = n /\
  (forall now, tw_lookup now [] (ww_file w') 2 (off 2%N) 0 (Z.of_nat n) = Some (rev (map fst (H 2%N)))) /\
  (forall now s o r, In (s, 2%N, o) (blockIterator (ww_file w')) ->
     tw_lookup now [] (ww_file w') 2 o 0 (Z.of_nat n) = Some r -> (length r <= 335)%nat).
Proof.
  intros Hn. destruct (two_topics n ltac:(lia)) as (w & off & H & w' & R & E & EH).
  assert (Hlen : length (H 2%N) = n) by (rewrite <- (map_length fst), EH; apply many_len).
  exists w, off, H, w'. split; [exact R|]. split; [exact E|]. split; [exact Hlen|]. split.
  - intros now. rewrite (lookup_exact w off H (Some 1%N) 0 w' 2%N now (Z.of_nat n) [] R E); [|discriminate|cbn; lia].
    unfold live_lists. cbn [map concat app]. f_equal. apply live_desc_all.
    apply Forall_forall. intros x Hx. apply (many_live now n). rewrite <- EH. now apply in_map.
  - intros now s o r Hi. apply (reopened_short _ s); [exact Hi|lia].
Qed.

(** ** The topic of block 0 *)
Definition ea : wentry := mkWE 1 0.
Definition eb : wentry := mkWE 2 0.
Definition appw (w : winwriter) (h : N) (off : Z) (es : list wentry) : winwriter :=
  match ww_append 0 w h off es with AppOk w' _ => w' | _ => w end.
Definition wrw (w : winwriter) : winwriter := match ww_write w with Some w' => w' | None => w end.
Definition v1 := appw (newWindowWriter []) 1 0 [ea].
Definition v2 := wrw v1.
Definition v3 := appw (ww_reset v2) 1 0 [eb].
Definition v4 := wrw v3.

Lemma ap_ok w h off es w' o : ww_append 0 w h off es = AppOk w' o -> appw w h off es = w'.
Proof. intros E. unfold appw. now rewrite E. Qed.

Lemma first_loses : exists w1 o1 w2 w3 o2 w4,
  ww_append 0 (newWindowWriter []) 1 0 [ea] = AppOk w1 o1 /\ ww_write w1 = Some w2 /\
  tw_lookup 0 [] (ww_file w2) 1 o1 0 10 = Some [ea] /\
  ww_append 0 (ww_reset w2) 1 o1 [eb] = AppOk w3 o2 /\ ww_write w3 = Some w4 /\
  tw_lookup 0 [] (ww_file w4) 1 o2 0 10 = Some [eb].
Proof.
  exists v1, 0, v2, v3, 4096, v4. repeat split; vm_compute; reflexivity.
Qed.

(** ** Expired entries *)
(** One second old. *)
Definition ex : wentry := mkWE 3 1.
Definition later_now : Z := 5000000000.
Definition v5 := wrw (appw (newWindowWriter []) 1 0 [ea; eb; ex]).

Lemma expired_repeats : exists w1 o1 w2,
  ww_append 0 (newWindowWriter []) 1 0 [ea; eb; ex] = AppOk w1 o1 /\ ww_write w1 = Some w2 /\
  is_expired (w_expiresAt ex) later_now = true /\
  tw_lookup later_now [] (ww_file w2) 1 o1 0 2 = Some [eb; eb; ea].
Proof. exists (appw (newWindowWriter []) 1 0 [ea; eb; ex]), 0, v5. repeat split; vm_compute; reflexivity. Qed.

Lemma expired_hides : is_expired (w_expiresAt ex) later_now = true /\ is_expired (w_expiresAt ea) later_now = false /\
  forall h off, tw_lookup later_now [[ea; ex]] [] h off 0 1 = Some [].
Proof.
  split; [reflexivity|]. split; [reflexivity|]. intros h off. unfold tw_lookup.
  change (tw_ilookup later_now 1 [[ea; ex]]) with (@nil wentry). cbn [length Z.of_nat Z.leb Z.compare].
  change (S (0 / 4096)) with 1%nat. cbn [look_chain]. unfold readWindowBlock, read_at. cbn [length].
  destruct (off <? 0); [reflexivity|]. replace (Nat.ltb 0 (Z.to_nat off + blockBytes)) with true; [reflexivity|].
  symmetry. apply Nat.ltb_lt. unfold blockBytes. lia.
Qed.

(** ** More than one list in memory *)
Lemma older_first : exists e1 e2 e3 e4 : wentry,
  (w_seq e1 < w_seq e2 < w_seq e3)%N /\ (w_seq e3 < w_seq e4)%N /\
  Forall (fun e => w_expiresAt e = 0%N) [e1; e2; e3; e4] /\
  tw_lookup 0 [[e1; e2]; [e3; e4]] [] 1 0 0 2 = Some [e2; e1] /\
  tw_lookup 0 [[e3; e4]; [e1; e2]] [] 1 0 0 2 = Some [e4; e3].
Proof. exists (mkWE 1 0), (mkWE 2 0), (mkWE 3 0), (mkWE 4 0). repeat split; try reflexivity; repeat constructor. Qed.
