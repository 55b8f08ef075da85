(** A message held in memory is read as it was put. *)
From Verif Require Import M_Bytes P_Bytes M_Entry P_Codec M_MsgId M_Mac M_Topic M_Trie M_Query M_MemDB M_Window M_Get M_IndexBlock M_BlockStore M_DB
  S_Trie S_MemDB S_DB S_Session S_Only P_Session P_Only.
From Coq Require Import Lia ZifyBool ZifyNat ZifyN.
Open Scope Z_scope.

Lemma rec_decode_eq c m v k : rec_ok c m v -> exists x id val, entry_unmarshal v = Some x /\
  cache_message (e_topicSize x) (skipn entrySize v) = Some (id, val) /\
  decode c k 0 id val = if (k =? o_owner m)%N then OItem (o_payload m) else OSkip.
Proof.
  intros H. pose proof (rec_decode c m v k 0 H) as (x & id & val & E1 & E2 & _). exists x, id, val. split; [exact E1|]. split; [exact E2|].
  destruct H as (x' & id' & raw & val' & z & -> & Hx & Ht & Hl & Hi & Hc & Hd & Hu).
  rewrite (entry_roundtrip x' _ Hx) in E1. injection E1 as <-.
  assert (E : Some (id, val) = Some (id', val')).
  { rewrite <- E2. rewrite skipn_app, entry_marshal_length. unfold entrySize at 2. rewrite Nat.sub_diag, skipn_O.
    rewrite skipn_all2 by (rewrite entry_marshal_length; apply Nat.le_refl). cbn [app].
    unfold cache_message. rewrite Ht. unfold u16, idSize. rewrite N.mod_small by lia. rewrite !app_length, Hi.
    replace (N.to_nat (N.of_nat (length raw) + N.of_nat 9)) with (9 + length raw)%nat by lia.
    destruct (Nat.ltb_spec (9 + (length raw + length val')) 9); [lia|].
    destruct (Nat.ltb_spec (9 + (length raw + length val')) (9 + length raw)); [lia|]. cbn [orb]. f_equal. f_equal.
    + rewrite firstn_app, Hi, Nat.sub_diag, firstn_O, app_nil_r. now rewrite firstn_all2 by lia.
    + rewrite skipn_app, Hi. rewrite skipn_all2 by lia. cbn [app]. replace (9 + length raw - 9)%nat with (length raw) by lia.
      rewrite skipn_app, Nat.sub_diag, skipn_all. reflexivity. }
  injection E as <- <-. unfold decode, evalPrefix. cbn [Z.ltb]. change (0 <? 0) with false. cbv iota. rewrite Hc, (N.eqb_sym (o_owner m)).
  destruct (k =? o_owner m)%N; cbn [negb]; [|reflexivity]. now rewrite Hd, Hu.
Qed.

Lemma read_held c gens ids s now e s1 e1 x cache s2 k : setting_ok c gens -> entry_fits ids e ->
  (forall id, In id ids -> length id = 16%nat /\ Forall is_byte id) -> (N.of_nat (length (u_payload e)) <= maxValueLength)%N -> (d_seq s + 1 < 2 ^ 64)%N ->
  set_entry c s now e = SOk s1 e1 x cache -> (e_topicSize x + 35 < 2 ^ 16)%N ->
  snd (mem_get (c_mem c) (d_mem s2) (e_seq x)) = GOk cache ->
  snd (read_one c k 0 s2 (e_seq x)) = if (k =? put_owner e)%N then OItem (u_payload e) else OSkip.
Proof.
  intros Hset Hf Hids Hl Hq E Ht Hm.
  destruct (set_entry_any c gens ids s now e s1 e1 x cache Hset Hf Hids Hl Hq E) as (_ & _ & _ & _ & Hr). specialize (Hr Ht).
  destruct (rec_decode_eq c _ cache k Hr) as (x' & id & val & E1 & E2 & E3). cbn [o_owner o_payload] in E3.
  unfold read_one. destruct (mem_get (c_mem c) (d_mem s2) (e_seq x)) as [m r]. cbn [snd] in Hm. subst r. rewrite E1, E2, E3. reflexivity.
Qed.

(** The topic of a first message is in front of the value. *)
Lemma topic_held c gens ids s now e s1 e1 x cache : setting_ok c gens -> entry_fits ids e ->
  (forall id, In id ids -> length id = 16%nat /\ Forall is_byte id) ->
  u_hash e = None -> getOffset (d_trie s) (get_hash (owner (u_contract e)) (filed (owner (u_contract e)) (u_topic e))) = None ->
  set_entry c s now e = SOk s1 e1 x cache ->
  let raw := topic_marshal (t_parts (filed (owner (u_contract e)) (u_topic e))) (t_depth (filed (owner (u_contract e)) (u_topic e))) in
  (N.of_nat (length raw) + 35 < 2 ^ 16)%N -> topic_bytes cache (entrySize + idSize) (e_topicSize x) = Some raw.
Proof.
  intros Hset [Fc Fe Fp Fh Ft Fi] Hids Hn Ho E raw Hr.
  unfold set_entry in E. cbv zeta in E. fold (owner (u_contract e)) in E. fold (filed (owner (u_contract e)) (u_topic e)) in E.
  rewrite Hn, Ho in E. cbn [u_hash u_id u_payload u_expires u_contract u_encrypt u_tsize u_topic] in E. fold raw in E. rewrite Ft in E.
  set (ts := match raw with [] => 0%N | _ => u16 (N.of_nat (length raw)) end) in E.
  assert (Hts : ts = N.of_nat (length raw)).
  { unfold ts. destruct raw eqn:Er; [reflexivity|]. rewrite <- Er in *. unfold u16. apply N.mod_small. lia. }
  match type of E with match ?n with _ => _ end = _ => destruct n as [[[s3 id] seq]|] eqn:En; [|discriminate] end.
  assert (Hid : length id = 16%nat).
  { destruct (u_id e) as [i|] eqn:Ei; [|now injection En as _ <- _].
    destruct (Hids i (Fi i eq_refl)) as [L _]. rewrite L in En. cbn [Nat.ltb Nat.leb] in En. injection En as _ <- _. exact L. }
  destruct (seq =? 0)%N; [discriminate|].
  match type of E with match ?n with _ => _ end = _ => destruct n as [val|]; [|discriminate] end. remember (mkEntry seq ts (u32 (N.of_nat (length val))) (entry_expiry (c_pd c) now (u_expires e) (t_options (parse_topic (owner (u_contract e)) (u_topic e)))) (get_hash (owner (u_contract e)) (filed (owner (u_contract e)) (u_topic e)))) as xx eqn:Exx.
  assert (Ec : forall a b c d a' b' c' d', SOk a b c d = SOk a' b' c' d' -> c = c' /\ d = d') by (intros; split; congruence).
  apply Ec in E as [<- <-]. replace (e_topicSize xx) with ts by (now rewrite Exx).
  unfold topic_bytes. rewrite Hts. unfold entrySize, idSize. destruct (N.leb_spec (2 ^ 16) (N.of_nat (26 + 9) + N.of_nat (length raw))); [lia|]. f_equal.
  rewrite Nnat.Nat2N.id. unfold slice. rewrite app_assoc, app_assoc.
  match goal with |- firstn _ (skipn _ ((?a ++ ?b) ++ ?z)) = _ => set (pre := a ++ b); set (rest := z) end.
  assert (Hp : length pre = 35%nat).
  { unfold pre. rewrite !app_length, entry_marshal_length. unfold id_prefix. rewrite firstn_length, setContract_length by exact Hid. reflexivity. }
  rewrite skipn_app, Hp, skipn_all2 by lia. rewrite Nat.sub_diag, skipn_O. cbn [app]. unfold rest.
  rewrite firstn_app, firstn_length, app_length, repeat_length.
  rewrite firstn_firstn, Nat.min_id. replace (length raw - Nat.min (length raw) (length raw + length raw))%nat with 0%nat by lia. rewrite firstn_O, app_nil_r.
  rewrite firstn_app, Nat.sub_diag, firstn_O, app_nil_r. apply firstn_all.
Qed.
