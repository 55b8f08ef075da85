(** Byte level characterisation of file operations. *)
From Verif Require Import M_Bytes P_Bytes M_File.
From Coq Require Import Lia ZifyBool ZifyNat ZifyN.
Open Scope nat_scope.

Lemma nth_firstn (l : bytes) n i : nth i (firstn n l) 0%N = if Nat.ltb i n then nth i l 0%N else 0%N.
Proof.
  revert n i; induction l as [|a l IH]; intros n i.
  - rewrite firstn_nil. destruct i; destruct (Nat.ltb _ n); reflexivity.
  - destruct n; cbn [firstn].
    + destruct i; reflexivity.
    + destruct i; cbn [nth]; [reflexivity|]. rewrite IH. reflexivity.
Qed.

Lemma nth_skipn (l : bytes) n i : nth i (skipn n l) 0%N = nth (n + i) l 0%N.
Proof.
  revert n; induction l as [|a l IH]; intros n.
  - rewrite skipn_nil. destruct i; destruct (n + _); reflexivity.
  - destruct n; cbn [skipn Nat.add]; [reflexivity|]. apply IH.
Qed.

Lemma nth_repeat0 n i : nth i (repeat 0%N n) 0%N = 0%N.
Proof. revert i; induction n; intros []; cbn; auto. Qed.

Lemma nth_app (a b : bytes) i : nth i (a ++ b) 0%N = if Nat.ltb i (length a) then nth i a 0%N else nth (i - length a) b 0%N.
Proof.
  destruct (Nat.ltb_spec i (length a)); [now apply app_nth1|now apply app_nth2].
Qed.

Lemma nth_beyond (l : bytes) i : length l <= i -> nth i l 0%N = 0%N.
Proof. apply nth_overflow. Qed.

Lemma bytes_ext (a b : bytes) : length a = length b ->
  (forall i, i < length a -> nth i a 0%N = nth i b 0%N) -> a = b.
Proof. intros. now apply (nth_ext _ _ 0%N 0%N). Qed.

Lemma write_at_spec f off d : (0 <= off)%Z -> d <> [] ->
  exists f', write_at f off d = Some f' /\
    length f' = Nat.max (length f) (Z.to_nat off + length d) /\
    forall i, nth i f' 0%N = if (Nat.leb (Z.to_nat off) i && Nat.ltb i (Z.to_nat off + length d))%bool
                             then nth (i - Z.to_nat off) d 0%N else nth i f 0%N.
Proof.
  intros Ho Hd. unfold write_at. replace (off <? 0)%Z with false by lia.
  destruct d as [|b d0]; [congruence|]. set (d := b :: d0) in *. clearbody d.
  set (o := Z.to_nat off). set (g := f ++ repeat 0%N (o - length f)).
  assert (Hg : length g = Nat.max (length f) o) by (unfold g; rewrite app_length, repeat_length; lia).
  assert (Gn : forall i, nth i g 0%N = nth i f 0%N).
  { intros i. unfold g. rewrite nth_app. destruct (Nat.ltb_spec i (length f)); [reflexivity|].
    rewrite nth_repeat0, nth_beyond by lia. reflexivity. }
  eexists; split; [reflexivity|]. split.
  - rewrite !app_length, firstn_length, skipn_length. lia.
  - intros i. rewrite !nth_app, firstn_length, nth_firstn, nth_skipn.
    replace (Nat.min o (length g)) with o by lia.
    destruct (Nat.ltb_spec i o) as [L|L].
    + rewrite Gn. destruct (Nat.leb_spec o i); [lia|]. reflexivity.
    + destruct (Nat.leb_spec o i); [|lia]. cbn [andb].
      destruct (Nat.ltb_spec (i - o) (length d)), (Nat.ltb_spec i (o + length d)); try lia; try reflexivity.
      rewrite Gn. f_equal. lia.
Qed.

Lemma read_at_some f off n : (0 <= off)%Z -> Z.to_nat off + n <= length f ->
  exists d, read_at f off n = Some d /\ length d = n /\ forall i, i < n -> nth i d 0%N = nth (Z.to_nat off + i) f 0%N.
Proof.
  intros Ho Hl. unfold read_at. replace (off <? 0)%Z with false by lia.
  destruct (Nat.ltb_spec (length f) (Z.to_nat off + n)); [lia|].
  eexists; split; [reflexivity|]. split; [now apply slice_length|].
  intros i Hi. unfold slice. rewrite nth_firstn, nth_skipn.
  destruct (Nat.ltb_spec i n); [reflexivity|lia].
Qed.

Lemma read_at_none f off n : (0 <= off)%Z -> length f < Z.to_nat off + n -> read_at f off n = None.
Proof.
  intros Ho Hl. unfold read_at. destruct (off <? 0)%Z; [reflexivity|].
  destruct (Nat.ltb_spec (length f) (Z.to_nat off + n)); [reflexivity|lia].
Qed.

Lemma read_at_inv f off n d : read_at f off n = Some d ->
  (0 <= off)%Z /\ Z.to_nat off + n <= length f /\ length d = n.
Proof.
  unfold read_at. destruct (Z.ltb_spec off 0); [discriminate|].
  destruct (Nat.ltb_spec (length f) (Z.to_nat off + n)); [discriminate|].
  intros E. assert (d = slice f (Z.to_nat off) n) as -> by congruence.
  repeat split; [lia|lia|]. now apply slice_length.
Qed.

Lemma read_at_data f off n d : (0 <= off)%Z -> Z.to_nat off + n <= length f -> length d = n ->
  (forall i, i < n -> nth (Z.to_nat off + i) f 0%N = nth i d 0%N) -> read_at f off n = Some d.
Proof.
  intros Ho Hl Hd H. destruct (read_at_some f off n Ho Hl) as (d' & -> & Hd' & Hn).
  f_equal. apply bytes_ext; [congruence|]. intros i Hi. rewrite Hn by lia. apply H. lia.
Qed.

Lemma read_at_ext f g off n : (0 <= off)%Z -> Z.to_nat off + n <= length f -> Z.to_nat off + n <= length g ->
  (forall i, Z.to_nat off <= i < Z.to_nat off + n -> nth i f 0%N = nth i g 0%N) ->
  read_at f off n = read_at g off n.
Proof.
  intros Ho Hf Hg H. destruct (read_at_some g off n Ho Hg) as (d & -> & Hd & Hn).
  apply read_at_data; auto. intros i Hi. rewrite Hn by lia. apply H. lia.
Qed.

Lemma truncate_length f n : length (truncate f n) = n.
Proof. unfold truncate. rewrite app_length, firstn_length, repeat_length. lia. Qed.

Lemma nth_truncate f n i : length f <= n -> nth i (truncate f n) 0%N = nth i f 0%N.
Proof.
  intros H. unfold truncate. rewrite firstn_all2 by lia. rewrite nth_app.
  destruct (Nat.ltb_spec i (length f)); [reflexivity|]. rewrite nth_repeat0, nth_beyond by lia. reflexivity.
Qed.

(** Two adjacent writes are one write. *)
Lemma write_at_app f off a b f1 : (0 <= off)%Z -> a <> [] -> b <> [] ->
  write_at f off a = Some f1 ->
  write_at f off (a ++ b) = write_at f1 (off + Z.of_nat (length a))%Z b.
Proof.
  intros Ho Ha Hb E1. destruct (write_at_spec f off a Ho Ha) as (g & Eg & Lg & Ng).
  rewrite E1 in Eg. assert (g = f1) by congruence. subst g. clear Eg.
  assert (Hab : a ++ b <> []) by (destruct a; [congruence|discriminate]).
  destruct (write_at_spec f off (a ++ b) Ho Hab) as (h & -> & Lh & Nh).
  destruct (write_at_spec f1 (off + Z.of_nat (length a)) b ltac:(lia) Hb) as (k & -> & Lk & Nk).
  f_equal. rewrite app_length in *. apply bytes_ext; [lia|].
  intros i _. rewrite Nh, Nk, Ng, nth_app.
  replace (Z.to_nat (off + Z.of_nat (length a))) with (Z.to_nat off + length a) by lia.
  set (o := Z.to_nat off).
  destruct (Nat.leb_spec o i), (Nat.ltb_spec i (o + (length a + length b))),
    (Nat.leb_spec (o + length a) i), (Nat.ltb_spec i (o + length a + length b)),
    (Nat.ltb_spec (i - o) (length a)), (Nat.ltb_spec i (o + length a)); cbn [andb]; try lia; try reflexivity.
  f_equal. lia.
Qed.
