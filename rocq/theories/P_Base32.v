(** Proofs about the text encodings: finite sweeps over one or two bytes,
    lifted to all 8 and 32 byte strings. *)
From Verif Require Import M_Bytes P_Bytes M_Base32.
From Coq Require Import Lia ZifyBool ZifyNat ZifyN.
Open Scope N_scope.

Definition all_bytes : list N := map N.of_nat (seq 0 256).

Lemma all_bytes_in a : a < 256 -> In a all_bytes.
Proof.
  intros H. unfold all_bytes. apply in_map_iff. exists (N.to_nat a). split; [lia|].
  apply in_seq. lia.
Qed.

Lemma sweep1 (f g : N -> N) :
  forallb (fun a => f a =? g a) all_bytes = true -> forall a, a < 256 -> f a = g a.
Proof.
  intros H a Ha. rewrite forallb_forall in H. specialize (H a (all_bytes_in a Ha)). lia.
Qed.

Lemma sweep2 (f g : N -> N -> N) :
  forallb (fun a => forallb (fun b => f a b =? g a b) all_bytes) all_bytes = true ->
  forall a b, a < 256 -> b < 256 -> f a b = g a b.
Proof.
  intros H a b Ha Hb. rewrite forallb_forall in H. specialize (H a (all_bytes_in a Ha)).
  rewrite forallb_forall in H. specialize (H b (all_bytes_in b Hb)). lia.
Qed.

(** The characters of a group, as 5 bit values. *)
Definition A0 a := shr a 3.
Definition A1 a b := N.lor (N.land (shr b 6) 31) (N.land (shl a 2) 31).
Definition A2 b := N.land (shr b 1) 31.
Definition A3 b c := N.lor (N.land (shr c 4) 31) (N.land (shl b 4) 31).
Definition A4 c d := N.lor (shr d 7) (N.land (shl c 1) 31).
Definition A5 d := N.land (shr d 2) 31.
Definition A6 d e := N.lor (shr e 5) (N.land (shl d 3) 31).
Definition A7 e := N.land e 31.
Definition L8 h := N.land (shl h 1) 31.
Definition L32 h := N.land (shl h 4) 31.

Lemma dA0 a : a < 256 -> dec_char (enc_char (A0 a)) = A0 a.
Proof. revert a. apply (sweep1 (fun a => dec_char (enc_char (A0 a))) A0). vm_compute; reflexivity. Qed.
Lemma dA1 a b : a < 256 -> b < 256 -> dec_char (enc_char (A1 a b)) = A1 a b.
Proof. revert a b. apply (sweep2 (fun a b => dec_char (enc_char (A1 a b))) A1). vm_compute; reflexivity. Qed.
Lemma dA2 a : a < 256 -> dec_char (enc_char (A2 a)) = A2 a.
Proof. revert a. apply (sweep1 (fun a => dec_char (enc_char (A2 a))) A2). vm_compute; reflexivity. Qed.
Lemma dA3 a b : a < 256 -> b < 256 -> dec_char (enc_char (A3 a b)) = A3 a b.
Proof. revert a b. apply (sweep2 (fun a b => dec_char (enc_char (A3 a b))) A3). vm_compute; reflexivity. Qed.
Lemma dA4 a b : a < 256 -> b < 256 -> dec_char (enc_char (A4 a b)) = A4 a b.
Proof. revert a b. apply (sweep2 (fun a b => dec_char (enc_char (A4 a b))) A4). vm_compute; reflexivity. Qed.
Lemma dA5 a : a < 256 -> dec_char (enc_char (A5 a)) = A5 a.
Proof. revert a. apply (sweep1 (fun a => dec_char (enc_char (A5 a))) A5). vm_compute; reflexivity. Qed.
Lemma dA6 a b : a < 256 -> b < 256 -> dec_char (enc_char (A6 a b)) = A6 a b.
Proof. revert a b. apply (sweep2 (fun a b => dec_char (enc_char (A6 a b))) A6). vm_compute; reflexivity. Qed.
Lemma dA7 a : a < 256 -> dec_char (enc_char (A7 a)) = A7 a.
Proof. revert a. apply (sweep1 (fun a => dec_char (enc_char (A7 a))) A7). vm_compute; reflexivity. Qed.
Lemma dL8 a : a < 256 -> dec_char (enc_char (L8 a)) = L8 a.
Proof. revert a. apply (sweep1 (fun a => dec_char (enc_char (L8 a))) L8). vm_compute; reflexivity. Qed.
Lemma dL32 a : a < 256 -> dec_char (enc_char (L32 a)) = L32 a.
Proof. revert a. apply (sweep1 (fun a => dec_char (enc_char (L32 a))) L32). vm_compute; reflexivity. Qed.

(** Each byte is rebuilt from its characters. *)
Lemma B0 a b : a < 256 -> b < 256 -> N.lor (shl (A0 a) 3) (shr (A1 a b) 2) = a.
Proof. revert a b. apply (sweep2 (fun a b => N.lor (shl (A0 a) 3) (shr (A1 a b) 2)) (fun a _ => a)). vm_compute; reflexivity. Qed.
Lemma A1_high a b : a < 256 -> b < 256 -> shl (A1 a b) 6 = shl (shr b 6) 6.
Proof. revert a b. apply (sweep2 (fun a b => shl (A1 a b) 6) (fun _ b => shl (shr b 6) 6)). vm_compute; reflexivity. Qed.
Lemma A3_low b c : b < 256 -> c < 256 -> shr (A3 b c) 4 = N.land b 1.
Proof. revert b c. apply (sweep2 (fun b c => shr (A3 b c) 4) (fun b _ => N.land b 1)). vm_compute; reflexivity. Qed.
Lemma B1 a b c : a < 256 -> b < 256 -> c < 256 ->
  N.lor (N.lor (shl (A1 a b) 6) (shl (A2 b) 1)) (shr (A3 b c) 4) = b.
Proof.
  intros Ha Hb Hc. rewrite A1_high, A3_low by assumption. revert b Hb.
  apply (sweep1 (fun b => N.lor (N.lor (shl (shr b 6) 6) (shl (A2 b) 1)) (N.land b 1)) (fun b => b)).
  vm_compute; reflexivity.
Qed.
Lemma A3_high b c : b < 256 -> c < 256 -> shl (A3 b c) 4 = shl (shr c 4) 4.
Proof. revert b c. apply (sweep2 (fun b c => shl (A3 b c) 4) (fun _ c => shl (shr c 4) 4)). vm_compute; reflexivity. Qed.
Lemma A4_low c d : c < 256 -> d < 256 -> shr (A4 c d) 1 = N.land c 15.
Proof. revert c d. apply (sweep2 (fun c d => shr (A4 c d) 1) (fun c _ => N.land c 15)). vm_compute; reflexivity. Qed.
Lemma B2_aux c : c < 256 -> N.lor (shl (shr c 4) 4) (N.land c 15) = c.
Proof. revert c. apply (sweep1 (fun c => N.lor (shl (shr c 4) 4) (N.land c 15)) (fun c => c)). vm_compute; reflexivity. Qed.
Lemma B2 b c d : b < 256 -> c < 256 -> d < 256 -> N.lor (shl (A3 b c) 4) (shr (A4 c d) 1) = c.
Proof. intros Hb Hc Hd. rewrite A3_high, A4_low by assumption. now apply B2_aux. Qed.
Lemma A4_high c d : c < 256 -> d < 256 -> shl (A4 c d) 7 = shl (shr d 7) 7.
Proof. revert c d. apply (sweep2 (fun c d => shl (A4 c d) 7) (fun _ d => shl (shr d 7) 7)). vm_compute; reflexivity. Qed.
Lemma A6_low d e : d < 256 -> e < 256 -> shr (A6 d e) 3 = N.land d 3.
Proof. revert d e. apply (sweep2 (fun d e => shr (A6 d e) 3) (fun d _ => N.land d 3)). vm_compute; reflexivity. Qed.
Lemma B3 c d e : c < 256 -> d < 256 -> e < 256 ->
  N.lor (N.lor (shl (A4 c d) 7) (shl (A5 d) 2)) (shr (A6 d e) 3) = d.
Proof.
  intros Hc Hd He. rewrite A4_high, A6_low by assumption. revert d Hd.
  apply (sweep1 (fun d => N.lor (N.lor (shl (shr d 7) 7) (shl (A5 d) 2)) (N.land d 3)) (fun d => d)).
  vm_compute; reflexivity.
Qed.
Lemma B4 d e : d < 256 -> e < 256 -> N.lor (shl (A6 d e) 5) (A7 e) = e.
Proof. revert d e. apply (sweep2 (fun d e => N.lor (shl (A6 d e) 5) (A7 e)) (fun _ e => e)). vm_compute; reflexivity. Qed.
(** Last byte of the 8 byte form. *)
Lemma L8_low h : h < 256 -> shr (L8 h) 1 = N.land h 15.
Proof. revert h. apply (sweep1 (fun h => shr (L8 h) 1) (fun h => N.land h 15)). vm_compute; reflexivity. Qed.
Lemma BL8 b c : b < 256 -> c < 256 -> N.lor (shl (A3 b c) 4) (shr (L8 c) 1) = c.
Proof. intros Hb Hc. rewrite A3_high, L8_low by assumption. now apply B2_aux. Qed.
(** Last byte of the 32 byte form. *)
Lemma L32_low h : h < 256 -> shr (L32 h) 4 = N.land h 1.
Proof. revert h. apply (sweep1 (fun h => shr (L32 h) 4) (fun h => N.land h 1)). vm_compute; reflexivity. Qed.
Lemma BL32 a b : a < 256 -> b < 256 ->
  N.lor (N.lor (shl (A1 a b) 6) (shl (A2 b) 1)) (shr (L32 b) 4) = b.
Proof.
  intros Ha Hb. rewrite A1_high, L32_low by assumption. revert b Hb.
  apply (sweep1 (fun b => N.lor (N.lor (shl (shr b 6) 6) (shl (A2 b) 1)) (N.land b 1)) (fun b => b)).
  vm_compute; reflexivity.
Qed.

Lemma cons_eq {A} (x y : A) l m : x = y -> l = m -> x :: l = y :: m.
Proof. now intros -> ->. Qed.

Ltac take_bytes H id :=
  repeat match goal with
  | H : length id = S _ |- _ =>
      let x := fresh "x" in let Hx := fresh "Hx" in
      destruct id as [|x id]; [discriminate H|];
      apply Forall_cons_iff in H as [Hx ?]
  end.

Lemma encode8_eq a b c d e f g h :
  encode8 [a;b;c;d;e;f;g;h] =
  map enc_char [A0 a; A1 a b; A2 b; A3 b c; A4 c d; A5 d; A6 d e; A7 e;
                A0 f; A1 f g; A2 g; A3 g h; L8 h].
Proof. reflexivity. Qed.

Lemma decode8_eq s0 s1 s2 s3 s4 s5 s6 s7 s8 s9 s10 s11 s12 :
  let d := dec_char in
  decode8 [s0;s1;s2;s3;s4;s5;s6;s7;s8;s9;s10;s11;s12] =
  [ N.lor (shl (d s0) 3) (shr (d s1) 2)
  ; N.lor (N.lor (shl (d s1) 6) (shl (d s2) 1)) (shr (d s3) 4)
  ; N.lor (shl (d s3) 4) (shr (d s4) 1)
  ; N.lor (N.lor (shl (d s4) 7) (shl (d s5) 2)) (shr (d s6) 3)
  ; N.lor (shl (d s6) 5) (d s7)
  ; N.lor (shl (d s8) 3) (shr (d s9) 2)
  ; N.lor (N.lor (shl (d s9) 6) (shl (d s10) 1)) (shr (d s11) 4)
  ; N.lor (shl (d s11) 4) (shr (d s12) 1) ].
Proof. reflexivity. Qed.

Ltac destr id Hl Hok :=
  let x := fresh "x" in let Hx := fresh "Hx" in
  destruct id as [|x id]; [discriminate Hl|];
  apply Forall_cons_iff in Hok as [Hx Hok]; unfold byte_ok in Hx.

Lemma decode8_encode8 id : bytes_ok id -> length id = 8%nat -> decode8 (encode8 id) = id.
Proof.
  intros Hok Hl. unfold bytes_ok in Hok. do 8 (destr id Hl Hok).
  destruct id as [|? id]; [|discriminate Hl].
  rewrite encode8_eq. cbn [map]. rewrite decode8_eq. cbv zeta.
  rewrite !dA0, !dA1, !dA2, !dA3, !dA4, !dA5, !dA6, !dA7, !dL8 by assumption.
  repeat (apply cons_eq; [first [apply B0 | apply B1 | apply B2 | apply B3 | apply B4 | apply BL8]; assumption|]).
  reflexivity.
Qed.

Lemma encode32_eq a0 a1 a2 a3 a4 a5 a6 a7 a8 a9 a10 a11 a12 a13 a14 a15
  a16 a17 a18 a19 a20 a21 a22 a23 a24 a25 a26 a27 a28 a29 a30 a31 :
  encode32 [a0;a1;a2;a3;a4;a5;a6;a7;a8;a9;a10;a11;a12;a13;a14;a15;
            a16;a17;a18;a19;a20;a21;a22;a23;a24;a25;a26;a27;a28;a29;a30;a31] =
  map enc_char
    [A0 a0; A1 a0 a1; A2 a1; A3 a1 a2; A4 a2 a3; A5 a3; A6 a3 a4; A7 a4;
     A0 a5; A1 a5 a6; A2 a6; A3 a6 a7; A4 a7 a8; A5 a8; A6 a8 a9; A7 a9;
     A0 a10; A1 a10 a11; A2 a11; A3 a11 a12; A4 a12 a13; A5 a13; A6 a13 a14; A7 a14;
     A0 a15; A1 a15 a16; A2 a16; A3 a16 a17; A4 a17 a18; A5 a18; A6 a18 a19; A7 a19;
     A0 a20; A1 a20 a21; A2 a21; A3 a21 a22; A4 a22 a23; A5 a23; A6 a23 a24; A7 a24;
     A0 a25; A1 a25 a26; A2 a26; A3 a26 a27; A4 a27 a28; A5 a28; A6 a28 a29; A7 a29;
     A0 a30; A1 a30 a31; A2 a31; L32 a31].
Proof. reflexivity. Qed.

Lemma decode32_encode32 id : bytes_ok id -> length id = 32%nat -> decode32 (encode32 id) = id.
Proof.
  intros Hok Hl. unfold bytes_ok in Hok. do 32 (destr id Hl Hok).
  destruct id as [|? id]; [|discriminate Hl].
  rewrite encode32_eq. cbn [map]. unfold decode32. cbv zeta. cbn [nth].
  rewrite !dA0, !dA1, !dA2, !dA3, !dA4, !dA5, !dA6, !dA7, !dL32 by assumption.
  repeat (apply cons_eq; [first [apply B0 | apply B1 | apply B2 | apply B3 | apply B4 | apply BL32]; assumption|]).
  reflexivity.
Qed.

Lemma encode8_length id : length (encode8 id) = 13%nat.
Proof. reflexivity. Qed.
Lemma encode32_length id : length (encode32 id) = 52%nat.
Proof. reflexivity. Qed.

(** All characters produced are letters or digits of the first half of the
    alphabet, i.e. no index is out of range. *)
Definition base32_char (c : N) : Prop := (65 <= c <= 90) \/ (97 <= c <= 102).

Lemma enc_char_in v : v < 32 -> base32_char (enc_char v).
Proof.
  intros H. assert (E : forallb (fun v => let c := enc_char v in
     ((65 <=? c) && (c <=? 90) || (97 <=? c) && (c <=? 102))%bool) (map N.of_nat (seq 0 32)) = true)
    by (vm_compute; reflexivity).
  rewrite forallb_forall in E. specialize (E v).
  assert (In v (map N.of_nat (seq 0 32))) as Hi.
  { apply in_map_iff. exists (N.to_nat v). split; [lia|]. apply in_seq. lia. }
  specialize (E Hi). unfold base32_char. cbv zeta in E. lia.
Qed.

Lemma bound1 (f : N -> N) : forallb (fun a => f a <? 32) all_bytes = true ->
  forall a, a < 256 -> f a < 32.
Proof. intros H a Ha. rewrite forallb_forall in H. specialize (H a (all_bytes_in a Ha)). lia. Qed.
Lemma bound2 (f : N -> N -> N) :
  forallb (fun a => forallb (fun b => f a b <? 32) all_bytes) all_bytes = true ->
  forall a b, a < 256 -> b < 256 -> f a b < 32.
Proof.
  intros H a b Ha Hb. rewrite forallb_forall in H. specialize (H a (all_bytes_in a Ha)).
  rewrite forallb_forall in H. specialize (H b (all_bytes_in b Hb)). lia.
Qed.
Lemma bA0 a : a < 256 -> A0 a < 32. Proof. apply bound1; vm_compute; reflexivity. Qed.
Lemma bA1 a b : a < 256 -> b < 256 -> A1 a b < 32. Proof. apply bound2; vm_compute; reflexivity. Qed.
Lemma bA2 a : a < 256 -> A2 a < 32. Proof. apply bound1; vm_compute; reflexivity. Qed.
Lemma bA3 a b : a < 256 -> b < 256 -> A3 a b < 32. Proof. apply bound2; vm_compute; reflexivity. Qed.
Lemma bA4 a b : a < 256 -> b < 256 -> A4 a b < 32. Proof. apply bound2; vm_compute; reflexivity. Qed.
Lemma bA5 a : a < 256 -> A5 a < 32. Proof. apply bound1; vm_compute; reflexivity. Qed.
Lemma bA6 a b : a < 256 -> b < 256 -> A6 a b < 32. Proof. apply bound2; vm_compute; reflexivity. Qed.
Lemma bA7 a : a < 256 -> A7 a < 32. Proof. apply bound1; vm_compute; reflexivity. Qed.
Lemma bL8 a : a < 256 -> L8 a < 32. Proof. apply bound1; vm_compute; reflexivity. Qed.
Lemma bL32 a : a < 256 -> L32 a < 32. Proof. apply bound1; vm_compute; reflexivity. Qed.

Ltac chars := repeat (constructor; [apply enc_char_in; first
   [apply bA0; assumption|apply bA1; assumption|apply bA2; assumption|apply bA3; assumption
   |apply bA4; assumption|apply bA5; assumption|apply bA6; assumption|apply bL8; assumption
   |apply bL32; assumption|apply bA7; assumption]|]); constructor.

Lemma encode8_chars id : bytes_ok id -> length id = 8%nat -> Forall base32_char (encode8 id).
Proof.
  intros Hok Hl. unfold bytes_ok in Hok. do 8 (destr id Hl Hok).
  destruct id as [|? id]; [|discriminate Hl]. rewrite encode8_eq. cbn [map]. chars.
Qed.
Lemma encode32_chars id : bytes_ok id -> length id = 32%nat -> Forall base32_char (encode32 id).
Proof.
  intros Hok Hl. unfold bytes_ok in Hok. do 32 (destr id Hl Hok).
  destruct id as [|? id]; [|discriminate Hl]. rewrite encode32_eq. cbn [map]. chars.
Qed.

Lemma encode8_injective a b : bytes_ok a -> bytes_ok b -> length a = 8%nat -> length b = 8%nat ->
  encode8 a = encode8 b -> a = b.
Proof. intros. rewrite <- (decode8_encode8 a), <- (decode8_encode8 b) by assumption. congruence. Qed.
Lemma encode32_injective a b : bytes_ok a -> bytes_ok b -> length a = 32%nat -> length b = 32%nat ->
  encode32 a = encode32 b -> a = b.
Proof. intros. rewrite <- (decode32_encode32 a), <- (decode32_encode32 b) by assumption. congruence. Qed.
