(** Cases for C33, C56, C57. *)
From Verif Require Import M_Bytes M_Hash M_Bloom M_MsgId M_Topic M_Trie M_MemDB M_Mac M_Query M_Window M_DB S_Trie S_MemDB S_DB S_Session S_Again P_MemEx P_DBEx P_SessionEx.
From Coq Require Import Lia.
Open Scope Z_scope.

Lemma session_prefix c : forall a b t l, session_ok c t l (a ++ b) -> session_ok c t l a.
Proof. induction a as [|o r IH]; intros b t l H; cbn [app session_ok] in *; [exact I|]. destruct H as (H1 & H2 & H3). repeat split; try tauto. eapply IH; exact H3. Qed.
Lemma session_twice c now g k names limit : forall a t l, session_ok c t l (a ++ [SGet now g k names limit]) ->
  session_ok c t l (a ++ [SGet now g k names limit; SGet now g k names limit]).
Proof.
  induction a as [|o r IH]; intros t l H; cbn [app session_ok] in *.
  - destruct H as (H1 & H2 & H3). cbn [clock sends] in *. rewrite !app_nil_r. split; [exact H1|]. split; [exact H2|]. split; [lia|]. split; [exact H2|exact I].
  - destruct H as (H1 & H2 & H3). repeat split; try tauto. now apply IH.
Qed.

Definition sess_put : sop := SPut (T0 + 30) 0 pAall (pay 4) 0 false.
Lemma put_sess : session_ok dx T0 [] (firstn 8 sess ++ [sess_put]).
Proof. apply (session_prefix dx _ (skipn 9 sess)). exact sess_ok. Qed.
Definition sess_get : sop := SGet (T0 + 30) gx 0 [nA; nB] 0.
Lemma get_sess : session_ok dx T0 [] (firstn 11 sess ++ [sess_get; sess_get]).
Proof. apply session_twice. apply (session_prefix dx _ (skipn 12 sess)). exact sess_ok. Qed.
Lemma get_sess_run : snd (drun dx (Down no_files) (open_x T0 :: map as_dop (firstn 11 sess ++ [sess_get; sess_get]))) =
  firstn 12 sess_outs ++ [got [4; 3; 2; 1]%N; got [4; 3; 2; 1]%N].
Proof. vm_compute. reflexivity. Qed.

(** The same entry for two payloads of one topic. *)
Lemma entry_twice_same :
  let '(s1, e1, r1) := put_entry dx (state_x [open_x T0]) T0 (newEntry topA (pay 1)) in
  let '(s2, e2, r2) := put_entry dx s1 T0 (with_payload e1 (pay 2)) in
  r1 = DOk /\ r2 = DOk /\ snd (db_get dx s2 T0 gx (newQuery topA)) = QItems [pay 2; pay 1].
Proof. vm_compute. auto. Qed.

(** A batch that fails after Write: its message is there at the next Open. *)
Definition h_batch (more : list bop) : list dop := [open_x T0; put_x T0 topB (pay 1)] ++ flush (T0 + 10) ++
  [DoBatch (T0 + 15) None (bput_x topA (pay 2) :: more) true (T0 + 16) (T0 + 17) None None; open_x (T0 + 20); get_x (T0 + 20) topA; get_x (T0 + 20) topB].
Lemma batch_written : run_x (h_batch [BWrite (T0 + 16) None]) =
  [OOpened true; ORes DOk; ODone; ODone; ORes DOk; ORes DPanic; OOpened true; got [2]%N; got [1]%N].
Proof. vm_compute. reflexivity. Qed.
Lemma batch_unwritten : run_x (h_batch []) =
  [OOpened true; ORes DOk; ODone; ODone; ORes DOk; ORes DPanic; OOpened true; got []; got [1]%N].
Proof. vm_compute. reflexivity. Qed.
