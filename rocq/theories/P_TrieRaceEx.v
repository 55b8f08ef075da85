(* Two calls of add that lose one of the topics for ever. *)

From Coq Require Import List Arith Bool Lia.
Import ListNotations.
From Verif Require Import M_TrieRace S_TrieRace P_TrieRace.

(* Topic 1 is a.b, topic 2 is a.c. *)
Definition two_parts (h : nat) : list nat :=
  match h with 1 => [7; 8] | 2 => [7; 9] | _ => [] end.

Definition lost_adds : list tevent :=
  [EAdd 1; EAdd 2; EStep 0; EStep 1; EStep 0; EStep 1; EStep 0; EStep 0; EStep 0; EStep 0;
   EStep 1; EStep 1; EStep 1; EStep 1].

Definition own_shard (h : nat) : nat := h.

Section After.
Context (shard : nat -> nat) (parts : nat -> list nat) (h : nat) (O : nat -> Prop).

(* The topic is in nodes of O only, to which no way leads, and nobody is there. *)
Record cut_off (st : tst) : Prop := CO {
  f_root : ~ O 0;
  f_old : forall n, O n -> n < length (t_nodes st);
  f_here : forall n x, nth_error (t_nodes st) n = Some x -> In h (tn_topics x) -> O n;
  f_kids : forall n x p c, nth_error (t_nodes st) n = Some x -> kid (tn_kids x) p = Some c -> O c -> O n;
  f_at : forall k h' b t c, nth_error (t_adds st) k = Some (AAt h' b t c) -> h' <> h /\ ~ O c;
  f_set : forall k h' b p t c, nth_error (t_adds st) k = Some (ASet h' b p t c) -> h' <> h /\ ~ O c;
  f_sum : In h (t_summary st)
}.

Lemma cut_off_go st : cut_off st -> forall path n m, ~ O n -> go_down (t_nodes st) n path = Some m -> ~ O m.
Proof.
  intros H. induction path as [|p path IH]; intros n m Nn G; cbn in G; [congruence|].
  destruct (nth_error (t_nodes st) n) as [x|] eqn:Nx; [|discriminate].
  destruct (kid (tn_kids x) p) as [c|] eqn:K; [|discriminate].
  apply (IH c m); [|exact G]. intros Oc. exact (Nn (f_kids _ H _ _ _ _ Nx K Oc)).
Qed.

Lemma cut_off_lost st path : cut_off st -> ~ found st h path.
Proof.
  intros H [n [x [G [Nx I]]]]. exact (cut_off_go _ H _ _ _ (f_root _ H) G (f_here _ H _ _ Nx I)).
Qed.

Lemma cut_off_set st k a : cut_off st ->
  match a with AAt h' _ _ c | ASet h' _ _ _ c => h' <> h /\ ~ O c | _ => True end -> cut_off (set_add st k a).
Proof.
  intros [A B C D E F G] X. constructor; try assumption.
  - intros k' h' b t c N. cbn in N. apply at_inv in N. destruct N as [[_ <-]|[_ N]]; [exact X|exact (E _ _ _ _ _ N)].
  - intros k' h' b p t c N. cbn in N. apply at_inv in N. destruct N as [[_ <-]|[_ N]]; [exact X|exact (F _ _ _ _ _ _ N)].
Qed.

Lemma cut_off_step st e : cut_off st -> cut_off (tstep shard parts st e).
Proof.
  intros H. pose proof H as [A B C D E F G]. destruct e as [h0|k]; cbn [tstep].
  - constructor; try assumption.
    + intros k h' b t c N. cbn in N. apply snoc_inv in N. destruct N as [N|[_ N]]; [exact (E _ _ _ _ _ N)|discriminate].
    + intros k h' b p t c N. cbn in N. apply snoc_inv in N. destruct N as [N|[_ N]]; [exact (F _ _ _ _ _ _ N)|discriminate].
  - unfold add_step. destruct (nth_error (t_adds st) k) as [[h0|h0 b t c|h0 b p t c|h0]|] eqn:Nk; try exact H.
    + destruct (existsb (holds shard h0) (t_adds st)); [exact H|].
      destruct (existsb (Nat.eqb h0) (t_summary st)) eqn:X; apply cut_off_set; try exact H; [exact I|].
      split; [|exact A]. intros ->. assert (Y : existsb (Nat.eqb h) (t_summary st) = true); [|congruence].
      apply existsb_exists. exists h. split; [exact G|apply Nat.eqb_refl].
    + destruct (E _ _ _ _ _ Nk) as [Nh Nc]. destruct t as [|p t]; destruct (nth_error (t_nodes st) c) as [n|] eqn:Nn; try exact H.
      * constructor; cbn [t_nodes t_adds t_summary].
        -- exact A.
        -- intros m Om. rewrite at_len. exact (B m Om).
        -- intros m x Nm Im. apply at_inv in Nm. destruct Nm as [[<- ->]|[_ Nm]]; [|exact (C _ _ Nm Im)].
           cbn in Im. destruct Im as [Im|Im]; [congruence|exact (C _ _ Nn Im)].
        -- intros m x p d Nm K Od. apply at_inv in Nm. destruct Nm as [[<- ->]|[_ Nm]]; [|exact (D _ _ _ _ Nm K Od)].
           exact (D _ _ _ _ Nn K Od).
        -- intros k' h' b' t' c' N. apply at_inv in N. destruct N as [[_ N]|[_ N]]; [discriminate|exact (E _ _ _ _ _ N)].
        -- intros k' h' b' p t' c' N. apply at_inv in N. destruct N as [[_ N]|[_ N]]; [discriminate|exact (F _ _ _ _ _ _ N)].
        -- right. exact G.
      * destruct (kid (tn_kids n) p) as [d|] eqn:K; apply cut_off_set; try exact H; [|split; assumption].
        split; [exact Nh|]. intros Od. exact (Nc (D _ _ _ _ Nn K Od)).
    + destruct (F _ _ _ _ _ _ Nk) as [Nh Nc]. destruct (nth_error (t_nodes st) c) as [n|] eqn:Nn; [|exact H].
      assert (NO : ~ O (length (t_nodes st))) by (intros Q; pose proof (B _ Q); lia).
      constructor; cbn [t_nodes t_adds t_summary].
      * exact A.
      * intros m Om. rewrite app_length, at_len. pose proof (B m Om). lia.
      * intros m x Nm Im. apply snoc_inv in Nm. destruct Nm as [Nm|[_ ->]]; [|destruct Im].
        apply at_inv in Nm. destruct Nm as [[<- ->]|[_ Nm]]; [|exact (C _ _ Nm Im)]. exact (C _ _ Nn Im).
      * intros m x q d Nm K Od. apply snoc_inv in Nm. destruct Nm as [Nm|[_ ->]]; [|discriminate].
        apply at_inv in Nm. destruct Nm as [[<- ->]|[_ Nm]]; [|exact (D _ _ _ _ Nm K Od)].
        cbn [tn_kids kid] in K. destruct (Nat.eqb p q).
        -- exfalso. apply NO. congruence.
        -- exact (D _ _ _ _ Nn K Od).
      * intros k' h' b' t' c' N. apply at_inv in N. destruct N as [[_ N]|[_ N]]; [|exact (E _ _ _ _ _ N)].
        assert (h' = h0) by congruence. assert (c' = length (t_nodes st)) by congruence. subst. split; assumption.
      * intros k' h' b' p' t' c' N. apply at_inv in N. destruct N as [[_ N]|[_ N]]; [discriminate|exact (F _ _ _ _ _ _ N)].
      * exact G.
Qed.

Lemma cut_off_run es : forall st, cut_off st -> cut_off (trun shard parts st es).
Proof. induction es as [|e es IH]; intros st H; [exact H|]. cbn. apply IH. apply cut_off_step. exact H. Qed.
End After.

Lemma lost_adds_state : trun own_shard two_parts tstart lost_adds =
  TS [TN [] [(7, 3); (7, 1)] []; TN [7] [(8, 2)] []; TN [7; 8] [] [1]; TN [7] [(9, 4)] []; TN [7; 9] [] [2]]
     [2; 1] [ADone 1; ADone 2].
Proof. vm_compute. reflexivity. Qed.

Lemma lost_add : added (trun own_shard two_parts tstart lost_adds) 0 1 /\
  added (trun own_shard two_parts tstart lost_adds) 1 2 /\
  found (trun own_shard two_parts tstart lost_adds) 2 (two_parts 2) /\
  forall es, ~ found (trun own_shard two_parts (trun own_shard two_parts tstart lost_adds) es) 1 (two_parts 1).
Proof.
  rewrite lost_adds_state. split; [reflexivity|]. split; [reflexivity|]. split.
  - exists 4, (TN [7; 9] [] [2]). split; [reflexivity|]. split; [reflexivity|]. left. reflexivity.
  - intros es. apply (cut_off_lost 1 (fun n => n = 1 \/ n = 2)). apply cut_off_run.
    constructor; cbn [t_nodes t_adds t_summary].
    + lia.
    + cbn. lia.
    + intros [|[|[|[|[|n]]]]] x N I; cbn in N; try discriminate;
        try (right; reflexivity); try (left; reflexivity);
        try (injection N as <-; cbn in I; destruct I as [I|[]]; discriminate);
        try (injection N as <-; destruct I); destruct n; discriminate.
    + intros [|[|[|[|[|n]]]]] x p c N K [->| ->]; cbn in N; try (left; reflexivity); try (right; reflexivity).
      * injection N as <-. cbn in K. destruct p as [|[|[|[|[|[|[|[|p]]]]]]]]; discriminate.
      * injection N as <-. cbn in K. destruct p as [|[|[|[|[|[|[|[|p]]]]]]]]; discriminate.
      * injection N as <-. cbn in K. destruct p as [|[|[|[|[|[|[|[|[|[|p]]]]]]]]]]; discriminate.
      * injection N as <-. cbn in K. destruct p as [|[|[|[|[|[|[|[|[|[|p]]]]]]]]]]; discriminate.
      * injection N as <-. discriminate.
      * injection N as <-. discriminate.
      * destruct n; discriminate.
      * destruct n; discriminate.
    + intros [|[|k]] h' b t c N; try discriminate. destruct k; discriminate.
    + intros [|[|k]] h' b p t c N; try discriminate. destruct k; discriminate.
    + right. left. reflexivity.
Qed.

(* The same calls with one mutex. *)
Definition serial_adds : list tevent :=
  [EAdd 1; EAdd 2; EStep 0; EStep 1; EStep 0; EStep 1; EStep 0; EStep 0; EStep 0; EStep 0;
   EStep 1; EStep 1; EStep 1; EStep 1; EStep 1].
