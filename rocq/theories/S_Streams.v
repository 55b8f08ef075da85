(** Specifications for the byte streams of the server (C76-C79): they speak of
    what was put in and what comes out, not of the buffers in between. *)
From Verif Require Import M_Bytes M_Sniff M_Stats M_Sample.
From Coq Require Import Sorted Permutation.

(** C76: the bytes that the successful reads have given. *)
Definition given (outs : list (option bytes)) : bytes :=
  concat (map (fun o => match o with Some d => d | None => [] end) outs).

(** C77: the bytes the network delivers, and whether it keeps errors apart. *)
Definition all_bytes (s : source) : bytes :=
  concat (map (fun e => match e with Data d => d | Fail _ => [] | DataFail d _ => d end) s).
Definition plain (s : source) : Prop :=
  Forall (fun e => match e with Data d => True | Fail e => e <> eof | DataFail _ _ => False end) s.
(** what a sequence of reads has given *)
Definition told (outs : list (bytes * option N)) : bytes := concat (map fst outs).
(** bytes only, at least one at a time *)
Definition flowing (s : source) : Prop :=
  Forall (fun e => match e with Data d => d <> [] | _ => False end) s.
(** the first of the groups that holds a beginning of the stream *)
Definition begins (strs : list bytes) (d : bytes) : Prop := exists s rest, In s strs /\ d = s ++ rest.
Definition first_group (gs : list (list bytes)) (d : bytes) (i : nat) : Prop :=
  (exists strs, nth_error gs i = Some strs /\ begins strs d) /\
  forall j strs, (j < i)%nat -> nth_error gs j = Some strs -> ~ begins strs d.

(** C78: what became of a packet. *)
Inductive fate := Written | Failed | Queued | Lost.
Definition is_fate (f g : fate) : bool :=
  match f, g with Written, Written | Failed, Failed | Queued, Queued | Lost, Lost => true | _, _ => false end.
Definition lines (ops : list sop) : list bytes :=
  concat (map (fun o => match o with SMetric l => [l] | _ => [] end) ops).
Definition of_fate (f : fate) (gs : list (fate * list bytes)) : list (list bytes) :=
  map snd (filter (fun g => is_fate f (fst g)) gs).
Definition not_nil {A} (l : list A) : bool := match l with [] => false | _ => true end.
(** one line, or several that fit *)
Definition fits (max : nat) (g : list bytes) : Prop := (length g <= 1 \/ length (concat g) <= max)%nat.
(** a datagram carries the lines of one packet without the last newline *)
Definition datagram (w : bytes) (g : list bytes) : Prop := w ++ [10%N] = concat g.
Definition line_ok (l : bytes) : Prop := exists t, l = t ++ [10%N].

(** sends that the socket refuses *)
Definition fails (ops : list sop) : nat := length (filter (fun o => match o with SSend false => true | _ => false end) ops).

(** C79: the times added since the last reset, the newest [n] of them. *)
Inductive mop := MAdd (t : Z) | MReset.
Fixpoint since (ops : list mop) (acc : list Z) : list Z :=
  match ops with
  | [] => acc
  | MAdd t :: r => since r (acc ++ [t])
  | MReset :: r => since r []
  end.
Definition newest (n : nat) (l : list Z) : list Z := skipn (length l - n) l.
Definition total (l : list Z) : Z := fold_right Z.add 0%Z l.
Definition sample_step (s : option sample) (o : mop) : option sample :=
  match s with
  | None => None
  | Some s => match o with MAdd t => sample_add s t | MReset => Some (sample_reset s) end
  end.

