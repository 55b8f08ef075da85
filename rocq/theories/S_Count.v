(** What Sync should write and Count should answer, kept by hand beside a
    session: from the clock, the ticks and the commits of the log alone. *)
From Verif Require Import M_Bytes M_IndexBlock M_BlockStore M_Get M_DB S_Session.
Open Scope Z_scope.

(** Time is cut into slots.  A tick ends the slot; it then waits for its log to
    be committed, the oldest first.  Messages belong to the slot in which they
    were put; the flag says that a Sync has written them. *)
Record book := mkBook {
  bk_slot : Z;
  bk_wait : list Z;
  bk_done : list Z;
  bk_all : list (Z * bool * sent)
}.
Definition mark_written (b : book) (x : Z * bool * sent) : Z * bool * sent :=
  let '(t, f, m) := x in (t, (f || (existsb (Z.eqb t) (bk_done b) && (t <? bk_slot b)))%bool, m).
Definition keep_book (d : Z) (b : book) (o : sop) : book :=
  match o with
  | SPut _ _ _ _ _ _ => mkBook (bk_slot b) (bk_wait b) (bk_done b) (bk_all b ++ map (fun m => (bk_slot b, false, m)) (sends o))
  | STick now => mkBook (now - now mod d) (bk_wait b ++ [bk_slot b]) (bk_done b) (bk_all b)
  | SCommit => match bk_wait b with
               | [] => b
               | t :: r => mkBook (bk_slot b) r (t :: bk_done b) (bk_all b)
               end
  | SSync _ _ => mkBook (bk_slot b) (bk_wait b) (bk_done b) (map (mark_written b) (bk_all b))
  | _ => b
  end.
(** The book of a session opened at [t]. *)
Definition book_of (d t : Z) (ops : list sop) : book := fold_left (keep_book d) ops (mkBook (t - t mod d) [] [] []).
(** The messages written, in the order of the puts. *)
Definition written_of (b : book) : list sent := map snd (filter (fun x => snd (fst x)) (bk_all b)).

(** The files have the message under the number [q], whole. *)
Definition on_file (c : dcfg) (f : files) (q : N) (m : sent) : Prop :=
  exists x id val, readEntry (f_index f) q = Some (RFound x) /\ x_seq x = q /\ readMessage (f_data f) x = Some (id, val) /\
    decode c (s_owner m) 0 id val = OItem (s_payload m).
