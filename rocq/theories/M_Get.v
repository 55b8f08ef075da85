(** Model of the reading loop of db.go:222-319 [Get], over any way of reading
    one message. *)
From Verif Require Import M_Bytes.
Open Scope Z_scope.

(** db.go:259-301: what becomes of one entry.  Deleted messages and those of
    another contract or before the cutoff are counted as invalid. *)
Inductive outcome := OItem (v : bytes) | OSkip | OErr | OPanic.

Inductive getres :=
| GotItems (l : list bytes)
| GotErr (l : list bytes)       (* what was read so far, and an error *)
| GotPanic
| GotLoop.                      (* [fuel] was not enough *)

Inductive pass_end := PDone | PErr | PPanic.

(** db.go:258-302: one walk over a slice of winEntries.  Sequence number 0 is
    passed over. *)
Fixpoint pass {S} (rd : S -> N -> S * outcome) (s : S) (qs : list N) (items : list bytes) (inv : Z)
  : S * list bytes * Z * pass_end :=
  match qs with
  | [] => (s, items, inv, PDone)
  | q :: r =>
      if (q =? 0)%N then pass rd s r items inv
      else match rd s q with
           | (s, OItem v) => pass rd s r (items ++ [v]) inv
           | (s, OSkip) => pass rd s r items (inv + 1)
           | (s, OErr) => (s, items, inv, PErr)
           | (s, OPanic) => (s, items, inv, PPanic)
           end
  end.

(** winEntries[start:limit].  A Go slice can be cut up to its capacity [cap];
    what lies behind its length is zero. *)
Definition cut (win : list N) (cap start limit : Z) : option (list N) :=
  if ((0 <=? start) && (start <=? limit) && (limit <=? cap))%bool
  then Some (firstn (Z.to_nat (limit - start))
               (skipn (Z.to_nat start) (win ++ repeat 0%N (Z.to_nat (cap - Z.of_nat (length win))))))
  else None.

(** db.go:256-315 *)
Fixpoint get_loop {S} (fuel : nat) (rd : S -> N -> S * outcome) (s : S) (win : list N)
         (cap L start limit : Z) (items : list bytes) : S * getres :=
  match fuel with
  | O => (s, GotLoop)
  | S fuel =>
      match cut win cap start limit with
      | None => (s, GotPanic)
      | Some qs =>
          match pass rd s qs items 0 with
          | (s, items, inv, PErr) => (s, GotErr items)
          | (s, items, inv, PPanic) => (s, GotPanic)
          | (s, items, inv, PDone) =>
              let n := Z.of_nat (length win) in
              if ((inv =? 0) || (Z.of_nat (length items) =? L) || (n =? limit))%bool
              then (s, GotItems items)
              else if n <=? L + inv
              then get_loop fuel rd s win cap L limit n items
              else get_loop fuel rd s win cap L limit (limit + inv) items
          end
      end
  end.

(** db.go:244-319: [win] are the sequence numbers found, sorted; [L] is
    q.Limit. *)
Definition get_entries {S} (rd : S -> N -> S * outcome) (s : S) (win : list N) (cap L : Z) : S * getres :=
  match win with
  | [] => (s, GotItems [])
  | _ => let n := Z.of_nat (length win) in
         get_loop (Z.to_nat cap + 2) rd s win cap L 0 (if n <? L then n else L) []
  end.

(** db.go:247-249 and db_sync.go:221-223: sort.Slice on sequence numbers; equal
    ones are the same. *)
Fixpoint insert_desc (x : N) (l : list N) : list N :=
  match l with
  | [] => [x]
  | y :: r => if (y <=? x)%N then x :: y :: r else y :: insert_desc x r
  end.
Definition seq_desc (l : list N) : list N := fold_right insert_desc [] l.
Definition seq_asc (l : list N) : list N := rev (seq_desc l).
