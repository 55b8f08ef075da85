(** Model of metrics/sample.go (and its copy server/internal/pkg/metrics). *)
From Verif Require Import M_Bytes.
Open Scope Z_scope.

(** sample.go:63-70 [_Sample]; durations are int64. *)
Record sample := mkSample { sm_size : nat; sm_times : list Z; sm_count : N }.
(** sample.go:73-78 [NewSample] *)
Definition sample_new (size : nat) : sample := mkSample size (repeat 0 size) 0%N.
(** sample.go:81-85 [Reset] *)
Definition sample_reset (s : sample) : sample := mkSample (sm_size s) (sm_times s) 0%N.
Fixpoint set_nth {A} (i : nat) (x : A) (l : list A) : list A :=
  match l, i with
  | [], _ => []
  | _ :: r, O => x :: r
  | y :: r, S j => y :: set_nth j x r
  end.
(** sample.go:130-132 [AddTime]; [None]: division by zero.  The counter is uint64. *)
Definition sample_add (s : sample) (t : Z) : option sample :=
  let c := u64 (sm_count s + 1) in
  match sm_size s with
  | O => None
  | _ => let i := N.to_nat (u64 (c + (2 ^ 64 - 1)) mod N.of_nat (sm_size s))%N in
         Some (mkSample (sm_size s) (set_nth i t (sm_times s)) c)
  end.

(** sort.Sort of durations, sample.go:152 *)
Fixpoint ins (x : Z) (l : list Z) : list Z :=
  match l with [] => [x] | y :: r => if x <=? y then x :: l else y :: ins x r end.
Definition sort_times (l : list Z) : list Z := fold_right ins [] l.
(** sample.go:143-158 [Snapshot]: the sorted times; the float64 minimum of two
    counts below 2^53 is exact. *)
Definition snapshot (s : sample) : list Z :=
  sort_times (firstn (Nat.min (N.to_nat (sm_count s)) (sm_size s)) (sm_times s)).

(** sample.go:236-324 on a time slice; [None] is a panic (index or division). *)
Definition i64 (z : Z) : Z := to_signed 64 (to_unsigned 64 z).
Definition ts_cumulative (ts : list Z) : Z := fold_left (fun a t => i64 (a + t)) ts 0.
Definition ts_avg (ts : list Z) : option Z :=
  match ts with [] => None | _ => Some (Z.quot (ts_cumulative ts) (Z.of_nat (length ts))) end.
Definition ts_min (ts : list Z) : option Z := nth_error ts 0.
Definition ts_max (ts : list Z) : option Z :=
  match ts with [] => None | _ => nth_error ts (length ts - 1) end.
Definition ts_p50 (ts : list Z) : option Z := nth_error ts (length ts / 2).
Definition ts_range (ts : list Z) : option Z :=
  match ts_max ts, ts_min ts with Some a, Some b => Some (i64 (a - b)) | _, _ => None end.
