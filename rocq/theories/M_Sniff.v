(** Model of server/internal/net/listener/listener.go: the connection that
    remembers what the protocol matchers have read. *)
From Verif Require Import M_Bytes M_Patricia.

(** What the network does, in order: bytes that arrive, a failing read (a
    timeout), or bytes delivered together with an error, which io.Reader
    permits.  After the last event every read answers end of file. *)
Inductive event := Data (d : bytes) | Fail (e : N) | DataFail (d : bytes) (e : N).
Definition eof : N := 0%N.
Notation source := (list event).
(** net.Conn.Read with a buffer of [n] bytes: the bytes, the error, the rest. *)
Definition src_read (s : source) (n : nat) : bytes * option N * source :=
  match s with
  | [] => ([], Some eof, [])
  | Data d :: r => if (length d <=? n)%nat then (d, None, r) else (firstn n d, None, Data (skipn n d) :: r)
  | Fail e :: r => ([], Some e, r)
  | DataFail d e :: r => if (length d <=? n)%nat then (d, Some e, r) else (firstn n d, None, DataFail (skipn n d) e :: r)
  end.

(** listener.go:336-343 [stream] *)
Record stream := mkStream { s_source : source; s_buffer : bytes; s_bufferRead : nat; s_bufferSize : nat;
                            s_sniffing : bool; s_lastErr : option N }.
(** listener.go:315-320 [newConn] *)
Definition stream_new (s : source) : stream := mkStream s [] 0 0 false None.
(** listener.go:366-370 [reset] *)
Definition stream_reset (s : stream) (snif : bool) : stream :=
  mkStream (s_source s) (s_buffer s) 0 (length (s_buffer s)) snif (s_lastErr s).
(** listener.go:346-363 [Read].  Capacity: a buffer that is not empty has one;
    setting an empty buffer to the empty buffer changes nothing. *)
Definition stream_read (s : stream) (n : nat) : bytes * option N * stream :=
  if (s_bufferRead s <? s_bufferSize s)%nat
  then let d := firstn n (skipn (s_bufferRead s) (firstn (s_bufferSize s) (s_buffer s))) in
       (d, s_lastErr s, mkStream (s_source s) (s_buffer s) (s_bufferRead s + length d) (s_bufferSize s) (s_sniffing s) (s_lastErr s))
  else
  let buf := if s_sniffing s then s_buffer s else [] in
  let '(d, e, src) := src_read (s_source s) n in
  if ((0 <? length d)%nat && s_sniffing s)%bool
  then (d, e, mkStream src (buf ++ d) (s_bufferRead s) (s_bufferSize s) (s_sniffing s) e)
  else (d, e, mkStream src buf (s_bufferRead s) (s_bufferSize s) (s_sniffing s) (s_lastErr s)).
Fixpoint stream_reads (s : stream) (sizes : list nat) : list (bytes * option N) * stream :=
  match sizes with
  | [] => ([], s)
  | n :: r => let '(d, e, s') := stream_read s n in let '(os, s'') := stream_reads s' r in ((d, e) :: os, s'')
  end.

(** listener.go:33 [Proto]: a matcher is any program that reads and answers. *)
Inductive matcher := MRet (b : bool) | MRead (n : nat) (k : bytes -> option N -> matcher).
Fixpoint run_matcher (m : matcher) (s : stream) : bool * stream :=
  match m with
  | MRet b => (b, s)
  | MRead n k => let '(d, e, s') := stream_read s n in run_matcher (k d e) s'
  end.
(** listener.go:36-38 [MatchAny] *)
Definition match_any : matcher := MRet true.
(** io.ReadFull: reads until [n] bytes are there or an error comes; [fuel]
    reads at most, enough when every read brings a byte or an error. *)
Fixpoint read_full (fuel n : nat) (acc : bytes) (k : bytes -> matcher) : matcher :=
  match fuel with
  | O => k acc
  | S f => if (n <=? length acc)%nat then k acc
           else MRead (n - length acc)
                  (fun d e => match e with
                              | Some _ => k (acc ++ d)
                              | None => read_full f n (acc ++ d) k
                              end)
  end.
(** listener.go:41-44 [MatchWS], patricia.go:52-56 [matchPrefix] *)
Definition match_ws (strs : list bytes) : matcher :=
  let t := newPatriciaTree strs in
  read_full (pt_maxDepth t) (pt_maxDepth t) [] (fun b => MRet (node_match (pt_root t) b true)).

(** listener.go:243-273 [serve]: the matchers of all listeners in the order in
    which they were registered; the number of the first that answers true, and
    the connection it gets.  [None]: closed, no protocol matched. *)
Fixpoint serve_loop (i : nat) (ps : list matcher) (s : stream) : option (nat * stream) :=
  match ps with
  | [] => None
  | p :: r => let '(b, s') := run_matcher p (stream_reset s true) in
              if b then Some (i, stream_reset s' false) else serve_loop (S i) r s'
  end.
Definition serve (ps : list matcher) (src : source) : option (nat * stream) := serve_loop 0 ps (stream_new src).
