(** Model of the limit of a query (query.go) and of expiry times
    (message/topic.go, entry.go, time_window.go). *)
From Verif Require Import M_Bytes M_Topic.
From Coq Require Import ZArith.
Open Scope Z_scope.

(** strconv.ParseInt(s, 10, 64): optional sign, decimal digits, int64 range;
    [None] is an error. *)
Fixpoint digits (acc : Z) (s : bytes) : option Z :=
  match s with
  | [] => Some acc
  | c :: r => if ((48 <=? c)%N && (c <=? 57)%N)%bool then digits (acc * 10 + (Z.of_N c - 48)) r else None
  end.
Definition in_int64 (z : Z) : bool := (- 2 ^ 63 <=? z) && (z <? 2 ^ 63).
Definition checked (o : option Z) : option Z :=
  match o with Some z => if in_int64 z then Some z else None | None => None end.
Definition parse_int (s : bytes) : option Z :=
  match s with
  | [] => None
  | c :: r =>
      if (c =? 45)%N then match r with [] => None | _ => checked (option_map Z.opp (digits 0 r)) end
      else if (c =? 43)%N then match r with [] => None | _ => checked (digits 0 r) end
      else checked (digits 0 s)
  end.

(** message/topic.go:136-147 [getOption]: text, number, found. *)
Fixpoint get_option (opts : list (bytes * bytes)) (name : bytes) : option (bytes * Z) :=
  match opts with
  | [] => None
  | (k, v) :: r =>
      if list_eq_dec N.eq_dec k name
      then match parse_int v with Some n => Some ([], n) | None => Some (v, 0) end
      else get_option r name
  end.
Definition kLast : bytes := [108; 97; 115; 116]%N.
Definition kTTL : bytes := [116; 116; 108]%N.

(** time.ParseDuration, in nanoseconds; a failed parse gives 0 because its
    error is dropped.  A function of the text, not modelled. *)
Notation duration := (bytes -> option Z).
Definition dur0 (pd : duration) (s : bytes) : Z := match pd s with Some d => d | None => 0 end.

(** message/topic.go:119-133 [Last]: start in seconds and number of messages.
    [now] in nanoseconds. *)
Definition unix (ns : Z) : Z := ns / 1000000000.
Definition topic_last (pd : duration) (now : Z) (opts : list (bytes * bytes)) : option (Z * Z) :=
  match get_option opts kLast with
  | None => None
  | Some (txt, n) => if 0 <? n then Some (0, n) else Some (unix (now - dur0 pd txt), 0)
  end.

(** query.go:107-122: the end of [parse]; limit and cutoff. *)
Definition parse_limit (def max : Z) (qlimit cutoff : Z) (last : option (Z * Z)) : Z * Z :=
  let (l, c) := match last with
                | Some (from, limit) =>
                    (if (qlimit =? 0) && (limit =? 0) then def
                     else if (max <? qlimit) || (max <? limit) then max
                     else if qlimit <? limit then limit
                     else qlimit, from)
                | None => (qlimit, cutoff)
                end in
  (if l =? 0 then def else l, c).

(** query.go:71-87 [WithLast]; a text that does not parse changes nothing. *)
Definition with_last (pd : duration) (now def max : Z) (txt : bytes) (qlimit cutoff : Z) : Z * Z :=
  match pd txt with
  | None => (qlimit, cutoff)
  | Some d => (if qlimit =? 0 then def else if max <? qlimit then max else qlimit, unix (now - d))
  end.

(** options.go:171-172 *)
Definition defaultQueryLimit : Z := 1000.
Definition maxQueryLimit : Z := 100000.

Definition u32z (z : Z) : N := Z.to_N (z mod 2 ^ 32).
(** A product of time.Duration values wraps as int64. *)
Definition i64 (z : Z) : Z := (z + 2 ^ 63) mod 2 ^ 64 - 2 ^ 63.

(** message/topic.go:108-116 [TTL]: expiry time and whether the option is there. *)
Definition topic_ttl (pd : duration) (now : Z) (opts : list (bytes * bytes)) : N * bool :=
  match get_option opts kTTL with
  | None => (u32z (unix (now + dur0 pd [])), false)
  | Some (txt, sec) => if 0 <? sec then (u32z (i64 (sec * 1000000000)), true)
                       else (u32z (unix (now + dur0 pd txt)), true)
  end.

(** entry.go:80-89 [WithTTL]: the first assignment is overwritten. *)
Definition with_ttl (pd : duration) (now : Z) (txt : bytes) : N := u32z (unix (now + dur0 pd txt)).

(** db_internal.go:247-250, 266-268: the expiry time stored with the message. *)
Definition entry_expiry (pd : duration) (now : Z) (given : N) (opts : list (bytes * bytes)) : N :=
  let (ttl, ok) := topic_ttl pd now opts in
  let ttl := if ok then ttl else 0%N in
  if ((given =? 0)%N && (0 <? ttl)%N)%bool then ttl else given.

(** time_window.go:63-65 [isExpired] *)
Definition is_expired (expiresAt : N) (now : Z) : bool :=
  (negb (expiresAt =? 0) && (expiresAt <=? u32z (unix now)))%N%bool.
