(** Model of the background expiry: expiry_window.go, db_sync.go:305-328 and
    the calls of [addExpiry] in time_window.go. *)
From Verif Require Import M_Consistent.
From Verif Require Import M_Bytes M_IndexBlock M_MsgId M_Mac M_Topic M_Trie M_Query M_Lease M_BlockStore M_WinBlock M_MemDB M_Window M_DB.
Open Scope Z_scope.

(** expiry_window.go:31-55 [_ExpiryWindowBucket]: the windows of all shards as
    one map from shard and time; [x_find] is [consistent.FindBlock].  Durations
    in seconds. *)
Record expiry := mkEx {
  x_on : bool;                               (* backgroundKeyExpiry *)
  x_dur : Z;                                 (* expDurationType *)
  x_max : nat;                               (* maxExpDurations *)
  x_earliest : Z;                            (* earliestExpiryHash *)
  x_windows : list ((nat * Z) * list wentry)
}.
(** db.go:74-79, db_internal.go:48: one minute and one. *)
Definition newExpiry (on : bool) : expiry := mkEx on 60 1 0 [].

Definition xk_eqb (a b : nat * Z) : bool := (Nat.eqb (fst a) (fst b) && (snd a =? snd b))%bool.
Definition set_windows (b : expiry) (e : Z) (w : list ((nat * Z) * list wentry)) : expiry :=
  mkEx (x_on b) (x_dur b) (x_max b) e w.

(** expiry_window.go:134: [Truncate] counts from the year 1, a whole number of
    minutes before 1970. *)
Definition expiry_hash (b : expiry) (t : N) : Z := Z.of_N t / x_dur b * x_dur b + x_dur b.

(** expiry_window.go:129-148 [addExpiry]; it returns no error. *)
Definition add_expiry (find : N -> nat) (b : expiry) (e : wentry) : expiry :=
  if negb (x_on b) then b
  else
  let t := expiry_hash b (w_expiresAt e) in
  let k := (find (w_expiresAt e), t) in
  set_windows b (if x_earliest b =? 0 then t else x_earliest b)
              (aset xk_eqb (x_windows b) k (match afind xk_eqb (x_windows b) k with Some l => l | None => [] end ++ [e])).

(** expiry_window.go:99-120: one shard; the keys in ascending order.  [sort.Slice]
    on different numbers. *)
Definition shard_times (b : expiry) (i : nat) : list Z :=
  sort_Z (map (fun x : (nat * Z) * list wentry => snd (fst x))
              (filter (fun x : (nat * Z) * list wentry => Nat.eqb (fst (fst x)) i) (x_windows b))).
Fixpoint times_loop (start : N) (max : Z) (i : nat) (ts : list Z) (b : expiry) (acc : list wentry)
  : expiry * list wentry :=
  match ts with
  | [] => (b, acc)
  | t :: r =>
      if ((Z.of_N start <? t) || (max <? Z.of_nat (length acc)))%bool then (b, acc)
      else
      let es := match afind xk_eqb (x_windows b) (i, t) with Some l => l | None => [] end in
      let old := filter (fun e => (w_expiresAt e <? start)%N) es in
      let b := if Nat.eqb (length old) (length es)
               then set_windows b (x_earliest b) (adel xk_eqb (x_windows b) (i, t)) else b in
      times_loop start max i r b (acc ++ old)
  end.
Fixpoint shards_loop (start : N) (max : Z) (is : list nat) (b : expiry) (acc : list wentry) : expiry * list wentry :=
  match is with
  | [] => (b, acc)
  | i :: r => let (b, acc) := times_loop start max i (shard_times b i) b acc in shards_loop start max r b acc
  end.
(** expiry_window.go:83-126 [getExpiredEntries]; [now] in nanoseconds. *)
Definition get_expired (now max : Z) (b : expiry) : expiry * list wentry :=
  if negb (x_on b) then (b, [])
  else
  let start := u32z (unix now) in
  if Z.of_N start <? x_earliest b then (b, [])
  else let (b, es) := shards_loop start max (seq 0 (x_max b)) b [] in
       (set_windows b 0 (x_windows b), es).

(** db_sync.go:313-325: stops at the first entry that cannot be read. *)
Fixpoint expire_loop (s : db) (es : list wentry) : option db :=
  match es with
  | [] => Some s
  | e :: r =>
      match readEntry (d_index s) (w_seq e) with
      | Some (RFound x) =>
          if (mSize x =? 0)%N then None
          else match freeBlock (d_lease s) (x_msgOffset x) (mSize x) with
               | None => None
               | Some l => expire_loop (set_free s l (count_sub (d_count s) 1)) r
               end
      | _ => Some s
      end
  end.
(** db_sync.go:306-328 [expireEntries]; [None] is a panic. *)
Definition expire_entries (def now : Z) (s : db) (b : expiry) : option (db * expiry) :=
  let (b, es) := get_expired now def b in
  match expire_loop s es with Some s => Some (s, b) | None => None end.

(** * What a Get hands to [addExpiry], in the order of the calls *)
Definition newest_dead (now l : Z) (es : list wentry) : list wentry :=
  filter (fun e => negb (we_live now e)) (firstn (Z.to_nat l) (rev es)).
(** time_window.go:229-252, see [ilookup_loop]. *)
Fixpoint ilookup_dead (now limit l : Z) (ls : list (list wentry)) : list wentry :=
  match ls with
  | [] => []
  | es :: r =>
      match es with
      | [] => ilookup_dead now limit l r
      | _ =>
          let l := limit - l in
          let l := if Z.of_nat (length es) <? l then Z.of_nat (length es) else l in
          newest_dead now l es ++ ilookup_dead now limit l r
      end
  end.
(** time_window.go:284-324, see [look_block]; the first loop and the second may
    both walk over an entry. *)
Definition block_dead (now : Z) (h : N) (b : wblock) (limit : Z) (acc : list wentry) : list wentry :=
  if negb (wb_topicHash b =? h)%N then []
  else match wb_used b with
  | None => []
  | Some es =>
      let all := newest_dead now (Z.of_nat (length es)) es in
      if limit - Z.of_nat (length es) <? Z.of_nat (length acc)
      then let limit := limit - Z.of_nat (length acc) in
           newest_dead now limit es ++
           (if limit <=? Z.of_nat (length (acc ++ newest_live now limit es)) then [] else all)
      else all
  end.
(** time_window.go:267-282, see [look_chain]. *)
Fixpoint chain_dead (fuel : nat) (now : Z) (f : bytes) (h : N) (cutoff off limit : Z) (acc : list wentry) : list wentry :=
  match fuel with
  | O => []
  | S fuel =>
      match readWindowBlock f off with
      | None => []
      | Some b =>
          block_dead now h b limit acc ++
          match look_block now h cutoff b limit acc with
          | Some (acc, limit, false) =>
              if wb_next b =? 0 then [] else chain_dead fuel now f h cutoff (wb_next b) limit acc
          | _ => []
          end
      end
  end.
(** time_window.go:257-330, see [tw_lookup]. *)
Definition tw_dead (now : Z) (ls : list (list wentry)) (f : bytes) (h : N) (off cutoff limit : Z) : list wentry :=
  let acc := tw_ilookup now limit ls in
  ilookup_dead now limit 0 ls ++
  (if limit <=? Z.of_nat (length acc) then [] else chain_dead (S (length f / 4096)) now f h cutoff off limit acc).
(** db_internal.go:217-234, see [lookup_topics]. *)
Fixpoint topics_dead (s : db) (now : Z) (g : gchoice) (L cutoff : Z) (tops : list ttopic) (acc : list N) : list wentry :=
  match tops with
  | [] => []
  | (h, off) :: r =>
      if L <? Z.of_nat (length acc) then []
      else let ls := g_walk g (tw_lists (d_tw s) h) in
           let l := L - Z.of_nat (length acc) in
           tw_dead now ls (d_win s) h off cutoff l ++
           match tw_lookup now ls (d_win s) h off cutoff l with
           | None => []
           | Some es => topics_dead s now g L cutoff r (acc ++ map w_seq es)
           end
  end.
(** db.go:222-244, see [db_get]. *)
Definition get_dead (c : dcfg) (s : db) (now : Z) (g : gchoice) (q : query) : list wentry :=
  if d_closed s then []
  else if Nat.eqb (length (q_topic q)) 0 then []
  else if (maxTopicLength <? N.of_nat (length (q_topic q)))%N then []
  else
  let contract := if (q_contract q =? 0)%N then MasterContract else q_contract q in
  let t := parse_topic contract (q_topic q) in
  let ft := add_contract contract t in
  let (L, cutoff) := parse_limit (c_def c) (c_max c) (q_limit q) (q_cutoff q)
                                 (topic_last (c_pd c) now (t_options t)) in
  let tops := g_topics g (trie_lookup (d_trie s) (t_parts ft) (t_depth ft) (t_type ft)) in
  topics_dead s now g L cutoff tops (q_win q).

(** expiry_window.go:59-62 with db_internal.go:38: [FindBlock] over 100000
    blocks; none is ever removed, so the first block tried is the answer
    (hash/consistent.go:73-86; the number is cut to 16 bits). *)
Definition expiry_shard (key : N) : nat := N.to_nat (wrap16 (fastMod (fl_d (fleaInit key)) 100000)).
