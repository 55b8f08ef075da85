(** Histories of the window file, and what a lookup should give. *)
From Verif Require Import M_Bytes M_File M_WinBlock M_Query M_Window.
Open Scope Z_scope.

(** Entries as they are appended: a sequence number above 0, and their time. *)
Definition went_ok (e : wentry) : Prop := (0 < w_seq e < 2 ^ 64)%N /\ (w_expiresAt e < 2 ^ 32)%N.

(** For every topic: the offset the trie holds, and what was appended, oldest
    first, with the time of the append in seconds. *)
Notation offsets := (N -> Z).
Notation hist := (N -> list (wentry * Z)).
Definition fset {A} (f : N -> A) (h : N) (x : A) : N -> A := fun k => if (k =? h)%N then x else f k.

(** What the sync code does to a window file that begins empty.  [first] is the
    topic appended first of all, [T] the time of the last append.  Blocks up to
    2^31 bytes. *)
Inductive win_run : winwriter -> offsets -> hist -> option N -> Z -> Prop :=
| wr_new : win_run (newWindowWriter []) (fun _ => 0) (fun _ => []) None 0
| wr_append w off H first T now h es w' o :
    win_run w off H first T -> (h < 2 ^ 64)%N -> es <> [] -> Forall went_ok es ->
    T <= unix now < 2 ^ 63 -> ww_idx w + Z.of_nat (length es) < 524286 ->
    ww_append now w h (off h) es = AppOk w' o ->
    win_run w' (fset off h o) (fset H h (H h ++ map (fun e => (e, unix now)) es))
            (match first with None => Some h | _ => first end) (unix now)
| wr_write w off H first T w' :
    win_run w off H first T -> ww_write w = Some w' -> win_run (ww_reset w') off H first T
| wr_again w off H first T w' :
    win_run w off H first T -> ww_write w = Some w' -> ww_idx w < 524286 ->
    win_run (newWindowWriter (ww_file w')) off H first T.

(** Newest first, without the expired ones. *)
Definition live_desc (now : Z) (l : list (wentry * Z)) : list wentry := filter (we_live now) (rev (map fst l)).

(** The lists of a topic in memory, each newest first. *)
Definition live_lists (now : Z) (ls : list (list wentry)) : list wentry :=
  concat (map (fun es => filter (we_live now) (rev es)) ls).
Definition total (ls : list (list wentry)) : nat := length (concat ls).
