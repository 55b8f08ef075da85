(* Proofs about the maps: the lists of M_Maps lock as those of M_Locks; every use of a
   guarded map is made with the locks that guard it. *)

From Coq Require Import List Arith Bool Lia.
Import ListNotations.
From Verif Require Import M_Locks S_Locks M_Maps S_Maps.

(* ---- the locks are those of M_Locks ---- *)

Lemma erase_app p q : erase (p ++ q) = erase p ++ erase q.
Proof.
  induction p as [|a p IH]; [reflexivity|].
  destruct a; cbn [app erase]; rewrite IH; reflexivity.
Qed.

Lemma erase_gbr l m p : erase (gbr l m p) = br l m (erase p).
Proof. unfold gbr, br. cbn [erase]. rewrite erase_app. reflexivity. Qed.

Lemma erase_plain p : erase (plain p) = p.
Proof. induction p as [|a p IH]; [reflexivity|]. cbn. unfold plain in IH. rewrite IH. reflexivity. Qed.

Lemma erase_flat {A} (f : A -> list mact) (g : A -> list act) xs :
  (forall x, erase (f x) = g x) -> erase (flat_map f xs) = flat_map g xs.
Proof.
  intros H. induction xs as [|x xs IH]; [reflexivity|].
  cbn [flat_map]. rewrite erase_app, H, IH. reflexivity.
Qed.

Ltac er := repeat first [rewrite erase_app | rewrite erase_gbr | rewrite erase_plain | progress cbn [erase app]
                        | rewrite <- app_assoc | rewrite app_nil_r].

Lemma e_add_filter f fr : erase (g_add_filter f fr) = add_filter f fr.
Proof. unfold g_add_filter, add_filter. destruct fr; er; reflexivity. Qed.

Lemma e_put t x : erase (g_put t x) = mem_put t x.
Proof.
  unfold g_put, mem_put. destruct x as [[[b f] fr]|]; er; [|reflexivity].
  rewrite e_add_filter. reflexivity.
Qed.

Lemma e_lookup b : erase (g_lookup b) = mem_lookup b.
Proof. unfold g_lookup, mem_lookup. destruct b; er; reflexivity. Qed.

Lemma e_seek_loop f tries : erase (g_seek_loop f tries) = seek_loop f tries.
Proof.
  induction tries as [|[[b|] h] r IH]; [reflexivity| |]; cbn [g_seek_loop seek_loop].
  - destruct h; er; [rewrite ?app_nil_r; reflexivity|]. rewrite IH. reflexivity.
  - er. rewrite IH. reflexivity.
Qed.

Lemma e_seek f tries : erase (g_seek f tries) = mem_seek f tries.
Proof. unfold g_seek, mem_seek. er. rewrite e_seek_loop. reflexivity. Qed.

Lemma e_get_rest cur blocks : erase (g_get_rest cur blocks) = get_rest cur blocks.
Proof.
  unfold g_get_rest, get_rest.
  assert (E : erase (gbr Db R [Rd QF] ++ [Rd QR]
              ++ flat_map (fun y : nat * bool => Rd QB :: gbr (Block (fst y)) R [Rd (BR (fst y))]
                                                 ++ if snd y then gbr (Block (fst y)) R [] else [Rd QR]) blocks
              ++ if existsb snd blocks then [] else [Wr QF])
    = br Db R []
      ++ flat_map (fun y : nat * bool => br (Block (fst y)) R []
                                         ++ if snd y then br (Block (fst y)) R [] else []) blocks).
  { er.
    rewrite (erase_flat _ (fun y : nat * bool => br (Block (fst y)) R [] ++ if snd y then br (Block (fst y)) R [] else []) blocks).
    2:{ intros [b h]. cbn [fst snd]. destruct h; er; reflexivity. }
    replace (erase (if existsb snd blocks then [] else [Wr QF])) with (@nil act) by (destruct (existsb snd blocks); reflexivity).
    rewrite app_nil_r. reflexivity. }
  cbn zeta. cbn [erase]. destruct cur as [[b []]|]; [er; reflexivity| |exact E].
  rewrite erase_app, E, erase_gbr. reflexivity.
Qed.

Lemma e_get_round x : erase (g_get_round x) = get_round x.
Proof.
  destruct x as [[sk cur] blocks]. unfold g_get_round, get_round. er.
  destruct sk as [[f tries]|]; [|rewrite e_get_rest; reflexivity].
  er. rewrite e_seek. destruct (existsb snd tries); [rewrite e_get_rest|]; reflexivity.
Qed.

Lemma e_get rs : erase (g_get rs) = mem_get rs.
Proof. unfold g_get, mem_get. apply erase_flat. apply e_get_round. Qed.

Lemma e_release b n : erase (g_release_log b n) = release_log b n.
Proof. unfold g_release_log, release_log. destruct b; er; reflexivity. Qed.

Lemma e_move t b : erase (g_move t b) = mem_move t b.
Proof. unfold g_move, mem_move. destruct b; er; reflexivity. Qed.

Lemma e_iterate t bs : erase (g_iterate t bs) = iterate t (map (fun x => (fst x, erase (snd x))) bs).
Proof.
  unfold g_iterate, iterate. er. do 2 f_equal.
  induction bs as [|[b q] bs IH]; [reflexivity|].
  cbn [flat_map map fst snd]. rewrite erase_app. rewrite IH. f_equal.
  destruct b; er; reflexivity.
Qed.

Lemma e_delete f t tries hit : erase (g_delete f t tries hit) = mem_delete f t tries hit.
Proof.
  unfold g_delete, mem_delete. er.
  rewrite (erase_flat _ (fun x : option nat => br Db R [] ++ match x with
                                      | None => []
                                      | Some b => br (Block b) R [] ++ br (Filter f) R []
                                      end) tries).
  2:{ intros [b|]; er; reflexivity. }
  do 3 f_equal. destruct hit as [[[[tl b] e] nx]|]; [|reflexivity]. er.
  do 5 f_equal.
  - f_equal. destruct e as [n|]; [|reflexivity]. er.
    rewrite (erase_flat _ (fun _ => br Db R [])); [reflexivity|]. intros; er. reflexivity.
  - destruct nx; [apply e_release | apply e_move].
Qed.

Lemma e_tiny_write tl t b : erase (g_tiny_write tl t b) = tiny_write tl t b.
Proof. unfold g_tiny_write, tiny_write. destruct b as [[b []]|]; er; reflexivity. Qed.

Lemma e_tiny_commit tl t b m : erase (g_tiny_commit tl t b m) = tiny_commit tl t b m.
Proof. unfold g_tiny_commit, tiny_commit. er. rewrite e_tiny_write. destruct m; er; reflexivity. Qed.

Lemma e_tick t fl w : erase (g_tick t fl w) = tick t fl w.
Proof. unfold g_tick, tick. destruct fl as [[b|]|], w; er; reflexivity. Qed.

Lemma e_batch_put t x : erase (g_batch_put t x) = batch_put t x.
Proof.
  unfold g_batch_put, batch_put. destruct x as [[[b f] fr]|]; er; [|reflexivity].
  rewrite e_add_filter. reflexivity.
Qed.

Lemma e_mem c : erase (mem_maps c) = mem_locks c.
Proof.
  destruct c; cbn [mem_maps mem_locks].
  - apply e_put.
  - apply e_get.
  - apply e_lookup.
  - apply e_delete.
  - rewrite e_iterate, map_map. reflexivity.
  - apply e_release.
  - apply e_tick.
  - apply e_tiny_commit.
  - reflexivity.
  - apply e_batch_put.
  - unfold g_batch_write, batch_write, g_batch_new, batch_new. er. reflexivity.
  - unfold g_batch_commit, batch_commit, g_batch_write, batch_write, g_batch_new, batch_new. er. f_equal. f_equal.
    apply erase_flat. intros. er. reflexivity.
  - unfold g_batch_abort, batch_abort. apply erase_flat. intros. apply e_release.
  - unfold g_keys, mem_keys. er. f_equal. apply erase_flat. intros. er. reflexivity.
  - unfold g_size, mem_size. er. f_equal. apply erase_flat. intros. er. reflexivity.
Qed.

Lemma e_trie_add m ps : erase (g_trie_add m ps) = trie_add m ps.
Proof.
  unfold g_trie_add, trie_add. er. f_equal. destruct ps as [ps|]; [|reflexivity]. er. f_equal.
  apply erase_flat. intros []; er; reflexivity.
Qed.

Lemma e_add_expiry k : erase (g_add_expiry k) = add_expiry k.
Proof. unfold g_add_expiry, add_expiry. er. reflexivity. Qed.

Lemma e_window_lookup x : erase (g_window_lookup x) = window_lookup x.
Proof.
  destruct x as [[w mem] file]. unfold g_window_lookup, window_lookup. er.
  rewrite (erase_flat _ add_expiry) by apply e_add_expiry. do 2 f_equal.
  destruct file; er; [|reflexivity]. rewrite (erase_flat _ add_expiry) by apply e_add_expiry. reflexivity.
Qed.

Lemma e_db_get k ts es : erase (g_db_get k ts es) = db_get k ts es.
Proof.
  unfold g_db_get, db_get. er.
  rewrite (erase_flat _ window_lookup) by apply e_window_lookup.
  rewrite (erase_flat _ mem_get) by apply e_get. reflexivity.
Qed.

Lemma e_sync_block b n ls tp rl rf : erase (g_sync_block b n ls tp rl rf) = sync_block b n ls tp rl rf.
Proof.
  unfold g_sync_block, sync_block. er.
  rewrite (erase_flat _ (fun _ => mem_lookup (Some b) ++ br FBloom W [])).
  2:{ intros. er. rewrite e_lookup. reflexivity. }
  rewrite (erase_flat _ (fun _ => br Trie R [] ++ br Trie W [])).
  2:{ intros. er. reflexivity. }
  rewrite (erase_flat _ (fun l => br (Lease l) W [])).
  2:{ intros. er. reflexivity. }
  rewrite (erase_flat _ (fun w => br Wbs R [] ++ br (Wb w) W [])).
  2:{ intros. er. reflexivity. }
  rewrite e_release. reflexivity.
Qed.

Lemma e_sync_blocks bs : map (fun x => (fst x, erase (snd x))) (g_sync_blocks bs) = sync_blocks bs.
Proof.
  unfold g_sync_blocks, sync_blocks. rewrite map_map. apply map_ext. intros x. cbn [fst snd].
  destruct (sb_block x); [rewrite e_sync_block|]; reflexivity.
Qed.

Lemma e_lock_all n : forall k, erase (g_lock_all k n) = lock_all k n.
Proof. induction n as [|n IH]; intros k; [reflexivity|]. cbn [g_lock_all lock_all]. er. rewrite IH. reflexivity. Qed.

Theorem locks_same c : erase (db_maps c) = db_locks c.
Proof.
  destruct c; cbn [db_maps db_locks].
  - unfold g_db_put, db_put, g_window_add, window_add. er. rewrite e_put. do 4 f_equal.
    destruct topic as [[m ps]|]; [apply e_trie_add|reflexivity].
  - apply e_db_get.
  - unfold g_db_delete, db_delete. er. rewrite e_delete. f_equal.
    destruct disk; er; [|reflexivity]. destruct synced; er; reflexivity.
  - unfold g_db_sync. destruct work as [[[t sh] bs]|]; er; [|reflexivity].
    rewrite (erase_flat _ (fun w => br (Wb w) R [])).
    2:{ intros. er. reflexivity. }
    rewrite e_iterate, e_sync_blocks. reflexivity.
  - unfold g_db_expire, db_expire. er. rewrite e_lock_all. do 2 f_equal. apply erase_flat. intros. er. reflexivity.
  - reflexivity.
  - apply e_mem.
Qed.
