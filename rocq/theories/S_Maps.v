(* When the Go runtime ends the process because of a map. *)

From Coq Require Import List Arith Bool.
Import ListNotations.
From Verif Require Import M_Locks M_Maps.

(* The goroutine is about to write the map, or to use it at all. *)
Definition writes (m : gmap) (t : gthread) : Prop := exists p, gt_prog t = Wr m :: p.

Definition uses (m : gmap) (t : gthread) : Prop :=
  exists p, gt_prog t = Wr m :: p \/ gt_prog t = Rd m :: p.

(* One goroutine writes the map while another one uses it. *)
Definition map_race (m : gmap) (ts : list gthread) : Prop :=
  exists i j ti tj, i <> j /\ nth_error ts i = Some ti /\ nth_error ts j = Some tj /\
                    writes m ti /\ uses m tj.

(* Never, however the goroutines, one for each of the calls, are scheduled. *)
Definition never_race (m : gmap) (cs : list dbcall) : Prop :=
  forall is ts, grun (map (fun c => gstart (db_maps c)) cs) is = Some ts -> ~ map_race m ts.

(* Some schedule leads there. *)
Definition may_race (m : gmap) (cs : list dbcall) : Prop :=
  exists is ts, grun (map (fun c => gstart (db_maps c)) cs) is = Some ts /\ map_race m ts.

(* The maps of the query manager of memdb. *)
Definition of_query (m : gmap) : bool :=
  match m with QF | QR | QB => true | _ => false end.

(* The cache of free blocks. *)
Definition of_lease (m : gmap) : bool :=
  match m with FC _ => true | _ => false end.

(* The calls that read messages. *)
Definition gets (c : dbcall) : bool :=
  match c with DGet _ _ _ => true | DMem (MGet _) => true | _ => false end.

(* The calls that look whether their topic is new take this shard of the locks. *)
Definition topic_shard (k : nat) (c : dbcall) : Prop :=
  match c with DPut _ _ _ (Some (m, _)) => m = k | _ => True end.
