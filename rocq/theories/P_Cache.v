(** Properties of the cached attributes of a time. *)
From Coq Require Import List Bool ZArith.
From Verif Require Import Cache_Model Cache_Spec Cache_Proofs.
Import ListNotations.

(** Numerical routines that keep everything apart. *)
Definition some_routines : routines Z := {|
  r_tt := 1; r_tai_fraction := 2; r_tdb_fraction := 3; r_delta_t := 4; r_J := 5; r_iau2000a := 6; r_iau2000b := 7;
  r_ut1_fraction := fun d => 10 + d; r_plus_whole := fun f => 1000 + f; r_tai_seconds := fun f => 20 + f;
  r_utc := fun s => 30 + s; r_leap_seconds := fun s => 40 + s; r_dut1 := fun l d => l - d; r_obliquity := fun t => 50 + t;
  r_gmst := fun u t => 3 * u + t; r_gast := fun n o g => 7 * n + o + g; r_precession := fun t => 60 + t;
  r_nutation := fun n o => 11 * n + o; r_mxmxm := fun n p => 13 * n + p; r_transpose := fun m => - m;
  r_C := fun u g m => u + 17 * g + 19 * m |}%Z.
(** What [ts.tdb_jd] leaves in the object. *)
Definition new_tdb : cache Z := fun a => match a with tdb_fraction => Some 99%Z | _ => None end.
Example new_tdb_fresh : fresh new_tdb.
Proof. intros a H. destruct a; try (exfalso; apply H; reflexivity). auto. Qed.

(** * C57 *)
(** Reads alone, other than of the deprecated matrices, change nothing. *)
Theorem C57_reads_change_nothing_partial : forall V (r : routines V) c0 ops n,
  fresh c0 -> only_reads ops -> avoids_deprecated ops ->
  value V r n (run V r ops c0) = value V r n c0.
Proof. exact (fun V r c0 ops n F => reads_history V r c0 ops n (fresh_clean V c0 F)). Qed.
Print Assumptions C57_reads_change_nothing_partial.
Definition some_reads := [Read (Attr gast); Read Tdb; Read (Attr CT); Read (Attr dut1)].
Example C57_reads_ex : only_reads some_reads /\ avoids_deprecated some_reads /\
  run Z some_routines some_reads new_tdb M <> None /\ value Z some_routines (Attr MT) new_tdb = Value (-16954)%Z.
Proof.
  split; [intros o [<-|[<-|[<-|[<-|[]]]]]; eexists; reflexivity|].
  split; [intros o n [<-|[<-|[<-|[<-|[]]]]] [<-|[]]; reflexivity|]. split; [discriminate|reflexivity].
Qed.

(** Nothing at all changes the attributes that involve no nutation. *)
Theorem C57_elementary_attributes_are_stable_partial : forall V (r : routines V) c0 ops n,
  elementary n = true -> value V r n (run V r ops c0) = value V r n c0.
Proof. exact plain_history. Qed.
Print Assumptions C57_elementary_attributes_are_stable_partial.

(** Once a time has been through an almanac function, further almanac calls and
    reads change nothing. *)
Theorem C57_stable_after_first_almanac_call_partial : forall V (r : routines V) c0 ops n,
  fresh c0 -> avoids_deprecated ops ->
  value V r n (run V r (Almanac [] :: ops) c0) = value V r n (run V r [Almanac []] c0).
Proof. exact after_first_almanac. Qed.
Print Assumptions C57_stable_after_first_almanac_call_partial.

(** An almanac call changes the nutation of the caller's time object. *)
Theorem C57_almanac_call_refuted : forall V (r : routines V) c0,
  r_iau2000a V r <> r_iau2000b V r -> fresh c0 ->
  value V r (Attr nutation_angles) (run V r [Almanac []] c0) <> value V r (Attr nutation_angles) c0.
Proof. exact almanac_changes. Qed.
Print Assumptions C57_almanac_call_refuted.

(** Made between reads, it leaves the object mixing both nutations: [C] is then
    neither what a new object gives nor what the almanac's object gives. *)
Theorem C57_mixed_nutation_refuted : exists V (r : routines V) c0, fresh c0 /\
  value V r (Attr C) (run V r [Read (Attr M); Almanac []] c0) <> value V r (Attr C) c0 /\
  value V r (Attr C) (run V r [Read (Attr M); Almanac []] c0) <> value V r (Attr C) (run V r [Almanac []] c0).
Proof. exists Z, some_routines, new_tdb. split; [exact new_tdb_fresh|]. split; vm_compute; discriminate. Qed.
Print Assumptions C57_mixed_nutation_refuted.

(** Reading [P] first, as the frame of the mean equator and equinox of date does,
    makes [M] raise TypeError. *)
Theorem C57_reading_P_breaks_M_refuted : forall V (r : routines V) c0, fresh c0 ->
  value V r (Attr M) (run V r [Read (Attr P)] c0) = TypeError /\ exists v, value V r (Attr M) c0 = Value v.
Proof. exact hidden_method. Qed.
Print Assumptions C57_reading_P_breaks_M_refuted.
