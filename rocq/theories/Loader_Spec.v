(** Vocabulary for the loader's methods. *)
From Coq Require Import List Ascii String ZArith Reals Bool.
From Coq Require Import List.
From Flocq Require Import Core.Core IEEE754.BinarySingleNaN.
From Verif Require Import Download_Model Files_Model Files_Spec Float64 Float64_Proofs SexaF_Spec Loader_Model.
Import ListNotations.
Open Scope list_scope.

(** A file name, perhaps with directories, whose last part is something other than dots
    followed by [ext]. *)
Definition has_extension (ext f : name) : Prop :=
  exists directories stem, f = directories ++ stem ++ ext /\ (directories = [] \/ exists d, directories = d ++ chars "/") /\
    ~ In "/"%char stem /\ exists c, In c stem /\ c <> "."%char.
(** Where the standard loader finds files. *)
Inductive found_at : name -> string -> Prop :=
| at_finals : found_at (chars "finals2000A.all") "https://datacenter.iers.org/products/eop/rapid/standard/"
| at_leaps : found_at (chars "Leap_Second.dat") "https://hpiers.obspm.fr/iers/bul/bulc/"
| at_moon : found_at (chars "moon_080317.tf") "https://naif.jpl.nasa.gov/pub/naif/generic_kernels/fk/satellites/"
| at_moon_pa : found_at (chars "moon_pa_de421_1900-2050.bpc") "https://naif.jpl.nasa.gov/pub/naif/generic_kernels/pck/"
| at_pck : found_at (chars "pck00008.tpc") "https://naif.jpl.nasa.gov/pub/naif/generic_kernels/pck/a_old_versions/"
| at_jupiter f r : has_extension (chars ".bsp") f -> f = chars "jup" ++ r ->
    found_at f "https://naif.jpl.nasa.gov/pub/naif/generic_kernels/spk/satellites/"
| at_jpl f : has_extension (chars ".bsp") f -> (forall r, f <> chars "jup" ++ r) -> found_at f "https://ssd.jpl.nasa.gov/ftp/eph/planets/bsp/".
(** What is done with a file. *)
Inductive parsed_by : name -> parser -> Prop :=
| by_deltat_data : parsed_by (chars "deltat.data") ParseDeltatData
| by_deltat_preds : parsed_by (chars "deltat.preds") ParseDeltatPreds
| by_leap_seconds : parsed_by (chars "Leap_Second.dat") ParseLeapSeconds.
Inductive opened_with : name -> opener -> Prop :=
| with_kernel f : has_extension (chars ".bsp") f -> opened_with f OpenKernel
| with_binary f ext : has_extension ext f -> In ext [chars ".bpc"; chars ".tpc"; chars ".tf"] -> opened_with f OpenBinary.
Definition plain_name (f : name) : Prop := forall c, In c f -> ~ In c (chars "/?#;:").
(** A number of seconds as build_timescale_arrays leaves it: the binary64 number nearest to
    a whole number of 1e-7 s. *)
Definition seven_digits (a : b64) : Prop := exists n : Z, (0 < n < 2 ^ 50)%Z /\ reads false (rnd (IZR n / 10000000)) a.
(** A Julian date between the years 1030 and 6771. *)
Definition modern_date (a : b64) : Prop := exists x, reads false x a /\ (2097152 <= x < 4194304)%R.
(** Which files a timescale is made from: the three of old versions if all are there,
    else finals2000A.all. *)
Definition legacy_present (dir : name) (exists_path : name -> bool) : Prop :=
  forall f, In f ["deltat.data"; "deltat.preds"; "Leap_Second.dat"]%string -> exists_path (path_to (new_loader dir) (chars f)) = true.
