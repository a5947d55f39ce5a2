(** Vocabulary for the arguments of the complementary terms. *)
From Coq Require Import Reals List.
From Verif Require Import PrecF_Spec FundF_Spec.
Import ListNotations.
Open Scope R_scope.

(** Souchay and others, 1999: mean longitudes of the planets and accumulated precession in
    radians, from centuries. *)
Definition mercury_longitude (T : R) : R := (4402608842 / 10 ^ 9) + (26087903141574 / 10 ^ 10) * T.
Definition venus_longitude (T : R) : R := (3176146697 / 10 ^ 9) + (10213285546211 / 10 ^ 10) * T.
Definition earth_longitude (T : R) : R := (1753470314 / 10 ^ 9) + (6283075849991 / 10 ^ 10) * T.
Definition mars_longitude (T : R) : R := (6203480913 / 10 ^ 9) + (33406124267 / 10 ^ 8) * T.
Definition jupiter_longitude (T : R) : R := (599546497 / 10 ^ 9) + (529690962641 / 10 ^ 10) * T.
Definition saturn_longitude (T : R) : R := (874016757 / 10 ^ 9) + (21329910496 / 10 ^ 9) * T.
Definition uranus_longitude (T : R) : R := (5481293872 / 10 ^ 9) + (74781598567 / 10 ^ 10) * T.
Definition neptune_longitude (T : R) : R := (5311886287 / 10 ^ 9) + (38133035638 / 10 ^ 10) * T.
Definition accumulated_precession (T : R) : R := ((2438175 / 10 ^ 8) + (538691 / 10 ^ 11) * T) * T.
(** The fourteen arguments in radians; the first five are those of FundF_Spec. *)
Definition all_arguments : list (R -> R) :=
  map (fun f T => f T * arcsecond_25) mean_arguments ++
  [mercury_longitude; venus_longitude; earth_longitude; mars_longitude; jupiter_longitude; saturn_longitude; uranus_longitude; neptune_longitude; accumulated_precession].
