(** Model in binary64 of the matrices whose entries the code writes out, and of the
    rotations from the axes of the sky to those of the Earth, the horizon, and the ecliptic.
    Angles are given as floats: the polynomials and series that they come from are not
    part of this model. *)
From Coq Require Import ZArith.
From Verif Require Import Float64 SepF_Model RotF_Model.
Open Scope Z_scope.

Section Library.
Variables (sin cos : b64 -> b64).
(** precessionlib.py 47-69, the end of [compute_precession]. *)
Definition precession64 (eps0 psia omegaa chia : b64) : fmat :=
  let sa := sin eps0 in let ca := cos eps0 in
  let sb := sin (fneg psia) in let cb := cos (fneg psia) in
  let sc := sin (fneg omegaa) in let cc := cos (fneg omegaa) in
  let sd := sin chia in let cd := cos chia in
  FM (F3 (fsub (fmul cd cb) (fmul (fmul sb sd) cc))
         (fsub (fadd (fmul (fmul cd sb) ca) (fmul (fmul (fmul sd cc) cb) ca)) (fmul (fmul sa sd) sc))
         (fadd (fadd (fmul (fmul cd sb) sa) (fmul (fmul (fmul sd cc) cb) sa)) (fmul (fmul ca sd) sc)))
     (F3 (fsub (fmul (fneg sd) cb) (fmul (fmul sb cd) cc))
         (fsub (fadd (fmul (fmul (fneg sd) sb) ca) (fmul (fmul (fmul cd cc) cb) ca)) (fmul (fmul sa cd) sc))
         (fadd (fadd (fmul (fmul (fneg sd) sb) sa) (fmul (fmul (fmul cd cc) cb) sa)) (fmul (fmul ca cd) sc)))
     (F3 (fmul sb sc)
         (fsub (fmul (fmul (fneg sc) cb) ca) (fmul sa cc))
         (fadd (fmul (fmul (fneg sc) cb) sa) (fmul cc ca))).
(** nutationlib.py 44-69, [build_nutation_matrix]. *)
Definition nutation64 (mean_obliquity true_obliquity psi : b64) : fmat :=
  let cobm := cos mean_obliquity in let sobm := sin mean_obliquity in
  let cobt := cos true_obliquity in let sobt := sin true_obliquity in
  let cpsi := cos psi in let spsi := sin psi in
  FM (F3 cpsi (fmul (fneg spsi) cobm) (fmul (fneg spsi) sobm))
     (F3 (fmul spsi cobt)
         (fadd (fmul (fmul cpsi cobm) cobt) (fmul sobm sobt))
         (fsub (fmul (fmul cpsi sobm) cobt) (fmul cobm sobt)))
     (F3 (fmul spsi sobt)
         (fsub (fmul (fmul cpsi cobm) sobt) (fmul sobm cobt))
         (fadd (fmul (fmul cpsi sobm) sobt) (fmul cobm cobt))).
End Library.
(** constants.py 10. *)
Definition ASEC2RAD64 : b64 := fl 5723669695270813 (-70).
(** framelib.py 9-34, [build_matrix]: the floats are those of the literals -0.0166170,
    -0.0068192 and -0.01460. *)
Definition xi0 : b64 := fmul (fneg (fl 4789524160512994 (-58))) ASEC2RAD64.
Definition eta0 : b64 := fmul (fneg (fl 7862002324215011 (-60))) ASEC2RAD64.
Definition da0 : b64 := fmul (fneg (fl 8416326983629983 (-59))) ASEC2RAD64.
Definition bias64 : fmat :=
  let yx := fneg da0 in let zx := xi0 in let xy := da0 in let zy := eta0 in let xz := fneg xi0 in let yz := fneg eta0 in
  let half := fl 1 (-1) in
  let xx := fsub (of_Z 1) (fmul half (fadd (fmul yx yx) (fmul zx zx))) in
  let yy := fsub (of_Z 1) (fmul half (fadd (fmul yx yx) (fmul zy zy))) in
  let zz := fsub (of_Z 1) (fmul half (fadd (fmul zy zy) (fmul zx zx))) in
  FM (F3 xx xy xz) (F3 yx yy yz) (F3 zx zy zz).

(** The turns that they stand for. precessionlib.py 56-57: R3(chi_a) R1(-omega_a)
    R3(-psi_a) R1(epsilon_0), where R1 and R3 turn the other way round. *)
Definition precession_turns (eps0 psia omegaa chia : b64) : turns :=
  Times (Turn Z (fneg chia)) (Times (Turn X omegaa) (Times (Turn Z psia) (Turn X (fneg eps0)))).
Definition nutation_turns (mean_obliquity true_obliquity psi : b64) : turns :=
  Times (Turn X true_obliquity) (Times (Turn Z psi) (Turn X (fneg mean_obliquity))).
Definition bias_turns : turns := Times (Turn X eta0) (Times (Turn Y (fneg xi0)) (Turn Z (fneg da0))).

(** The angles of a date: of precession, of nutation, sidereal time, and the pole. *)
Record angles := Angles { a_eps0 : b64; a_psia : b64; a_omegaa : b64; a_chia : b64; a_mean : b64; a_true : b64; a_psi : b64; a_gast : b64; a_pole : option (b64 * b64 * b64) }.
Section Frames.
Variables (sin cos : b64 -> b64).
(** timelib.py 749-767, [M]: [mxmxm(N, P, B)]. *)
Definition M_turns (t : angles) : turns :=
  Thrice (Given (nutation64 sin cos (a_mean t) (a_true t) (a_psi t)) 4 (nutation_turns (a_mean t) (a_true t) (a_psi t)))
         (Given (precession64 sin cos (a_eps0 t) (a_psia t) (a_omegaa t) (a_chia t)) 9 (precession_turns (a_eps0 t) (a_psia t) (a_omegaa t) (a_chia t)))
         (Given bias64 14 bias_turns).
(** timelib.py 893-899, [polar_motion_matrix]; the angles y, x and -sprime in radians. *)
Definition polar_turns (y x s : b64) : turns := Thrice (Turn X y) (Turn Y x) (Turn Z s).
(** framelib.py 134-138, [itrs.rotation_at]; [a_gast] is [-t.gast * tau / 24.0]. *)
Definition itrs_turns (t : angles) : turns :=
  let R := Times (Turn Z (a_gast t)) (M_turns t) in
  match a_pole t with None => R | Some (y, x, s) => Times (polar_turns y x s) R end.
(** toposlib.py 118-120, [GeographicPosition.rotation_at]. *)
Definition altaz_turns (lat lon : b64) (t : angles) : turns := Times (horizon_turns lat lon) (itrs_turns t).
(** framelib.py 148-152, [build_ecliptic_matrix]. *)
Definition ecliptic_turns (t : angles) : turns := Times (Turn X (fneg (a_true t))) (M_turns t).
End Frames.
