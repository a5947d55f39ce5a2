(** Vocabulary for the properties of orbits. *)
From Coq Require Import Reals.
From Verif Require Import Real_Math Vector_Model Geo_Model Geo_Spec.
Open Scope R_scope.

(** The unit vector in the orbit at the angle [u] from the ascending node, the one
    90 degrees ahead of it, and the pole of the orbit. *)
Definition along (i Om u : R) : vec :=
  V3 (cos Om * cos u - sin Om * sin u * cos i) (sin Om * cos u + cos Om * sin u * cos i) (sin i * sin u).
Definition ahead (i Om u : R) : vec := along i Om (u + PI / 2).
Definition pole (i Om : R) : vec := V3 (sin i * sin Om) (- (sin i * cos Om)) (cos i).
(** The eccentricity vector of a state: it points to periapsis. *)
Definition laplace (pos vel : vec) (mu : R) : vec :=
  vsub (smul (/ mu) (cross vel (cross pos vel))) (smul (/ vlength pos) pos).
(** A motion under the attraction of a mass at the origin. *)
Definition newtonian (gm : R) (P V : R -> vec) : Prop := forall t,
  P t <> vzero /\ vderiv P t (V t) /\ vderiv V t (smul (- gm / vlength (P t) ^ 3) (P t)).
(** Kepler's equation for the three kinds of orbits; [v] is the true anomaly. *)
Definition elliptic_mean_anomaly (e E : R) : R := E - e * sin E.
Definition hyperbolic_mean_anomaly (e F : R) : R := e * sinh F - F.
Definition parabolic_time (q gm v : R) : R := sqrt (2 * q ^ 3 / gm) * (tan (v / 2) + tan (v / 2) ^ 3 / 3).
(** The true anomaly [v] seen from the eccentric anomaly. *)
Definition seen_elliptic (e E v : R) : Prop :=
  cos v = (cos E - e) / (1 - e * cos E) /\ sin v = sqrt (1 - e * e) * sin E / (1 - e * cos E).
Definition seen_hyperbolic (e F v : R) : Prop :=
  cos v = (e - cosh F) / (e * cosh F - 1) /\ sin v = sqrt (e * e - 1) * sinh F / (e * cosh F - 1).
(** The Stumpff functions. *)
Definition stumpff0 (x : R) : R := if Rlt_dec 0 x then cos (sqrt x) else cosh (sqrt (- x)).
Definition stumpff1 (x : R) : R :=
  if Rlt_dec 0 x then sin (sqrt x) / sqrt x else if Rlt_dec x 0 then sinh (sqrt (- x)) / sqrt (- x) else 1.
Definition stumpff2 (x : R) : R := if Req_EM_T x 0 then 1 / 2 else (1 - stumpff0 x) / x.
Definition stumpff3 (x : R) : R := if Req_EM_T x 0 then 1 / 6 else (1 - stumpff1 x) / x.
Definition exact (x : R) : R * R * R * R := (stumpff0 x, stumpff1 x, stumpff2 x, stumpff3 x).
(** Equal up to a whole number of turns. *)
Definition same_angle (a b : R) : Prop := exists k : Z, a = b + tau * IZR k.
(** The periapsis distance of a state. *)
Definition closest (pos vel : vec) (gm : R) : R := dot (cross pos vel) (cross pos vel) / (gm * (1 + vlength (laplace pos vel gm))).
(** Kepler's equation in the universal variable takes [x] to a time that is at least
    [pace x] away; [reach] is the largest [x] that a time [dt] can need. *)
Definition pace (pos vel : vec) (gm : R) : R := sqrt (closest pos vel gm / gm) * closest pos vel gm.
Definition reach (pos vel : vec) (gm dt : R) : R := Rabs dt / pace pos vel gm.
(** How far the result of 64 halvings, with Stumpff functions that are right to 1e-18,
    may be from the motion: [drift] bounds the effect of the functions on the distance,
    [miss] the distance from the root of Kepler's equation. *)
Definition growth (pos vel : vec) (gm x : R) : R := cosh (sqrt (Rmax 0 (vlength (laplace pos vel gm) - 1)) * x).
Definition drift (pos vel : vec) (gm x : R) : R :=
  let b := sqrt (closest pos vel gm / gm) in
  (b * vlength pos + b * b * Rabs (dot pos vel) * x + pace pos vel gm * (x * x)) / 10 ^ 18.
Definition miss (pos vel : vec) (gm x : R) : R := x / 2 ^ 66 + x * drift pos vel gm x / pace pos vel gm.
Definition position_slack (pos vel : vec) (gm dt : R) : R :=
  let x := 2 * reach pos vel gm dt in
  (closest pos vel gm * x + pace pos vel gm * vlength vel * (x * x / 2)) * growth pos vel gm x * miss pos vel gm x +
  (closest pos vel gm * (x * x) + pace pos vel gm * vlength vel * x ^ 3) / 10 ^ 18.
Definition velocity_slack (pos vel : vec) (gm dt : R) : R :=
  let x := 2 * reach pos vel gm dt in
  let b := sqrt (closest pos vel gm / gm) in
  let r := vlength pos in
  let C := pace pos vel gm in
  (r / C + (x * x / 2 / b + vlength vel * (b * r * x + b * b * Rabs (dot pos vel) * (x * x / 2)) / C) * growth pos vel gm x) * miss pos vel gm x +
  closest pos vel gm * (2 * x / C / 10 ^ 18 + 2 * (x * growth pos vel gm x) * drift pos vel gm x / (C * C)) +
  vlength vel * (2 * (x * x) / 10 ^ 18 + 2 * (x * x / 2 * growth pos vel gm x) * drift pos vel gm x / C).
(** Four numbers within [eps] of four others. *)
Definition close4 (eps : R) (a b : R * R * R * R) : Prop :=
  let '(a0, a1, a2, a3) := a in let '(b0, b1, b2, b3) := b in
  Rabs (a0 - b0) <= eps /\ Rabs (a1 - b1) <= eps /\ Rabs (a2 - b2) <= eps /\ Rabs (a3 - b3) <= eps.
