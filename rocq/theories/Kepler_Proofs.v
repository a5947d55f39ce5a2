From Coq Require Import Reals Lra Lia Psatz.
From Verif Require Import Real_Math Real_Math_Proofs Vector_Model Vector_Proofs Vector_Proofs2 Geo_Model Geo_Spec Geo_Proofs Geo_Proofs2 Kepler_Model Kepler_Spec.
Open Scope R_scope.

(** * The orbital basis *)
Lemma ahead_eq i Om u : ahead i Om u =
  V3 (- (cos Om * sin u) - sin Om * cos u * cos i) (- (sin Om * sin u) + cos Om * cos u * cos i) (sin i * cos u).
Proof.
  unfold ahead, along.
  replace (cos (u + PI / 2)) with (- sin u) by (rewrite cos_plus, cos_PI2, sin_PI2; ring).
  replace (sin (u + PI / 2)) with (cos u) by (rewrite sin_plus, cos_PI2, sin_PI2; ring).
  apply vec_ext; cbn; ring.
Qed.
Lemma cos_sq' a : cos a * cos a = 1 - sin a * sin a. Proof. pose proof (sc2 a). lra. Qed.
Lemma cos2' a : cos a ^ 2 = 1 - sin a ^ 2. Proof. pose proof (sc2 a). nra. Qed.
Ltac trig3 i Om u :=
  let a := fresh in let b := fresh in let c := fresh in
  pose proof (cos2' i) as a; pose proof (cos2' Om) as b; pose proof (cos2' u) as c;
  generalize dependent (cos i); generalize dependent (cos Om); generalize dependent (cos u);
  intros cu ?  cO ? ci ?.
Lemma along_along i Om u : dot (along i Om u) (along i Om u) = 1.
Proof.
  unfold dot, along; cbn. pose proof (sc2 i) as A; pose proof (sc2 Om) as B; pose proof (sc2 u) as C.
  set (si := sin i) in *; set (ci := cos i) in *; set (so := sin Om) in *; set (co := cos Om) in *; set (su := sin u) in *; set (cu := cos u) in *.
  replace 1 with ((su * su + cu * cu)) by lra.
  transitivity ((so * so + co * co) * (cu * cu + su * su * (ci * ci)) + si * si * (su * su)); [ring|].
  rewrite B. replace (ci * ci) with (1 - si * si) by lra. ring.
Qed.
Lemma ahead_ahead i Om u : dot (ahead i Om u) (ahead i Om u) = 1.
Proof. apply along_along. Qed.
Lemma along_ahead i Om u : dot (along i Om u) (ahead i Om u) = 0.
Proof.
  rewrite ahead_eq. unfold dot, along; cbn. pose proof (sc2 i) as A; pose proof (sc2 Om) as B.
  set (si := sin i) in *; set (ci := cos i) in *; set (so := sin Om) in *; set (co := cos Om) in *; set (su := sin u) in *; set (cu := cos u) in *.
  transitivity (su * cu * (- (so * so + co * co) + (so * so + co * co) * (ci * ci) + si * si)); [ring|].
  rewrite B. replace (ci * ci) with (1 - si * si) by lra. ring.
Qed.
Lemma cross_along i Om u : cross (along i Om u) (ahead i Om u) = pole i Om.
Proof.
  rewrite ahead_eq. unfold cross, along, pole; cbn. pose proof (sc2 u) as C; pose proof (sc2 Om) as B.
  set (si := sin i) in *; set (ci := cos i) in *; set (so := sin Om) in *; set (co := cos Om) in *; set (su := sin u) in *; set (cu := cos u) in *.
  apply vec_ext; cbn.
  - transitivity (si * so * (su * su + cu * cu)); [ring|]. rewrite C. ring.
  - transitivity (- (si * co * (su * su + cu * cu))); [ring|]. rewrite C. ring.
  - transitivity (ci * ((so * so + co * co) * (su * su + cu * cu))); [ring|]. rewrite C, B. ring.
Qed.
Lemma cross_along_pole i Om u : cross (along i Om u) (pole i Om) = vopp (ahead i Om u).
Proof.
  rewrite ahead_eq. unfold cross, along, pole; cbn. pose proof (sc2 i) as A; pose proof (sc2 Om) as B.
  set (si := sin i) in *; set (ci := cos i) in *; set (so := sin Om) in *; set (co := cos Om) in *; set (su := sin u) in *; set (cu := cos u) in *.
  apply vec_ext; cbn.
  - transitivity (co * su * (si * si + ci * ci) + so * cu * ci); [ring|]. rewrite A. ring.
  - transitivity (so * su * (si * si + ci * ci) - co * cu * ci); [ring|]. rewrite A. ring.
  - transitivity (- (si * cu * (so * so + co * co))); [ring|]. rewrite B. ring.
Qed.
Lemma cross_ahead_pole i Om u : cross (ahead i Om u) (pole i Om) = along i Om u.
Proof.
  unfold ahead. rewrite cross_along_pole, ahead_eq. unfold along. apply vec_ext; cbn;
  replace (cos (u + PI / 2)) with (- sin u) by (rewrite cos_plus, cos_PI2, sin_PI2; ring);
  replace (sin (u + PI / 2)) with (cos u) by (rewrite sin_plus, cos_PI2, sin_PI2; ring); ring.
Qed.
Lemma along_turn i Om v w : along i Om w = vsub (smul (cos v) (along i Om (v + w))) (smul (sin v) (ahead i Om (v + w))).
Proof.
  rewrite ahead_eq. unfold along. pose proof (sc2 v) as A. apply vec_ext; cbn; rewrite ?cos_plus, ?sin_plus;
  set (sv := sin v) in *; set (cv := cos v) in *; set (sw := sin w); set (cw := cos w).
  - transitivity ((sv * sv + cv * cv) * (cos Om * cw - sin Om * sw * cos i)); [rewrite A; ring|ring].
  - transitivity ((sv * sv + cv * cv) * (sin Om * cw + cos Om * sw * cos i)); [rewrite A; ring|ring].
  - transitivity ((sv * sv + cv * cv) * (sin i * sw)); [rewrite A; ring|ring].
Qed.
Lemma pole_pole i Om : dot (pole i Om) (pole i Om) = 1.
Proof.
  unfold dot, pole; cbn. pose proof (sc2 i); pose proof (sc2 Om) as B.
  transitivity (sin i * sin i * (sin Om * sin Om + cos Om * cos Om) + cos i * cos i); [ring|]. rewrite B. lra.
Qed.

(** * The state of a set of elements *)
Section Elements.
Variables p e i Om w v mu : R.
Hypothesis p_pos : 0 < p.
Hypothesis mu_pos : 0 < mu.
Hypothesis ahead_pos : 0 < 1 + e * cos v.
Let r := p / (1 + e * cos v).
Let h := sqrt (p * mu).
Let u := v + w.
Let pos := fst (elements_vec p e i Om w v mu).
Let vel := snd (elements_vec p e i Om w v mu).
Lemma r_pos : 0 < r. Proof. unfold r. apply Rdiv_lt_0_compat; assumption. Qed.
Lemma h_sq : h * h = p * mu. Proof. unfold h. apply sqrt_sqrt. nra. Qed.
Lemma h_pos : 0 < h. Proof. unfold h. apply sqrt_lt_R0. nra. Qed.
Lemma pos_eq : pos = smul r (along i Om u). Proof. reflexivity. Qed.
Lemma vel_eq : vel = vadd (smul (h * e / p * sin v) (along i Om u)) (smul (h / r) (ahead i Om u)).
Proof.
  unfold vel. pose proof r_pos as Hr. rewrite ahead_eq. unfold elements_vec, along, u. fold r h. apply vec_ext; cbn; field; lra.
Qed.
Lemma state_length : vlength pos = r.
Proof.
  rewrite pos_eq, vlength_dot. pose proof r_pos.
  replace (dot (smul r (along i Om u)) (smul r (along i Om u))) with (r * r * dot (along i Om u) (along i Om u)) by (unfold dot; cbn; ring).
  rewrite along_along, Rmult_1_r. apply sqrt_square. lra.
Qed.
Lemma state_momentum : cross pos vel = smul h (pole i Om).
Proof.
  rewrite pos_eq, vel_eq, <- (cross_along i Om u). pose proof r_pos.
  set (A := along i Om u). set (B := ahead i Om u). unfold cross. apply vec_ext; cbn; field; lra.
Qed.
Lemma state_radial : dot pos vel = r * (h * e / p * sin v).
Proof.
  rewrite pos_eq, vel_eq. pose proof (along_along i Om u) as A. pose proof (along_ahead i Om u) as B.
  set (X := along i Om u) in *. set (Y := ahead i Om u) in *.
  transitivity (r * (h * e / p * sin v) * dot X X + r * (h / r) * dot X Y); [unfold dot; cbn; ring|]. rewrite A, B. ring.
Qed.
Lemma state_speed : dot vel vel = mu * (2 / r - (1 - e * e) / p).
Proof.
  rewrite vel_eq. pose proof (along_along i Om u) as A. pose proof (along_ahead i Om u) as B. pose proof (ahead_ahead i Om u) as C.
  set (X := along i Om u) in *. set (Y := ahead i Om u) in *. pose proof r_pos as Hr.
  transitivity ((h * e / p * sin v) * (h * e / p * sin v) * dot X X + 2 * ((h * e / p * sin v) * (h / r)) * dot X Y + (h / r) * (h / r) * dot Y Y); [unfold dot; cbn; ring|].
  rewrite A, B, C.
  transitivity ((h * h) * ((e / p * sin v) * (e / p * sin v) + 1 / r * (1 / r))); [field; lra|]. rewrite h_sq.
  unfold r. pose proof (sc2 v) as S.
  transitivity (mu / p * (e * e * (sin v * sin v) + (1 + e * cos v) * (1 + e * cos v))); [field; lra|].
  replace (sin v * sin v) with (1 - cos v * cos v) by lra. field. lra.
Qed.
Lemma state_laplace : laplace pos vel mu = smul e (along i Om w).
Proof.
  unfold laplace. rewrite state_momentum, state_length, (along_turn i Om v w). fold u.
  assert (E : cross vel (smul h (pole i Om)) = vadd (smul (- (h * h * e / p * sin v)) (ahead i Om u)) (smul (h * h / r) (along i Om u))).
  { rewrite vel_eq. pose proof (cross_along_pole i Om u) as A. pose proof (cross_ahead_pole i Om u) as B.
    pose proof r_pos as Hr.
    transitivity (vadd (smul (h * h * e / p * sin v) (cross (along i Om u) (pole i Om))) (smul (h * h / r) (cross (ahead i Om u) (pole i Om)))).
    { set (X := along i Om u). set (Y := ahead i Om u). set (Z := pole i Om). unfold cross. apply vec_ext; cbn; field; lra. }
    rewrite A, B. set (X := along i Om u). set (Y := ahead i Om u). apply vec_ext; cbn; ring. }
  rewrite E, h_sq, pos_eq. pose proof r_pos as Hr. set (X := along i Om u). set (Y := ahead i Om u).
  assert (P : p / r = 1 + e * cos v) by (unfold r; field; split; lra).
  assert (Q : cos v * e = p / r - 1) by lra.
  apply vec_ext; cbn.
  all: match goal with |- ?L = e * (cos v * ?x - sin v * ?y) => transitivity ((cos v * e) * x - e * sin v * y); [rewrite Q|ring] end.
  all: field; lra.
Qed.
End Elements.
