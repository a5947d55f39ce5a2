(** The pole of the ecliptic of date (C148). *)
From Coq Require Import Reals ZArith List Lra Lia Psatz.
From Verif Require Import Real_Math Vector_Model Geo_Model Spin_Model Frames_Spec Frames_Proofs Precession_Spec Taylor_Models Precession_Proofs.
Import ListNotations.
Open Scope R_scope.

(** After the twelve of [angles4]: obliquity of date 12-14, of J2000 15-17, P 18, Q 19, u 20,
    the square root but for a remainder 21, the nine entries 22-30. *)
Definition pole_es (psi om chi eps pa qa : ex) : list ex := angles4 psi om chi ++ [
  TT eps Arcsec; Sin (Var 12); Cos (Var 12); TT (Poly [843814060000000]%Z 10000000000) Arcsec; Sin (Var 15); Cos (Var 15); TT pa Arcsec; TT qa Arcsec;
  Plus (TT (Var 18) (Var 18)) (TT (Var 19) (Var 19)); Minus (Minus (Poly [1]%Z 1) (TT (Poly [1]%Z 2) (Var 20))) (TT (Poly [1]%Z 8) (TT (Var 20) (Var 20)))] ++ entries4.
Definition turn_ex (x y z : ex) : list ex :=
  let r a b c := Plus (Plus (TT a x) (TT b y)) (TT c z) in let R1 := r (Var 22) (Var 23) (Var 24) in let R2 := r (Var 25) (Var 26) (Var 27) in let R3 := r (Var 28) (Var 29) (Var 30) in
  [R1; Plus (TT (Var 14) R2) (TT (Var 13) R3); Minus (TT (Var 14) R3) (TT (Var 13) R2)].
Definition pole_out : list ex :=
  match turn_ex (Var 18) (Minus (TT (Neg (Var 19)) (Var 17)) (TT (Var 21) (Var 16))) (Plus (TT (Neg (Var 19)) (Var 16)) (TT (Var 21) (Var 17))) with
  | [x; y; z] => [x; y; Minus z (Poly [1]%Z 1)] | _ => [] end.
Definition rest_out : list ex := turn_ex (Poly [0]%Z 1) (Neg (Var 16)) (Var 17).

Lemma root_near u : 0 <= u <= 1 / 2 -> Rabs (sqrt (1 - u) - (1 - 1 / 2 * u - 1 / 8 * (u * u))) <= u ^ 3.
Proof.
  intros U. set (a := 1 - 1 / 2 * u - 1 / 8 * (u * u)). assert (A : 1 / 2 <= a) by (unfold a; nra). set (q := sqrt (1 - u)). assert (Q : 0 <= q) by apply sqrt_pos.
  assert (Q2 : q * q = 1 - u) by (apply sqrt_sqrt; lra). assert (A2 : a * a = q * q + (u ^ 3 / 8 + u ^ 4 / 64)) by (rewrite Q2; unfold a; field).
  assert (C : 0 <= u ^ 3) by (apply pow_le; lra). assert (C4 : 0 <= u ^ 4 <= u ^ 3). { split; [apply pow_le; lra|]. replace (u ^ 4) with (u * u ^ 3) by ring. nra. }
  apply Rabs_le. split; [|nra]. assert ((a - q) * (a + q) = u ^ 3 / 8 + u ^ 4 / 64) by lra. nra.
Qed.
Lemma turned_pole (A : mat) (o e p q w w0 tol : R) :
  let r := fun w => mxv (rot_x (- o)) (mxv A (mxv (R1 (- e)) (V3 p (- q) w))) in
  vclose (r w0) (V3 0 0 1) tol -> (forall i, In i [vx; vy; vz] -> Rabs (i (mxv (rot_x (- o)) (mxv A (V3 0 (- sin e) (cos e))))) <= 2) ->
  vclose (r w) (V3 0 0 1) (tol + 2 * Rabs (w - w0)).
Proof.
  cbv zeta. intros (X & Y & Z) B. pose proof (B vx (or_introl eq_refl)) as BX. pose proof (B vy (or_intror (or_introl eq_refl))) as BY. pose proof (B vz (or_intror (or_intror (or_introl eq_refl)))) as BZ.
  set (g := mxv (rot_x (- o)) (mxv A (V3 0 (- sin e) (cos e)))) in *.
  assert (E : mxv (rot_x (- o)) (mxv A (mxv (R1 (- e)) (V3 p (- q) w))) = vadd (mxv (rot_x (- o)) (mxv A (mxv (R1 (- e)) (V3 p (- q) w0)))) (smul (w - w0) g)).
  { unfold g, R1, mxv, vadd, smul, dot. cbn [r1 r2 r3 vx vy vz]. rewrite !cos_neg, !sin_neg. f_equal; ring. }
  rewrite E. unfold vclose, vadd, smul. cbn [vx vy vz].
  repeat split; [set (h := vx g) in *; set (k := vx (mxv _ _)) in *|set (h := vy g) in *; set (k := vy (mxv _ _)) in *|set (h := vz g) in *; set (k := vz (mxv _ _)) in *];
   [cbn [vx vy vz] in X|cbn [vx vy vz] in Y|cbn [vx vy vz] in Z];
   match goal with |- Rabs (?k + ?w * ?h - ?c) <= _ => replace (k + w * h - c) with ((k - c) + w * h) by ring; apply Rle_trans with (1 := Rabs_triang _ _); rewrite (Rabs_mult w); pose proof (Rabs_pos w); pose proof (Rabs_pos h); nra end.
Qed.

Lemma pole_angles_one s : mean_obliquity (T0 + 36525 * (1 * s)) * arcsecond = peval [843814060000000; -468367690000; -1831000; 20034000; -5760; -434]%Z s / 10000000000 * (PI / 648000) /\ P_A (1 * s) = peval [0; 41990940000; 1939873000; -2246600; -9120; 120]%Z s / 10000000000 * (PI / 648000) /\ Q_A (1 * s) = peval [0; -468110150000; 510283000; 5241300; -6460; -172]%Z s / 10000000000 * (PI / 648000).
Proof.
  unfold mean_obliquity, arcsecond, P_A, Q_A, arcsec. cbv zeta. replace ((T0 + 36525 * (1 * s) - T0) / 36525) with (1 * s) by field. cbn [peval].
  repeat split; apply (f_equal (fun x => x * (PI / 648000))); lra.
Qed.
Definition pole_es_one : list ex := pole_es (Poly [0; 50384815070000; -10790069000; -11404500; 1328510; -951]%Z 10000000000) (Poly [843814060000000; -257540000; 512623000; -77250300; -4670; 3337]%Z 10000000000) (Poly [0; 105564030000; -23814292000; -12119700; 1706630; -560]%Z 10000000000) (Poly [843814060000000; -468367690000; -1831000; 20034000; -5760; -434]%Z 10000000000) (Poly [0; 41990940000; 1939873000; -2246600; -9120; 120]%Z 10000000000) (Poly [0; -468110150000; 510283000; 5241300; -6460; -172]%Z 10000000000).
Definition groups_one := [(pole_out, 3, 10000000000000); (rest_out, 2, 1); ([Var 20], 1, 10000000)]%Z.
Lemma pole_check_one : all_below 8 pole_es_one groups_one = true.
Proof. vm_compute. reflexivity. Qed.
Lemma pole_one s : Rabs s <= 1 ->
  vclose (mxv (rot_x (- (mean_obliquity (T0 + 36525 * (1 * s)) * arcsecond))) (mxv (compute_precession (T0 + 36525 * (1 * s))) (ecliptic_pole (1 * s)))) (V3 0 0 1) (3 / 10 ^ 13 + 2 * (1 / 10 ^ 7) ^ 3).
Proof.
  intros S. pose proof (all_below_ok 8 pole_es_one groups_one _ _ _ s S pole_check_one (or_introl eq_refl) eq_refl) as H.
  pose proof (all_below_ok 8 pole_es_one groups_one _ _ _ s S pole_check_one (or_intror (or_introl eq_refl)) eq_refl) as G.
  pose proof (all_below_ok 8 pole_es_one groups_one _ _ _ s S pole_check_one (or_intror (or_intror (or_introl eq_refl))) eq_refl _ (or_introl eq_refl)) as U.
  replace (3 / 10 ^ 13) with (IZR 3 / IZR 10000000000000) by lra. unfold ecliptic_pole.
  destruct (pole_angles_one s) as (-> & -> & ->). unfold compute_precession. replace ((T0 + 36525 * (1 * s) - T0) / 36525) with (1 * s) by field.
  destruct (angles_one s) as (-> & -> & ->). replace eps0_arcsec with (peval [843814060000000]%Z s / 10000000000) by (unfold eps0_arcsec; cbn [peval]; field).
  replace ASEC2RAD with (peval [4848136811095359935899141]%Z s / 1000000000000000000000000000000) by (unfold ASEC2RAD; cbn [peval]; field).
  replace (arcsec 84381.406) with (peval [843814060000000]%Z s / 10000000000 * (PI / 648000)) by (unfold arcsec; cbn [peval]; lra).

  set (p := peval [0; 41990940000; 1939873000; -2246600; -9120; 120]%Z s / 10000000000 * (PI / 648000)). set (q := peval [0; -468110150000; 510283000; 5241300; -6460; -172]%Z s / 10000000000 * (PI / 648000)).
  assert (U' : 0 <= p * p + q * q <= 1 / 10 ^ 7). { split; [nra|]. change (Rabs (p * p + q * q) <= IZR 1 / IZR 10000000) in U. apply Rabs_def2_le in U. lra. }
  set (w0 := peval [1]%Z s / IZR 1 - peval [1]%Z s / IZR 2 * (p * p + q * q) - peval [1]%Z s / IZR 8 * ((p * p + q * q) * (p * p + q * q))).
  set (w := sqrt (1 - p ^ 2 - q ^ 2)).
  assert (W : Rabs (w - w0) <= (1 / 10 ^ 7) ^ 3).
  { replace w with (sqrt (1 - (p * p + q * q))) by (unfold w; f_equal; ring). replace w0 with (1 - 1 / 2 * (p * p + q * q) - 1 / 8 * ((p * p + q * q) * (p * p + q * q))) by (unfold w0; cbn [peval]; field).
    apply Rle_trans with ((p * p + q * q) ^ 3); [apply root_near; lra|]. apply pow_incr. lra. }
  set (A := precession_of_angles _ _ _ _). set (o := peval [843814060000000; -468367690000; -1831000; 20034000; -5760; -434]%Z s / 10000000000 * (PI / 648000)). set (e := peval [843814060000000]%Z s / 10000000000 * (PI / 648000)).
  assert (V : vclose (mxv (rot_x (- o)) (mxv A (mxv (R1 (- e)) (V3 p (- q) w)))) (V3 0 0 1) (IZR 3 / IZR 10000000000000 + 2 * Rabs (w - w0))).
  { apply turned_pole.
    - pose proof (H _ (or_introl eq_refl)) as X. pose proof (H _ (or_intror (or_introl eq_refl))) as Y. pose proof (H _ (or_intror (or_intror (or_introl eq_refl)))) as Z. clear H G.
      change (let x := p in let y := - q * cos e - w0 * sin e in let z := - q * sin e + w0 * cos e in
        Rabs (vx (r1 A) * x + vy (r1 A) * y + vz (r1 A) * z) <= IZR 3 / IZR 10000000000000) in X.
      change (let x := p in let y := - q * cos e - w0 * sin e in let z := - q * sin e + w0 * cos e in
        Rabs (cos o * (vx (r2 A) * x + vy (r2 A) * y + vz (r2 A) * z) + sin o * (vx (r3 A) * x + vy (r3 A) * y + vz (r3 A) * z)) <= IZR 3 / IZR 10000000000000) in Y.
      change (let x := p in let y := - q * cos e - w0 * sin e in let z := - q * sin e + w0 * cos e in
        Rabs (cos o * (vx (r3 A) * x + vy (r3 A) * y + vz (r3 A) * z) - sin o * (vx (r2 A) * x + vy (r2 A) * y + vz (r2 A) * z) - peval [1]%Z s / IZR 1) <= IZR 3 / IZR 10000000000000) in Z.
      cbv zeta in X, Y, Z. cbn [peval] in Z. clearbody A o e p q w0. unfold vclose, rot_x, R1, mxv, dot. cbn [r1 r2 r3 vx vy vz]. rewrite !cos_neg, !sin_neg.
      repeat split; [eapply Rle_trans; [right|exact X]|eapply Rle_trans; [right|exact Y]|eapply Rle_trans; [right|exact Z]]; f_equal; field.
    - pose proof (G _ (or_introl eq_refl)) as X. pose proof (G _ (or_intror (or_introl eq_refl))) as Y. pose proof (G _ (or_intror (or_intror (or_introl eq_refl)))) as Z. clear H G.
      change (Rabs (vx (r1 A) * (peval [0]%Z s / IZR 1) + vy (r1 A) * (- sin e) + vz (r1 A) * cos e) <= IZR 2 / IZR 1) in X.
      change (Rabs (cos o * (vx (r2 A) * (peval [0]%Z s / IZR 1) + vy (r2 A) * (- sin e) + vz (r2 A) * cos e) + sin o * (vx (r3 A) * (peval [0]%Z s / IZR 1) + vy (r3 A) * (- sin e) + vz (r3 A) * cos e)) <= IZR 2 / IZR 1) in Y.
      change (Rabs (cos o * (vx (r3 A) * (peval [0]%Z s / IZR 1) + vy (r3 A) * (- sin e) + vz (r3 A) * cos e) - sin o * (vx (r2 A) * (peval [0]%Z s / IZR 1) + vy (r2 A) * (- sin e) + vz (r2 A) * cos e)) <= IZR 2 / IZR 1) in Z.
      cbn [peval] in X, Y, Z. clearbody A o e p q w0. replace (IZR 2 / IZR 1) with 2 in X, Y, Z by field. unfold rot_x, mxv, dot. intros i [<-|[<-|[<-|[]]]]; cbn [r1 r2 r3 vx vy vz]; rewrite ?cos_neg, ?sin_neg;
      [eapply Rle_trans; [right|exact X]|eapply Rle_trans; [right|exact Y]|eapply Rle_trans; [right|exact Z]]; f_equal; field. }
  clearbody A o e p q w w0. destruct V as (V1 & V2 & V3). split; [|split]; lra.
Qed.

Lemma pole_angles_ten s : mean_obliquity (T0 + 36525 * (10 * s)) * arcsecond = peval [843814060000000; -4683676900000; -183100000; 20034000000; -57600000; -43400000]%Z s / 10000000000 * (PI / 648000) /\ P_A (10 * s) = peval [0; 419909400000; 193987300000; -2246600000; -91200000; 12000000]%Z s / 10000000000 * (PI / 648000) /\ Q_A (10 * s) = peval [0; -4681101500000; 51028300000; 5241300000; -64600000; -17200000]%Z s / 10000000000 * (PI / 648000).
Proof.
  unfold mean_obliquity, arcsecond, P_A, Q_A, arcsec. cbv zeta. replace ((T0 + 36525 * (10 * s) - T0) / 36525) with (10 * s) by field. cbn [peval].
  repeat split; apply (f_equal (fun x => x * (PI / 648000))); lra.
Qed.
Definition pole_es_ten : list ex := pole_es (Poly [0; 503848150700000; -1079006900000; -11404500000; 13285100000; -95100000]%Z 10000000000) (Poly [843814060000000; -2575400000; 51262300000; -77250300000; -46700000; 333700000]%Z 10000000000) (Poly [0; 1055640300000; -2381429200000; -12119700000; 17066300000; -56000000]%Z 10000000000) (Poly [843814060000000; -4683676900000; -183100000; 20034000000; -57600000; -43400000]%Z 10000000000) (Poly [0; 419909400000; 193987300000; -2246600000; -91200000; 12000000]%Z 10000000000) (Poly [0; -4681101500000; 51028300000; 5241300000; -64600000; -17200000]%Z 10000000000).
Definition groups_ten := [(pole_out, 2, 100000000); (rest_out, 2, 1); ([Var 20], 1, 100000)]%Z.
Lemma pole_check_ten : all_below 12 pole_es_ten groups_ten = true.
Proof. vm_compute. reflexivity. Qed.
Lemma pole_ten s : Rabs s <= 1 ->
  vclose (mxv (rot_x (- (mean_obliquity (T0 + 36525 * (10 * s)) * arcsecond))) (mxv (compute_precession (T0 + 36525 * (10 * s))) (ecliptic_pole (10 * s)))) (V3 0 0 1) (2 / 10 ^ 8 + 2 * (1 / 10 ^ 5) ^ 3).
Proof.
  intros S. pose proof (all_below_ok 12 pole_es_ten groups_ten _ _ _ s S pole_check_ten (or_introl eq_refl) eq_refl) as H.
  pose proof (all_below_ok 12 pole_es_ten groups_ten _ _ _ s S pole_check_ten (or_intror (or_introl eq_refl)) eq_refl) as G.
  pose proof (all_below_ok 12 pole_es_ten groups_ten _ _ _ s S pole_check_ten (or_intror (or_intror (or_introl eq_refl))) eq_refl _ (or_introl eq_refl)) as U.
  replace (2 / 10 ^ 8) with (IZR 2 / IZR 100000000) by lra. unfold ecliptic_pole.
  destruct (pole_angles_ten s) as (-> & -> & ->). unfold compute_precession. replace ((T0 + 36525 * (10 * s) - T0) / 36525) with (10 * s) by field.
  destruct (angles_ten s) as (-> & -> & ->). replace eps0_arcsec with (peval [843814060000000]%Z s / 10000000000) by (unfold eps0_arcsec; cbn [peval]; field).
  replace ASEC2RAD with (peval [4848136811095359935899141]%Z s / 1000000000000000000000000000000) by (unfold ASEC2RAD; cbn [peval]; field).
  replace (arcsec 84381.406) with (peval [843814060000000]%Z s / 10000000000 * (PI / 648000)) by (unfold arcsec; cbn [peval]; lra).

  set (p := peval [0; 419909400000; 193987300000; -2246600000; -91200000; 12000000]%Z s / 10000000000 * (PI / 648000)). set (q := peval [0; -4681101500000; 51028300000; 5241300000; -64600000; -17200000]%Z s / 10000000000 * (PI / 648000)).
  assert (U' : 0 <= p * p + q * q <= 1 / 10 ^ 5). { split; [nra|]. change (Rabs (p * p + q * q) <= IZR 1 / IZR 100000) in U. apply Rabs_def2_le in U. lra. }
  set (w0 := peval [1]%Z s / IZR 1 - peval [1]%Z s / IZR 2 * (p * p + q * q) - peval [1]%Z s / IZR 8 * ((p * p + q * q) * (p * p + q * q))).
  set (w := sqrt (1 - p ^ 2 - q ^ 2)).
  assert (W : Rabs (w - w0) <= (1 / 10 ^ 5) ^ 3).
  { replace w with (sqrt (1 - (p * p + q * q))) by (unfold w; f_equal; ring). replace w0 with (1 - 1 / 2 * (p * p + q * q) - 1 / 8 * ((p * p + q * q) * (p * p + q * q))) by (unfold w0; cbn [peval]; field).
    apply Rle_trans with ((p * p + q * q) ^ 3); [apply root_near; lra|]. apply pow_incr. lra. }
  set (A := precession_of_angles _ _ _ _). set (o := peval [843814060000000; -4683676900000; -183100000; 20034000000; -57600000; -43400000]%Z s / 10000000000 * (PI / 648000)). set (e := peval [843814060000000]%Z s / 10000000000 * (PI / 648000)).
  assert (V : vclose (mxv (rot_x (- o)) (mxv A (mxv (R1 (- e)) (V3 p (- q) w)))) (V3 0 0 1) (IZR 2 / IZR 100000000 + 2 * Rabs (w - w0))).
  { apply turned_pole.
    - pose proof (H _ (or_introl eq_refl)) as X. pose proof (H _ (or_intror (or_introl eq_refl))) as Y. pose proof (H _ (or_intror (or_intror (or_introl eq_refl)))) as Z. clear H G.
      change (let x := p in let y := - q * cos e - w0 * sin e in let z := - q * sin e + w0 * cos e in
        Rabs (vx (r1 A) * x + vy (r1 A) * y + vz (r1 A) * z) <= IZR 2 / IZR 100000000) in X.
      change (let x := p in let y := - q * cos e - w0 * sin e in let z := - q * sin e + w0 * cos e in
        Rabs (cos o * (vx (r2 A) * x + vy (r2 A) * y + vz (r2 A) * z) + sin o * (vx (r3 A) * x + vy (r3 A) * y + vz (r3 A) * z)) <= IZR 2 / IZR 100000000) in Y.
      change (let x := p in let y := - q * cos e - w0 * sin e in let z := - q * sin e + w0 * cos e in
        Rabs (cos o * (vx (r3 A) * x + vy (r3 A) * y + vz (r3 A) * z) - sin o * (vx (r2 A) * x + vy (r2 A) * y + vz (r2 A) * z) - peval [1]%Z s / IZR 1) <= IZR 2 / IZR 100000000) in Z.
      cbv zeta in X, Y, Z. cbn [peval] in Z. clearbody A o e p q w0. unfold vclose, rot_x, R1, mxv, dot. cbn [r1 r2 r3 vx vy vz]. rewrite !cos_neg, !sin_neg.
      repeat split; [eapply Rle_trans; [right|exact X]|eapply Rle_trans; [right|exact Y]|eapply Rle_trans; [right|exact Z]]; f_equal; field.
    - pose proof (G _ (or_introl eq_refl)) as X. pose proof (G _ (or_intror (or_introl eq_refl))) as Y. pose proof (G _ (or_intror (or_intror (or_introl eq_refl)))) as Z. clear H G.
      change (Rabs (vx (r1 A) * (peval [0]%Z s / IZR 1) + vy (r1 A) * (- sin e) + vz (r1 A) * cos e) <= IZR 2 / IZR 1) in X.
      change (Rabs (cos o * (vx (r2 A) * (peval [0]%Z s / IZR 1) + vy (r2 A) * (- sin e) + vz (r2 A) * cos e) + sin o * (vx (r3 A) * (peval [0]%Z s / IZR 1) + vy (r3 A) * (- sin e) + vz (r3 A) * cos e)) <= IZR 2 / IZR 1) in Y.
      change (Rabs (cos o * (vx (r3 A) * (peval [0]%Z s / IZR 1) + vy (r3 A) * (- sin e) + vz (r3 A) * cos e) - sin o * (vx (r2 A) * (peval [0]%Z s / IZR 1) + vy (r2 A) * (- sin e) + vz (r2 A) * cos e)) <= IZR 2 / IZR 1) in Z.
      cbn [peval] in X, Y, Z. clearbody A o e p q w0. replace (IZR 2 / IZR 1) with 2 in X, Y, Z by field. unfold rot_x, mxv, dot. intros i [<-|[<-|[<-|[]]]]; cbn [r1 r2 r3 vx vy vz]; rewrite ?cos_neg, ?sin_neg;
      [eapply Rle_trans; [right|exact X]|eapply Rle_trans; [right|exact Y]|eapply Rle_trans; [right|exact Z]]; f_equal; field. }
  clearbody A o e p q w w0. destruct V as (V1 & V2 & V3). split; [|split]; lra.
Qed.
