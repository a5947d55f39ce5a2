(** Precession compared with its other expressions (C147-C149). *)
From Coq Require Import Reals ZArith List Lra Lia Psatz.
From Verif Require Import Real_Math Vector_Model Geo_Model Spin_Model Frames_Spec Frames_Proofs Precession_Spec Taylor_Models.
Import ListNotations.
Open Scope R_scope.

Definition ASC : ex := Poly [4848136811095359935899141]%Z 1000000000000000000000000000000.
Definition TT (a b : ex) := Times a b.
(** The sines and cosines of the four angles, after the angles. *)
Definition angles4 (psi om chi : ex) : list ex := [TT (Poly [843814060000000]%Z 10000000000) ASC; TT psi ASC; TT om ASC; TT chi ASC;
  Sin (Var 0); Cos (Var 0); Sin (Neg (Var 1)); Cos (Neg (Var 1)); Sin (Neg (Var 2)); Cos (Neg (Var 2)); Sin (Var 3); Cos (Var 3)].
Definition entries4 : list ex :=
  let sa := Var 4 in let ca := Var 5 in let sb := Var 6 in let cb := Var 7 in let sc := Var 8 in let cc := Var 9 in let sd := Var 10 in let cd := Var 11 in [
  Minus (TT cd cb) (TT (TT sb sd) cc);
  Minus (Plus (TT (TT cd sb) ca) (TT (TT (TT sd cc) cb) ca)) (TT (TT sa sd) sc);
  Plus (Plus (TT (TT cd sb) sa) (TT (TT (TT sd cc) cb) sa)) (TT (TT ca sd) sc);
  Minus (TT (Neg sd) cb) (TT (TT sb cd) cc);
  Minus (Plus (TT (TT (Neg sd) sb) ca) (TT (TT (TT cd cc) cb) ca)) (TT (TT sa cd) sc);
  Plus (Plus (TT (TT (Neg sd) sb) sa) (TT (TT (TT cd cc) cb) sa)) (TT (TT ca cd) sc);
  TT sb sc;
  Minus (TT (TT (Neg sc) cb) ca) (TT sa cc);
  Plus (TT (TT (Neg sc) cb) sa) (TT cc ca)].
Definition angles3 (ze z th : ex) : list ex := [TT ze Arcsec; TT z Arcsec; TT th Arcsec;
  Sin (Var 12); Cos (Var 12); Sin (Var 13); Cos (Var 13); Sin (Var 14); Cos (Var 14)].
Definition entries3 : list ex :=
  let s := Var 15 in let c := Var 16 in let sz := Var 17 in let cz := Var 18 in let st := Var 19 in let ct := Var 20 in [
  Minus (TT (TT cz ct) c) (TT sz s); Minus (TT (TT (Neg cz) ct) s) (TT sz c); TT (Neg cz) st;
  Plus (TT (TT sz ct) c) (TT cz s); Plus (TT (TT (Neg sz) ct) s) (TT cz c); TT (Neg sz) st;
  TT st c; TT (Neg st) s; ct].
Fixpoint zip (a b : list ex) : list ex := match a, b with x :: a, y :: b => Minus x y :: zip a b | _, _ => [] end.
Lemma three_eq T : let s := sin (zeta_A T) in let c := cos (zeta_A T) in let sz := sin (z_A T) in let cz := cos (z_A T) in let st := sin (theta_A T) in let ct := cos (theta_A T) in
  three_angles T = M3 (V3 (cz * ct * c - sz * s) (- cz * ct * s - sz * c) (- cz * st)) (V3 (sz * ct * c + cz * s) (- sz * ct * s + cz * c) (- sz * st)) (V3 (st * c) (- st * s) ct).
Proof.
  cbv zeta. unfold three_angles, R2, R3, mxm, transp, mxv, dot. cbn [r1 r2 r3 vx vy vz]. rewrite !cos_neg, !sin_neg. generalize (sin (zeta_A T)) (cos (zeta_A T)) (sin (z_A T)) (cos (z_A T)) (sin (theta_A T)) (cos (theta_A T)). intros. f_equal; f_equal; ring.
Qed.
Lemma century jd : jd = T0 + 36525 * ((jd - T0) / 36525). Proof. field. Qed.

Lemma angles_one s : psia_arcsec (1 * s) = peval [0; 50384815070000; -10790069000; -11404500; 1328510; -951]%Z s / 10000000000 /\ omegaa_arcsec (1 * s) = peval [843814060000000; -257540000; 512623000; -77250300; -4670; 3337]%Z s / 10000000000 /\ chia_arcsec (1 * s) = peval [0; 105564030000; -23814292000; -12119700; 1706630; -560]%Z s / 10000000000.
Proof. unfold psia_arcsec, omegaa_arcsec, chia_arcsec, eps0_arcsec. cbn [peval]. repeat split; field. Qed.
Lemma angles3_one s : zeta_A (1 * s) = peval [26505450000; 23060832270000; 2988499000; 180182800; -59710; -3173]%Z s / 10000000000 * (PI / 648000) /\ z_A (1 * s) = peval [-26505450000; 23060771810000; 10927348000; 182683700; -285960; -2904]%Z s / 10000000000 * (PI / 648000) /\ theta_A (1 * s) = peval [0; 20041919030000; -4294934000; -418226400; -70890; -1274]%Z s / 10000000000 * (PI / 648000).
Proof. unfold zeta_A, z_A, theta_A, arcsec. cbn [peval]. repeat split; apply (f_equal (fun x => x * (PI / 648000))); lra. Qed.
Definition es_one : list ex := angles4 (Poly [0; 50384815070000; -10790069000; -11404500; 1328510; -951]%Z 10000000000) (Poly [843814060000000; -257540000; 512623000; -77250300; -4670; 3337]%Z 10000000000) (Poly [0; 105564030000; -23814292000; -12119700; 1706630; -560]%Z 10000000000) ++ angles3 (Poly [26505450000; 23060832270000; 2988499000; 180182800; -59710; -3173]%Z 10000000000) (Poly [-26505450000; 23060771810000; 10927348000; 182683700; -285960; -2904]%Z 10000000000) (Poly [0; 20041919030000; -4294934000; -418226400; -70890; -1274]%Z 10000000000).
Lemma check_one : all_below 8 es_one [(zip entries4 entries3, 2, 1000000000000)]%Z = true.
Proof. vm_compute. reflexivity. Qed.
Lemma agree_one s : Rabs s <= 1 -> close (compute_precession (T0 + 36525 * (1 * s))) (three_angles (1 * s)) (2 / 10 ^ 12).
Proof.
  intros S. pose proof (all_below_ok 8 es_one [(zip entries4 entries3, 2, 1000000000000)]%Z _ _ _ s S check_one (or_introl eq_refl) eq_refl) as H.
  replace (2 / 10 ^ 12) with (IZR 2 / IZR 1000000000000) by lra. rewrite three_eq. cbv zeta.
  destruct (angles3_one s) as (-> & -> & ->). unfold compute_precession. replace ((T0 + 36525 * (1 * s) - T0) / 36525) with (1 * s) by field.
  destruct (angles_one s) as (-> & -> & ->). replace eps0_arcsec with (peval [843814060000000]%Z s / 10000000000) by (unfold eps0_arcsec; cbn [peval]; field).
  replace ASEC2RAD with (peval [4848136811095359935899141]%Z s / 1000000000000000000000000000000) by (unfold ASEC2RAD; cbn [peval]; field).
  unfold close, vclose, precession_of_angles. cbv zeta. cbn [r1 r2 r3 vx vy vz].
  repeat split; (first [exact (H _ (or_introl eq_refl)) | exact (H _ (or_intror (or_introl eq_refl))) | exact (H _ (or_intror (or_intror (or_introl eq_refl))))
    | exact (H _ (or_intror (or_intror (or_intror (or_introl eq_refl))))) | exact (H _ (or_intror (or_intror (or_intror (or_intror (or_introl eq_refl))))))
    | exact (H _ (or_intror (or_intror (or_intror (or_intror (or_intror (or_introl eq_refl)))))))
    | exact (H _ (or_intror (or_intror (or_intror (or_intror (or_intror (or_intror (or_introl eq_refl))))))))
    | exact (H _ (or_intror (or_intror (or_intror (or_intror (or_intror (or_intror (or_intror (or_introl eq_refl)))))))))
    | exact (H _ (or_intror (or_intror (or_intror (or_intror (or_intror (or_intror (or_intror (or_intror (or_introl eq_refl))))))))))]).
Qed.

Lemma angles_ten s : psia_arcsec (10 * s) = peval [0; 503848150700000; -1079006900000; -11404500000; 13285100000; -95100000]%Z s / 10000000000 /\ omegaa_arcsec (10 * s) = peval [843814060000000; -2575400000; 51262300000; -77250300000; -46700000; 333700000]%Z s / 10000000000 /\ chia_arcsec (10 * s) = peval [0; 1055640300000; -2381429200000; -12119700000; 17066300000; -56000000]%Z s / 10000000000.
Proof. unfold psia_arcsec, omegaa_arcsec, chia_arcsec, eps0_arcsec. cbn [peval]. repeat split; field. Qed.
Lemma angles3_ten s : zeta_A (10 * s) = peval [26505450000; 230608322700000; 298849900000; 180182800000; -597100000; -317300000]%Z s / 10000000000 * (PI / 648000) /\ z_A (10 * s) = peval [-26505450000; 230607718100000; 1092734800000; 182683700000; -2859600000; -290400000]%Z s / 10000000000 * (PI / 648000) /\ theta_A (10 * s) = peval [0; 200419190300000; -429493400000; -418226400000; -708900000; -127400000]%Z s / 10000000000 * (PI / 648000).
Proof. unfold zeta_A, z_A, theta_A, arcsec. cbn [peval]. repeat split; apply (f_equal (fun x => x * (PI / 648000))); lra. Qed.
Definition es_ten : list ex := angles4 (Poly [0; 503848150700000; -1079006900000; -11404500000; 13285100000; -95100000]%Z 10000000000) (Poly [843814060000000; -2575400000; 51262300000; -77250300000; -46700000; 333700000]%Z 10000000000) (Poly [0; 1055640300000; -2381429200000; -12119700000; 17066300000; -56000000]%Z 10000000000) ++ angles3 (Poly [26505450000; 230608322700000; 298849900000; 180182800000; -597100000; -317300000]%Z 10000000000) (Poly [-26505450000; 230607718100000; 1092734800000; 182683700000; -2859600000; -290400000]%Z 10000000000) (Poly [0; 200419190300000; -429493400000; -418226400000; -708900000; -127400000]%Z 10000000000).
Lemma check_ten : all_below 12 es_ten [(zip entries4 entries3, 2, 100000000)]%Z = true.
Proof. vm_compute. reflexivity. Qed.
Lemma agree_ten s : Rabs s <= 1 -> close (compute_precession (T0 + 36525 * (10 * s))) (three_angles (10 * s)) (2 / 10 ^ 8).
Proof.
  intros S. pose proof (all_below_ok 12 es_ten [(zip entries4 entries3, 2, 100000000)]%Z _ _ _ s S check_ten (or_introl eq_refl) eq_refl) as H.
  replace (2 / 10 ^ 8) with (IZR 2 / IZR 100000000) by lra. rewrite three_eq. cbv zeta.
  destruct (angles3_ten s) as (-> & -> & ->). unfold compute_precession. replace ((T0 + 36525 * (10 * s) - T0) / 36525) with (10 * s) by field.
  destruct (angles_ten s) as (-> & -> & ->). replace eps0_arcsec with (peval [843814060000000]%Z s / 10000000000) by (unfold eps0_arcsec; cbn [peval]; field).
  replace ASEC2RAD with (peval [4848136811095359935899141]%Z s / 1000000000000000000000000000000) by (unfold ASEC2RAD; cbn [peval]; field).
  unfold close, vclose, precession_of_angles. cbv zeta. cbn [r1 r2 r3 vx vy vz].
  repeat split; (first [exact (H _ (or_introl eq_refl)) | exact (H _ (or_intror (or_introl eq_refl))) | exact (H _ (or_intror (or_intror (or_introl eq_refl))))
    | exact (H _ (or_intror (or_intror (or_intror (or_introl eq_refl))))) | exact (H _ (or_intror (or_intror (or_intror (or_intror (or_introl eq_refl))))))
    | exact (H _ (or_intror (or_intror (or_intror (or_intror (or_intror (or_introl eq_refl)))))))
    | exact (H _ (or_intror (or_intror (or_intror (or_intror (or_intror (or_intror (or_introl eq_refl))))))))
    | exact (H _ (or_intror (or_intror (or_intror (or_intror (or_intror (or_intror (or_intror (or_introl eq_refl)))))))))
    | exact (H _ (or_intror (or_intror (or_intror (or_intror (or_intror (or_intror (or_intror (or_intror (or_introl eq_refl))))))))))]).
Qed.
