(** How the deflection and the aberration of light change with the position. *)
From Coq Require Import ZArith Reals Lia Lra Psatz Bool.
From Flocq Require Import Core.
From Verif Require Import Real_Math Vector_Model Vector_Proofs2 Geo_Model Light_Model Light_Spec Light_Proofs RotF_Proofs2 DeflF_Spec.
Open Scope R_scope.

(** * Lengths *)
Lemma len_smul k a : vlength (smul k a) = Rabs k * vlength a.
Proof. unfold vlength, smul. cbn [vx vy vz]. replace (k * vx a * (k * vx a) + k * vy a * (k * vy a) + k * vz a * (k * vz a)) with (Rsqr k * (vx a * vx a + vy a * vy a + vz a * vz a)) by (unfold Rsqr; ring). rewrite sqrt_mult_alt by apply Rle_0_sqr. rewrite sqrt_Rsqr_abs. reflexivity. Qed.
Lemma len_sub a b : vlength (vsub a b) <= vlength a + vlength b.
Proof. replace (vsub a b) with (vadd a (smul (-(1)) b)) by (unfold vsub, vadd, smul; cbn [vx vy vz]; f_equal; ring). apply Rle_trans with (1 := triangle _ _). rewrite len_smul, Rabs_Ropp, Rabs_R1. lra. Qed.
Lemma len_sym a b : vlength (vsub a b) = vlength (vsub b a).
Proof. replace (vsub a b) with (smul (-(1)) (vsub b a)) by (unfold vsub, smul; cbn [vx vy vz]; f_equal; ring). rewrite len_smul, Rabs_Ropp, Rabs_R1. ring. Qed.
Lemma len_far a b : vlength a - vlength b <= vlength (vsub a b).
Proof. assert (vlength a <= vlength b + vlength (vsub a b)); [|lra]. assert (E : a = vadd b (vsub a b)) by (destruct a as [a1 a2 a3]; unfold vsub, vadd; cbn [vx vy vz]; f_equal; ring). rewrite E at 1. apply triangle. Qed.
Lemma len_diff a b : Rabs (vlength a - vlength b) <= vlength (vsub a b).
Proof. apply Rabs_le. pose proof (len_far a b). pose proof (len_far b a). rewrite (len_sym b a) in H0. lra. Qed.
Lemma len_via a b c : vlength (vsub a c) <= vlength (vsub a b) + vlength (vsub b c).
Proof. replace (vsub a c) with (vadd (vsub a b) (vsub b c)) by (unfold vsub, vadd; cbn [vx vy vz]; f_equal; ring). apply triangle. Qed.
Lemma coord_le a : Rabs (vx a) <= vlength a /\ Rabs (vy a) <= vlength a /\ Rabs (vz a) <= vlength a.
Proof.
  pose proof (vlength_pos a) as P. pose proof (dot_self a) as E. unfold dot in E. pose proof (Rle_0_sqr (vx a)). pose proof (Rle_0_sqr (vy a)). pose proof (Rle_0_sqr (vz a)). unfold Rsqr in *.
  repeat split; (rewrite <- (Rabs_pos_eq (vlength a)) by exact P; apply Rsqr_le_abs_0; unfold Rsqr; lra).
Qed.
Lemma len_coord a g : Rabs (vx a) <= g -> Rabs (vy a) <= g -> Rabs (vz a) <= g -> vlength a <= 1.7321 * g.
Proof.
  intros X Y Z. assert (G : 0 <= g) by (pose proof (Rabs_pos (vx a)); lra). pose proof (vlength_pos a) as P. pose proof (dot_self a) as E. unfold dot in E.
  assert (Sq : forall t, Rabs t <= g -> t * t <= g * g). { intros t H. apply Rabs_le_inv in H. assert (0 <= (g - t) * (g + t)) by (apply Rmult_le_pos; lra). lra. }
  pose proof (Sq _ X). pose proof (Sq _ Y). pose proof (Sq _ Z). assert (0 <= g * g) by (apply Rmult_le_pos; lra). rewrite <- (Rabs_pos_eq (vlength a)) by exact P. rewrite <- (Rabs_pos_eq (1.7321 * g)) by lra. apply Rsqr_le_abs_0. unfold Rsqr. lra.
Qed.
Lemma len_unit a : 0 < vlength a -> vlength (unit_of a) = 1.
Proof. intros P. unfold unit_of. rewrite len_smul, Rabs_pos_eq by (apply Rlt_le, Rinv_0_lt_compat, P). field. lra. Qed.
(** A unit vector moves by at most twice the relative change. *)
Lemma unit_moved a b : 0 < vlength a -> 0 < vlength b -> vlength (vsub (unit_of a) (unit_of b)) <= 2 * (vlength (vsub a b) / vlength b).
Proof.
  intros A B. set (la := vlength a) in *. set (lb := vlength b) in *. set (D := vlength (vsub a b)).
  replace (vsub (unit_of a) (unit_of b)) with (vadd (smul (/ lb) (vsub a b)) (smul ((lb - la) / lb) (unit_of a))).
  2:{ unfold unit_of, vadd, vsub, smul. fold la lb. cbn [vx vy vz]. f_equal; field; lra. }
  apply Rle_trans with (1 := triangle _ _). rewrite !len_smul, (len_unit a A), Rmult_1_r. fold D. rewrite Rabs_pos_eq by (apply Rlt_le, Rinv_0_lt_compat, B). unfold Rdiv. rewrite Rabs_mult, (Rabs_pos_eq (/ lb)) by (apply Rlt_le, Rinv_0_lt_compat, B).
  assert (H : Rabs (lb - la) <= D). { unfold D. rewrite len_sym. apply len_diff. } assert (I : 0 < / lb) by (apply Rinv_0_lt_compat, B). pose proof (Rmult_le_compat_r (/ lb) _ _ (Rlt_le _ _ I) H). lra.
Qed.

(** * The bending *)
(** [(p.q) e - (p.e) q] in terms of [w = q + e]. *)
Definition turn (p w e : vec) : vec := vsub (smul (dot p w) e) (smul (dot p e) w).
Lemma turn_is p q e : vsub (smul (dot p q) e) (smul (dot e p) q) = turn p (vadd q e) e.
Proof. unfold turn, vsub, vadd, smul, dot. cbn [vx vy vz]. f_equal; ring. Qed.
Lemma turn_len p w e : vlength p = 1 -> vlength e = 1 -> vlength (turn p w e) <= 2 * vlength w.
Proof.
  intros P E. unfold turn. apply Rle_trans with (1 := len_sub _ _). rewrite !len_smul, E. pose proof (cauchy_abs p w) as A. pose proof (cauchy_abs p e) as B. rewrite P, ?E in *. rewrite Rmult_1_l in A, B. pose proof (vlength_pos w) as W. pose proof (Rmult_le_compat_r _ _ _ W B). lra.
Qed.
Lemma dot_sub_l a b c : dot (vsub a b) c = dot a c - dot b c. Proof. unfold dot, vsub. cbn [vx vy vz]. ring. Qed.
Lemma dot_sub_r a b c : dot c (vsub a b) = dot c a - dot c b. Proof. unfold dot, vsub. cbn [vx vy vz]. ring. Qed.
Lemma turn_moved p p' w w' e : vlength p = 1 -> vlength p' = 1 -> vlength e = 1 ->
  vlength (vsub (turn p' w' e) (turn p w e)) <= 2 * (vlength (vsub p' p) * vlength w' + vlength (vsub w' w)).
Proof.
  intros P P' E. replace (vsub (turn p' w' e) (turn p w e)) with (vadd (turn (vsub p' p) w' e) (turn p (vsub w' w) e)) by (unfold turn, vsub, vadd, smul, dot; cbn [vx vy vz]; f_equal; ring).
  apply Rle_trans with (1 := triangle _ _). pose proof (turn_len p (vsub w' w) e P E) as T2. set (dp := vsub p' p) in *. assert (T1 : vlength (turn dp w' e) <= 2 * (vlength dp * vlength w')). { unfold turn. apply Rle_trans with (1 := len_sub _ _). rewrite !len_smul, E. pose proof (cauchy_abs dp w') as A. pose proof (cauchy_abs dp e) as B. rewrite E, Rmult_1_r in B. pose proof (Rmult_le_compat_r _ _ _ (vlength_pos w') B). lra. } lra.
Qed.
Lemma open_is q e : vlength q = 1 -> vlength e = 1 -> 1 + dot q e = vlength (vadd q e) * vlength (vadd q e) / 2.
Proof.
  intros Q E. pose proof (dot_self q) as A. pose proof (dot_self e) as B. rewrite Q in A. rewrite E in B. rewrite <- dot_self. replace (dot (vadd q e) (vadd q e)) with (dot q q + dot e e + 2 * dot q e) by (unfold dot, vadd; cbn [vx vy vz]; ring). lra.
Qed.
(** One deflection: [k P turn / F]. *)
Definition shift (u e : vec) (k : R) : vec := smul (k / openness u e * vlength u) (turn (unit_of u) (vadd (unit_of (vadd u e)) (unit_of e)) (unit_of e)).
Section Moved.
Variables (u x e : vec) (k : R).
Hypotheses (U : 0 < vlength u) (X : 0 < vlength x) (E : 0 < vlength e) (QU : 0 < vlength (vadd u e)) (QX : 0 < vlength (vadd x e)) (K : 0 <= k).
Let P := vlength u. Let Q := vlength (vadd u e). Let D := vlength (vsub x u).
Let w := vadd (unit_of (vadd u e)) (unit_of e). Let w' := vadd (unit_of (vadd x e)) (unit_of e). Let s := vlength w. Let s' := vlength w'.
Let F := openness u e. Let F' := openness x e.
Lemma F_is : F = s * s / 2. Proof. unfold F, s, w, openness. apply open_is; apply len_unit; assumption. Qed.
Lemma F'_is : F' = s' * s' / 2. Proof. unfold F', s', w', openness. apply open_is; apply len_unit; assumption. Qed.
Lemma w_moved : vlength (vsub w' w) <= 2 * (D / Q).
Proof.
  replace (vsub w' w) with (vsub (unit_of (vadd x e)) (unit_of (vadd u e))) by (unfold w', w, vsub, vadd; cbn [vx vy vz]; f_equal; ring). apply Rle_trans with (1 := unit_moved _ _ QX QU). replace (vsub (vadd x e) (vadd u e)) with (vsub x u) by (unfold vsub, vadd; cbn [vx vy vz]; f_equal; ring). fold D Q. lra.
Qed.
Lemma s_moved : Rabs (s' - s) <= 2 * (D / Q). Proof. apply Rle_trans with (2 := w_moved). apply len_diff. Qed.
Lemma s_le2 : s <= 2.
Proof. unfold s, w. apply Rle_trans with (1 := triangle _ _). rewrite !len_unit by assumption. lra. Qed.
Lemma shift_len : 0 < s -> vlength (shift u e k) <= k * P * s * 2 / F.
Proof.
  intros S. unfold shift. fold w F P. rewrite len_smul. assert (F0 : 0 < F) by (rewrite F_is; assert (0 < s * s) by (apply Rmult_lt_0_compat; exact S); lra). pose proof (turn_len (unit_of u) w (unit_of e) (len_unit _ U) (len_unit _ E)) as T. fold s in T.
  assert (A : 0 <= k / F * P) by (apply Rmult_le_pos; [apply Rmult_le_pos; [exact K|apply Rlt_le, Rinv_0_lt_compat, F0]|apply vlength_pos]). rewrite (Rabs_pos_eq _ A). apply Rle_trans with (k / F * P * (2 * s)); [apply Rmult_le_compat_l; assumption|]. apply Req_le. field. lra.
Qed.
Lemma shift_moved : 0 < s -> 2 * (D / Q) <= s / 100 -> vlength (vsub (shift x e k) (shift u e k)) <= 13 * (k * (1 + P / Q) / F) * D.
Proof.
  intros S0 Small. pose proof s_moved as SM. apply Rabs_le_inv in SM. pose proof F_is as EF. pose proof F'_is as EF'. pose proof s_le2 as S2. assert (S1 : 0.99 * s <= s' <= 1.01 * s) by lra.
  assert (SS : 0 < s * s) by (apply Rmult_lt_0_compat; exact S0). assert (F0 : 0 < F) by lra. assert (SS' : 0.98 * (s * s) <= s' * s'). { replace (0.98 * (s * s)) with (s * (0.98 * s)) by ring. apply Rle_trans with ((0.99 * s) * (0.99 * s)); [lra|apply Rmult_le_compat; lra]. } assert (F1 : 0.98 * F <= F') by lra. assert (F1' : 0 < F') by lra.
  set (p := unit_of u). set (p' := unit_of x). set (eh := unit_of e). assert (Lp : vlength p = 1) by (apply len_unit; assumption). assert (Lp' : vlength p' = 1) by (apply len_unit; assumption). assert (Le : vlength eh = 1) by (apply len_unit; assumption).
  set (N := turn p w eh). set (N' := turn p' w' eh). pose proof (turn_len p w eh Lp Le) as HN. pose proof (turn_len p' w' eh Lp' Le) as HN'. pose proof (turn_moved p p' w w' eh Lp Lp' Le) as HM. fold N N' s s' in HN, HN', HM.
  pose proof (unit_moved x u X U) as HP. fold p p' D P in HP. pose proof w_moved as HW. set (DP := D / P) in *. set (DQ := D / Q) in *. assert (D0 : 0 <= D) by apply vlength_pos. assert (P0 : 0 < P) by exact U. assert (Q0 : 0 < Q) by exact QU. assert (DP0 : 0 <= DP) by (apply Rmult_le_pos; [exact D0|apply Rlt_le, Rinv_0_lt_compat, P0]). assert (DQ0 : 0 <= DQ) by (apply Rmult_le_pos; [exact D0|apply Rlt_le, Rinv_0_lt_compat, Q0]).
  replace (vsub (shift x e k) (shift u e k)) with (vadd (smul (k * (vlength x - P) / F') N') (vadd (smul (k * P / F') (vsub N' N)) (smul (k * P * (F - F') / (F * F')) N))).
  2:{ unfold shift. fold w w' F F' P p p' eh N N'. unfold vadd, vsub, smul. cbn [vx vy vz]. f_equal; field; lra. }
  assert (IF : 0 < / F) by (apply Rinv_0_lt_compat, F0). assert (IF' : 0 < / F' <= 1.021 * / F). { split; [apply Rinv_0_lt_compat, F1'|]. apply Rle_trans with (/ (0.98 * F)); [apply Rinv_le; lra|]. rewrite Rinv_mult. lra. }
  set (g := k * / F). assert (G0 : 0 <= g) by (apply Rmult_le_pos; lra). assert (G1 : 0 <= k * / F' <= 1.021 * g). { split; [apply Rmult_le_pos; lra|]. unfold g. replace (1.021 * (k * / F)) with (k * (1.021 * / F)) by ring. apply Rmult_le_compat_l; lra. }
  (* the three parts *)
  assert (B1 : vlength (smul (k * (vlength x - P) / F') N') <= 4.13 * (g * D)).
  { rewrite len_smul. replace (k * (vlength x - P) / F') with (k * / F' * (vlength x - P)) by (unfold Rdiv; ring). rewrite Rabs_mult, (Rabs_pos_eq (k * / F')) by lra. pose proof (len_diff x u) as LD. fold P D in LD.
    apply Rle_trans with (1.021 * g * D * (2 * s')); [|assert (GD : 0 <= g * D) by (apply Rmult_le_pos; lra); assert (g * D * s' <= g * D * 2.02) by (apply Rmult_le_compat_l; lra); lra]. apply Rmult_le_compat; [apply Rmult_le_pos; [lra|apply Rabs_pos]|apply vlength_pos| |exact HN']. apply Rmult_le_compat; [lra|apply Rabs_pos|lra|exact LD]. }
  assert (EPD : P * DP = D) by (unfold DP; field; lra).
  assert (B2 : vlength (smul (k * P / F') (vsub N' N)) <= 8.3 * (g * D) + 4.1 * (g * (P * DQ))).
  { rewrite len_smul. replace (k * P / F') with (k * / F' * P) by (unfold Rdiv; ring). rewrite Rabs_pos_eq by (apply Rmult_le_pos; lra). apply Rle_trans with (1.021 * g * P * (2 * (2 * DP * 2.02 + 2 * DQ))).
    - apply Rmult_le_compat; [apply Rmult_le_pos; lra|apply vlength_pos|apply Rmult_le_compat_r; lra|]. apply Rle_trans with (1 := HM). apply Rmult_le_compat_l; [lra|]. apply Rplus_le_compat; [|exact HW]. apply Rmult_le_compat; [apply vlength_pos|lra|exact HP|lra].
    - assert (g * (P * DP) = g * D) by (rewrite EPD; reflexivity). assert (0 <= g * D) by (apply Rmult_le_pos; lra). assert (0 <= g * (P * DQ)) by (apply Rmult_le_pos; [lra|apply Rmult_le_pos; lra]). lra. }
  assert (B3 : vlength (smul (k * P * (F - F') / (F * F')) N) <= 8.3 * (g * (P * DQ))).
  { rewrite len_smul. assert (FD : Rabs (F - F') <= 2.01 * s * DQ). { rewrite EF, EF'. replace (s * s / 2 - s' * s' / 2) with ((s + s') / 2 * (s - s')) by field. rewrite Rabs_mult, (Rabs_pos_eq ((s + s') / 2)) by lra. replace (2.01 * s * DQ) with (1.005 * s * (2 * DQ)) by lra. apply Rmult_le_compat; [lra|apply Rabs_pos|lra|apply Rabs_le; lra]. }
    replace (k * P * (F - F') / (F * F')) with (k * / F' * (P * / F) * (F - F')) by (field; lra). rewrite Rabs_mult. assert (PF : 0 <= P * / F) by (apply Rmult_le_pos; lra). rewrite (Rabs_pos_eq (k * / F' * (P * / F))) by (apply Rmult_le_pos; lra).
    apply Rle_trans with (1.021 * g * (P * / F) * (2.01 * s * DQ) * (2 * s)).
    - apply Rmult_le_compat; [apply Rmult_le_pos; [apply Rmult_le_pos; lra|apply Rabs_pos]|apply vlength_pos| |exact HN]. apply Rmult_le_compat; [apply Rmult_le_pos; lra|apply Rabs_pos| |exact FD]. apply Rmult_le_compat_r; lra.
    - assert (g * (P * DQ) * (s * s * / F) = g * (P * DQ) * 2) by (f_equal; rewrite EF; field; lra). assert (0 <= g * (P * DQ)) by (apply Rmult_le_pos; [lra|apply Rmult_le_pos; lra]). lra. }
  apply Rle_trans with (1 := triangle _ _). pose proof (triangle (smul (k * P / F') (vsub N' N)) (smul (k * P * (F - F') / (F * F')) N)) as T2.
  replace (13 * (k * (1 + P / Q) / F) * D) with (13 * (g * D) + 13 * (g * (P * DQ))) by (unfold g, DQ; field; lra). assert (0 <= g * D) by (apply Rmult_le_pos; lra). assert (0 <= g * (P * DQ)) by (apply Rmult_le_pos; [lra|apply Rmult_le_pos; lra]). lra.
Qed.
End Moved.
