(** The deflection of light in floats. *)
From Coq Require Import ZArith Reals Lia Lra Psatz Bool.
From Flocq Require Import Core BinarySingleNaN.
From Verif Require Geo_Proofs.
From Verif Require Import Float64 Float64_Proofs Float_Time_Proofs Float_Time_Proofs4 CalF_Proofs2 SexaF_Proofs2 Real_Math Vector_Model Vector_Proofs2 Geo_Model Light_Model Light_Spec Light_Proofs Light_Proofs2 SepF_Model SepF_Spec SepF_Proofs SepF_Proofs2 SepF_Proofs3 SphF_Spec SphF_Proofs RotF_Spec RotF_Proofs RotF_Proofs2 RotF_Proofs4 FrameF_Proofs LightF_Model LightF_Spec LightF_Proofs GeodF_Proofs GeodF_Proofs2 AberF_Model AberF_Spec AberF_Proofs AberF_Proofs2 AberF_Proofs3 DeflF_Model DeflF_Spec DeflF_Proofs.
Open Scope R_scope.

Definition within (l h : nat) (x : R) : Prop := / 2 ^ l <= x <= 2 ^ h.
Lemma within_pos l h x : within l h x -> 0 < x. Proof. intros [H _]. assert (0 < / 2 ^ l) by (apply Rinv_0_lt_compat, pow_lt; lra). lra. Qed.
Lemma within_mul l h l' h' x y : within l h x -> within l' h' y -> within (l + l') (h + h') (x * y).
Proof. intros X Y. assert (0 < / 2 ^ l) by (apply Rinv_0_lt_compat, pow_lt; lra). assert (0 < / 2 ^ l') by (apply Rinv_0_lt_compat, pow_lt; lra). unfold within in *. rewrite !pow_add, Rinv_mult. split; apply Rmult_le_compat; lra. Qed.
Lemma within_inv l h x : within l h x -> within h l (/ x).
Proof. intros [A B]. assert (P : 0 < / 2 ^ l) by (apply Rinv_0_lt_compat, pow_lt; lra). split; [apply Rinv_le; lra|]. rewrite <- (Rinv_inv (2 ^ l)). apply Rinv_le; lra. Qed.
Lemma within_div l h l' h' x y : within l h x -> within l' h' y -> within (l + h') (h + l') (x / y).
Proof. intros X Y. apply within_mul; [exact X|apply within_inv, Y]. Qed.
Lemma within_scale l h x : (l <= 190)%nat -> (h <= 190)%nat -> within l h x -> scale x.
Proof. intros L H [A B]. apply scale_in. assert (/ 2 ^ 190 <= / 2 ^ l) by (apply Rinv_le; [apply pow_lt; lra|apply Rle_pow; [lra|exact L]]). assert (2 ^ h <= 2 ^ 190) by (apply Rle_pow; [lra|exact H]). lra. Qed.

Lemma sized_ok n x : sized n x -> (n <= 190)%nat -> scale x. Proof. intros H L. exact (sized_scale n x L H). Qed.
(** A quotient by a small number [s * s] known to within 24.2 roundings of 1. *)
Lemma div_thin K s X y x : scale K -> sized 20 s -> s <= 1.4143 -> Rabs X <= K * (1.4143 * s) -> near X (65 * eps * K) x -> near (s * s) (24.2 * eps) y -> scale (K / (s * s * s)) ->
  at_scale (K / (s * s * s)) (X / (s * s)) 2.83 130 (fdiv x y).
Proof.
  intros SK Ss S1 BX (p & -> & Fp & Vp) (q & -> & Fq & Vq) Sg. destruct (scale_facts _ SK) as (PK & _ & _). destruct (scale_facts _ Sg) as (Pg & Et & Bg). pose proof eps_small as E. pose proof (sized_pos _ _ Ss) as Ps. assert (S2 : / 2 ^ 40 <= s * s) by (change 40%nat with (20 + 20)%nat; apply (sized_mul _ _ _ _ Ss Ss)). assert (S3 : s * s <= 2.0003) by (apply Rle_trans with (1.4143 * 1.4143); [apply Rmult_le_compat; lra|lra]).
  set (F := s * s) in *. set (g := K / (F * s)) in *. assert (PF : 0 < F) by (unfold F; apply Rmult_lt_0_compat; lra). assert (EK : K = g * F * s) by (unfold g; field; lra).
  assert (Ee : 24.2 * eps <= 0.003 * F) by (unfold eps; lra). apply Rabs_le_inv in Vq. assert (Q0 : 0.997 * F <= B2R q) by lra. assert (PQ : 0 < B2R q) by lra. assert (IQ : 0 < / B2R q <= 1.0031 * / F). { split; [apply Rinv_0_lt_compat; lra|]. replace (1.0031 * / F) with (/ (F * / 1.0031)) by (field; lra). apply Rinv_le; lra. } assert (IF : 0 < / F) by (apply Rinv_0_lt_compat; lra).
  assert (XF : Rabs (X / F) <= 1.4143 * (g * F)). { unfold Rdiv. rewrite Rabs_mult, (Rabs_pos_eq (/ F)) by lra. apply Rle_trans with (K * (1.4143 * s) * / F); [apply Rmult_le_compat_r; lra|]. apply Req_le. rewrite EK. replace (g * F * s * (1.4143 * s) * / F) with (1.4143 * (g * (s * s))) by (field; lra). reflexivity. }
  assert (GF : g * F <= g * 2.0003) by (apply Rmult_le_compat_l; lra). set (d := B2R p - X) in *. set (e := B2R q - F) in *. assert (Ve : Rabs e <= 24.2 * eps) by (apply Rabs_le; lra).
  assert (EG : 0 < eps * g) by (apply Rmult_lt_0_compat; lra).
  assert (D : Rabs (B2R p / B2R q - X / F) <= 126.8 * (eps * g)).
  { replace (B2R p / B2R q - X / F) with (d * / B2R q - X / F * e * / B2R q) by (unfold d, e; field; lra). unfold Rminus. apply Rle_trans with (1 := Rabs_triang _ _). rewrite Rabs_Ropp, !Rabs_mult, (Rabs_pos_eq (/ B2R q)) by lra.
    assert (T1 : Rabs d * / B2R q <= 65 * eps * K * (1.0031 * / F)) by (apply Rmult_le_compat; try apply Rabs_pos; lra). assert (T2 : Rabs (X / F) * Rabs e * / B2R q <= 1.4143 * (g * F) * (24.2 * eps) * (1.0031 * / F)). { apply Rmult_le_compat; [apply Rmult_le_pos; apply Rabs_pos|lra| |lra]. apply Rmult_le_compat; try apply Rabs_pos; lra. }
    replace (65 * eps * K * (1.0031 * / F)) with (65 * 1.0031 * (eps * g * s)) in T1 by (rewrite EK; field; lra). replace (1.4143 * (g * F) * (24.2 * eps) * (1.0031 * / F)) with (1.4143 * 24.2 * 1.0031 * (eps * g)) in T2 by (field; lra).
    assert (eps * g * s <= eps * g * 1.4143) by (apply Rmult_le_compat_l; lra). lra. }
  assert (Z : Rabs (B2R p / B2R q) <= 2.9 * g). { replace (B2R p / B2R q) with (X / F + (B2R p / B2R q - X / F)) by ring. apply Rle_trans with (1 := Rabs_triang _ _). assert (eps * g <= / 1000000000 * g) by (apply Rmult_le_compat_r; lra). lra. }
  destruct (fdiv_val p q Fp) as (z & -> & Fz & Vz); [lra|lra|]. apply known; [|lra|lra|lra|exact Sg]. exists z. split; [reflexivity|]. split; [exact Fz|]. pose proof (SexaF_Proofs2.rnd_err (B2R p / B2R q)) as R. rewrite <- Vz in R.
  replace (B2R z - X / F) with ((B2R z - B2R p / B2R q) + (B2R p / B2R q - X / F)) by ring. apply Rle_trans with (1 := Rabs_triang _ _). assert (eps * Rabs (B2R p / B2R q) <= eps * (2.9 * g)) by (apply Rmult_le_compat_l; lra). lra.
Qed.

Lemma fleb_val (x y : bf) : is_finite x = true -> is_finite y = true -> fleb (B2SF x) (B2SF y) = Rle_bool (B2R x) (B2R y).
Proof. intros Fx Fy. exact (Bleb_correct 53 1024 x y Fx Fy). Qed.
Lemma fabs_val (x : bf) : is_finite x = true -> exists z : bf, fabs (B2SF x) = B2SF z /\ is_finite z = true /\ B2R z = Rabs (B2R x).
Proof. intros Fx. exists (Babs x). split; [destruct x; reflexivity|]. split; [rewrite is_finite_Babs; exact Fx|apply B2R_Babs]. Qed.
Lemma limit_val : exists l : bf, deflection_limit64 = B2SF l /\ is_finite l = true /\ Rabs (B2R l - 99999999999 / 10 ^ 11) <= eps.
Proof.
  destruct (fl_bf 1125899906831365 (-50)) as (l & E & Fl & Vl); [unfold small; lia|]. exists l. split; [exact E|]. split; [exact Fl|]. rewrite Vl. unfold F2R. cbn [Fnum Fexp]. change (bpow radix2 (-50)) with (/ 1125899906842624). unfold eps. apply Rabs_le. lra.
Qed.
Lemma gs_at : at_scale GS GS 1 1 GS64.
Proof.
  destruct (fl_bf 8100124512816589 14) as (l & E & Fl & Vl); [unfold small; lia|]. unfold GS64. rewrite E. apply known; [|unfold GS; rewrite Rabs_pos_eq; lra|lra|lra|]. - exists l. split; [reflexivity|]. split; [exact Fl|]. rewrite Vl. unfold F2R. cbn [Fnum Fexp]. change (bpow radix2 14) with 16384. unfold eps, GS. apply Rabs_le. lra.
  - apply scale_in, (wider _ 70); [lia|]. unfold GS. lra.
Qed.
Lemma int_at (k : Z) : (0 < k < 2 ^ 48)%Z -> at_scale (IZR k) (IZR k) 1 0 (of_Z k).
Proof.
  intros H. destruct (of_Z_bf k ltac:(unfold fits; lia)) as (b & -> & F & V). assert (K : 1 <= IZR k <= 2 ^ 50). { split; [apply IZR_le; lia|]. replace (2 ^ 50) with (IZR (2 ^ 50)) by (cbn; lra). apply IZR_le. lia. } apply known; [|rewrite Rabs_pos_eq; lra|lra|lra|].
  - exists b. split; [reflexivity|]. split; [exact F|]. rewrite V. unfold Rminus. rewrite Rplus_opp_r, Rabs_R0. lra.
  - apply scale_in, (wider _ 50); [lia|]. assert (/ 2 ^ 50 <= 1) by lra. lra.
Qed.

Section Deflection.
Variables (p e : fvec) (u v : vec) (rm : bf).
Hypotheses (Sp : stands_for p u) (Se : stands_for e v) (Pu : plain u) (Pv : plain v) (Pw : plain (vadd u v)) (Fr : is_finite rm = true) (Hr : 1 <= B2R rm <= 2 ^ 30) (Ho : / 2 ^ 40 <= openness u v).
Let w := vadd u v. Let P := vlength u. Let E := vlength v. Let K := strength v (B2R rm). Let m := dot (unit_of u) (unit_of w). Let b := dot (unit_of w) (unit_of v). Let a := dot (unit_of v) (unit_of u). Let F := openness u v. Let s := sqrt F.
Lemma plain_pos x : plain x -> 0 < vlength x. Proof. exact (sized_pos 50 _). Qed.
Lemma plain_ne x : plain x -> x <> vzero.
Proof. intros H ->. pose proof (plain_pos _ H) as G. revert G. unfold vlength, dot, vzero. cbn [vx vy vz]. replace (0 * 0 + 0 * 0 + 0 * 0) with 0 by ring. rewrite sqrt_0. lra. Qed.
Lemma hat_is x : plain x -> hat x = unit_of x. Proof. intros H. unfold hat, unit_of. rewrite or_one_ne; [reflexivity|]. pose proof (plain_pos _ H). lra. Qed.
Lemma K_within : within 106 26 K.
Proof.
  unfold K, strength. replace (2 * GS / (C * C * vlength v * AU_M * B2R rm)) with (2 * GS / (C * C * AU_M) * / (vlength v * B2R rm)) by (pose proof (plain_pos _ Pv); unfold C, AU_M; field; lra).
  assert (A : / 2 ^ 26 <= 2 * GS / (C * C * AU_M) <= / 2 ^ 24) by (unfold GS, C, AU_M; lra). assert (R : within 0 30 (B2R rm)) by (split; [rewrite pow_O, Rinv_1; apply Hr|apply Hr]). assert (V : within 50 50 (vlength v)) by exact Pv. destruct (within_inv _ _ _ (within_mul _ _ _ _ _ _ V R)) as [L H]. change (50 + 30)%nat with 80%nat in L. change (50 + 0)%nat with 50%nat in H. assert (P80 : 0 < / 2 ^ 80) by (apply Rinv_0_lt_compat, pow_lt; lra). assert (P26 : 0 < / 2 ^ 26) by (apply Rinv_0_lt_compat, pow_lt; lra).
  split; [change 106%nat with (26 + 80)%nat; rewrite pow_add, Rinv_mult; apply Rmult_le_compat; lra|]. apply Rle_trans with (/ 2 ^ 24 * 2 ^ 50); [apply Rmult_le_compat; lra|]. change 50%nat with (24 + 26)%nat. rewrite pow_add, <- Rmult_assoc, Rinv_l, Rmult_1_l by (apply pow_nonzero; lra). lra.
Qed.
Lemma K_sized : sized 106 K.
Proof.
  unfold K, strength. replace (2 * GS / (C * C * vlength v * AU_M * B2R rm)) with (2 * GS / (C * C * AU_M) / (vlength v * B2R rm)) by (pose proof (plain_pos _ Pv); unfold C, AU_M; field; lra).
  change 106%nat with (26 + (50 + 30))%nat. apply sized_div; [unfold sized, GS, C, AU_M; split; lra|]. apply sized_mul; [exact Pv|]. split; [|apply Hr]. assert (/ 2 ^ 30 <= 1) by lra. lra.
Qed.
Lemma fac1_at : at_scale K K 1 10.2 (fdiv (fmul (of_Z 2) GS64) (fmul (fmul (fmul (fmul C64 C64) (length64 e)) AU_M64) (B2SF rm))).
Proof.
  pose proof (plain_pos _ Pv) as PE. fold E in PE. assert (SE : sized 50 E) by exact Pv. assert (Sc : sized 29 C) by (unfold sized, C; split; lra). assert (Sa : sized 38 AU_M) by (unfold sized, AU_M; split; lra). assert (Sr : sized 30 (B2R rm)) by (split; [assert (/ 2 ^ 30 <= 1) by lra; lra|apply Hr]). assert (Sg : sized 68 (2 * GS)) by (unfold sized, GS; split; lra).
  pose proof (int_at 299792458 ltac:(lia)) as C0. change (IZR 299792458) with C in C0. pose proof (int_at 149597870700 ltac:(lia)) as A0. change (IZR 149597870700) with AU_M in A0. pose proof (int_at 2 ltac:(lia)) as T0.
  pose proof (length_at e v Se (wider _ 50 190 ltac:(lia) Pv)) as L. fold E in L. assert (R0 : at_scale (B2R rm) (B2R rm) 1 0 (B2SF rm)). { apply exactly; [exact Fr|rewrite Rabs_pos_eq; lra|lra|apply (sized_scale 30); [lia|exact Sr]]. }
  pose proof (sized_mul _ _ _ _ Sc Sc) as S1. pose proof (sized_mul _ _ _ _ S1 SE) as S2. pose proof (sized_mul _ _ _ _ S2 Sa) as S3. pose proof (sized_mul _ _ _ _ S3 Sr) as S4.
  pose proof (mul_ss _ _ _ _ _ _ _ _ _ _ C0 C0 (sized_ok _ _ S1 ltac:(cbn; lia)) ltac:(lra) ltac:(lra)) as D1. pose proof (mul_ss _ _ _ _ _ _ _ _ _ _ D1 L (sized_ok _ _ S2 ltac:(cbn; lia)) ltac:(lra) ltac:(lra)) as D2. pose proof (mul_ss _ _ _ _ _ _ _ _ _ _ D2 A0 (sized_ok _ _ S3 ltac:(cbn; lia)) ltac:(lra) ltac:(lra)) as D3. pose proof (mul_ss _ _ _ _ _ _ _ _ _ _ D3 R0 (sized_ok _ _ S4 ltac:(cbn; lia)) ltac:(lra) ltac:(lra)) as D4.
  pose proof (mul_ss _ _ _ _ _ _ _ _ _ _ T0 gs_at (sized_ok _ _ Sg ltac:(cbn; lia)) ltac:(lra) ltac:(lra)) as N. pose proof (sized_pos _ _ S4) as P4. pose proof (sized_pos _ _ K_sized) as PK.
  eapply looser; [apply (div_ss _ _ _ _ _ _ _ _ _ _ N D4); [lra|exact (sized_scale 106 K ltac:(lia) K_sized)|lra|lra]|lra|change (Rabs K <= 1 * K); rewrite Rabs_pos_eq; lra|lra].
Qed.
Lemma hats : unit_near 3.71 (unit_of u) (fshrink p (or_one64 (length64 p))) /\ unit_near 3.71 (unit_of v) (fshrink e (or_one64 (length64 e))) /\ unit_near 6.72 (unit_of w) (fshrink (fplus p e) (or_one64 (length64 (fplus p e)))).
Proof.
  assert (L : forall j k x y, unit_near j x y -> j <= k <= 2000 -> unit_near k x y). { intros j k x y ((X0 & X1 & X2) & (Y0 & Y1 & Y2) & (Z0 & Z1 & Z2)) H. split; [|split]; (eapply looser; [split; [eassumption|split; eassumption]|lra|lra|lra]). }
  assert (One : forall q x, stands_for q x -> plain x -> unit_near 3.71 (unit_of x) (fshrink q (or_one64 (length64 q)))).
  { intros q x Sq Hx. assert (S : scale (vlength x)) by (apply (sized_scale 50); [lia|exact Hx]). pose proof (length_at q x Sq (wider _ 50 190 ltac:(lia) Hx)) as Ln. pose proof (plain_pos _ Hx). rewrite (or_one_of _ _ _ _ _ Ln) by lra. destruct (coordinates q x Sq S) as (X & Y & Z). eapply L; [apply (shrink_near 0 2.54); try assumption; lra|lra]. }
  split; [apply One; assumption|]. split; [apply One; assumption|]. destruct (sum_near p e u v Sp Se Pu Pv Pw) as (X & Y & Z & Ln). fold w in X, Y, Z, Ln. pose proof (plain_pos _ Pw) as PW. fold w in PW. rewrite (or_one_of _ _ _ _ _ Ln) by lra. eapply L; [apply (shrink_near 1.02 4.4); try assumption; [apply (sized_scale 50); [lia|exact Pw]|lra|lra|lra]|lra].
Qed.
Lemma units : vlength (unit_of u) = 1 /\ vlength (unit_of v) = 1 /\ vlength (unit_of w) = 1.
Proof. split; [|split]; apply unit_comp, plain_pos; assumption. Qed.
Lemma F_is : F = 1 + b. Proof. reflexivity. Qed.
Lemma s_facts : s * s = F /\ sized 20 s /\ s <= 1.4143 /\ 0 < F <= 2.
Proof.
  destruct units as (_ & Uv & Uw). pose proof (dot_le (unit_of w) (unit_of v)) as D. rewrite Uv, Uw in D. fold b in D. apply Rabs_le_inv in D. pose proof F_is as FI. assert (Ho' : / 2 ^ 40 <= F) by exact Ho. assert (P40 : 0 < / 2 ^ 40) by (apply Rinv_0_lt_compat, pow_lt; lra). assert (SS : s * s = F) by (apply sqrt_sqrt; lra). pose proof (sqrt_pos F) as S0. fold s in S0.
  split; [exact SS|]. assert (U : s <= 1.4143) by (apply Rsqr_incr_0_var; [unfold Rsqr; lra|lra]). split; [|split; [exact U|lra]]. split; [|apply Rle_trans with 2; [lra|replace 2 with (2 ^ 1) at 1 by ring; apply Rle_pow; [lra|lia]]]. apply Rsqr_incr_0_var; [|exact S0]. unfold Rsqr. rewrite SS. apply Rle_trans with (2 := Ho'). rewrite <- Rinv_mult, <- pow_add. apply Req_le. reflexivity.
Qed.
Definition bent : vec := vsub (smul m (unit_of v)) (smul a (unit_of w)).
Lemma bent_sq : dot bent bent = 1 - b * b.
Proof.
  pose proof (gram u v (plain_ne _ Pu) (plain_ne _ Pv) (plain_ne _ Pw)) as G. rewrite !hat_is in G by assumption. fold w in G. fold m a b in G. destruct units as (Uu & Uv & Uw). assert (Ev : dot (unit_of v) (unit_of v) = 1) by (rewrite dot_self, Uv; ring). assert (Ew : dot (unit_of w) (unit_of w) = 1) by (rewrite dot_self, Uw; ring).
  rewrite <- G. unfold bent. replace (dot (vsub (smul m (unit_of v)) (smul a (unit_of w))) (vsub (smul m (unit_of v)) (smul a (unit_of w)))) with (m * m * dot (unit_of v) (unit_of v) + a * a * dot (unit_of w) (unit_of w) - 2 * m * a * dot (unit_of w) (unit_of v)) by (unfold dot, vsub, smul; cbn [vx vy vz]; ring). rewrite Ev, Ew. fold b. ring.
Qed.
Lemma bent_small x : x * x <= dot bent bent -> Rabs x <= 1 /\ Rabs x <= 1.4143 * s.
Proof.
  intros H. rewrite bent_sq in H. destruct s_facts as (SS & Ss & S1 & F0 & F2). pose proof (sized_pos _ _ Ss) as S0. pose proof F_is as FI. pose proof (Rle_0_sqr b) as B2. unfold Rsqr in B2. assert (Hb : 1 - b * b <= 2 * F). { replace (1 - b * b) with (F * (2 - F)) by (rewrite FI; ring). assert (F * (2 - F) <= F * 2) by (apply Rmult_le_compat_l; lra). lra. }
  split; apply Rsqr_incr_0_var; try lra; rewrite <- Rsqr_abs; unfold Rsqr; lra.
Qed.
Let f1 := fdiv (fmul (of_Z 2) GS64) (fmul (fmul (fmul (fmul C64 C64) (length64 e)) AU_M64) (B2SF rm)).
Let ph := fshrink p (or_one64 (length64 p)). Let eh := fshrink e (or_one64 (length64 e)). Let qh := fshrink (fplus p e) (or_one64 (length64 (fplus p e))).
Lemma a_at : at_scale 1 a 1 16.88 (dots64 eh ph).
Proof. destruct hats as (Hp & He & _). destruct units as (Uu & Uv & _). pose proof (dots_units 3.71 3.71 _ _ _ _ ltac:(lra) ltac:(lra) Uv Uu He Hp) as D. fold a ph eh in D. eapply looser; [exact D|lra|apply D|lra]. Qed.
Lemma m_at : at_scale 1 m 1 22.1 (dots64 ph qh).
Proof. destruct hats as (Hp & _ & Hq). destruct units as (Uu & _ & Uw). pose proof (dots_units 3.71 6.72 _ _ _ _ ltac:(lra) ltac:(lra) Uu Uw Hp Hq) as D. fold m ph qh in D. eapply looser; [exact D|lra|apply D|lra]. Qed.
Lemma b_at : at_scale 1 b 1 22.1 (dots64 qh eh).
Proof. destruct hats as (_ & He & Hq). destruct units as (_ & Uv & Uw). pose proof (dots_units 6.72 3.71 _ _ _ _ ltac:(lra) ltac:(lra) Uw Uv Hq He) as D. fold b eh qh in D. eapply looser; [exact D|lra|apply D|lra]. Qed.
Lemma fac2_near : near F (24.2 * eps) (fadd (of_Z 1) (dots64 qh eh)).
Proof.
  destruct s_facts as (_ & _ & _ & F0 & F2). rewrite F_is. pose proof (add_at _ _ _ _ _ 2 _ _ _ _ one_at b_at ltac:(fold b; rewrite <- F_is, Rabs_pos_eq; lra) ltac:(lra) ltac:(lra)) as (N & _). apply (near_le _ _ _ _ N). unfold eps. lra.
Qed.
Lemma sigma_in : scale (K / (s * s * s)) /\ scale (K / (s * s * s) * P).
Proof.
  destruct s_facts as (_ & [Sl _] & S1 & _ & _). assert (Sw : within 20 1 s) by (split; [exact Sl|lra]). pose proof (within_div _ _ _ _ _ _ K_within (within_mul _ _ _ _ _ _ (within_mul _ _ _ _ _ _ Sw Sw) Sw)) as G.
  split; [apply within_scale with (3 := G); cbn; lia|apply within_scale with (3 := within_mul _ _ _ _ _ _ G (Pu : within 50 50 P)); cbn; lia].
Qed.
Lemma coordinate flag x y q : x * m - y * a = q -> q * q <= dot bent bent -> forall xf yf, at_scale 1 x 1 3.71 xf -> at_scale 1 y 1 6.72 yf -> flag = of_Z 1 ->
  at_scale (K / (s * s * s) * P) (1 * K / F * P * q) 2.83 141 (fmul (fdiv (fmul (fsub (fmul xf (dots64 ph qh)) (fmul yf (dots64 eh ph))) (fmul flag f1)) (fadd (of_Z 1) (dots64 qh eh))) (length64 p)).
Proof.
  intros Eq Hq xf yf X Y ->. destruct (bent_small q Hq) as [Q1 Q2]. destruct s_facts as (SS & Ss & S1 & F0 & F2). pose proof (sized_pos _ _ Ss) as S0. pose proof K_sized as KS. pose proof (sized_pos _ _ KS) as PK. assert (SK : scale K) by (apply (sized_scale 106); [lia|exact KS]).
  pose proof (mul_at _ _ _ _ _ _ _ _ _ X m_at ltac:(lra) ltac:(lra)) as XM. pose proof (mul_at _ _ _ _ _ _ _ _ _ Y a_at ltac:(lra) ltac:(lra)) as YA.
  pose proof (sub_at _ _ _ _ _ 1 _ _ _ _ XM YA ltac:(rewrite Eq; lra) ltac:(lra) ltac:(lra)) as D. rewrite Eq in D.
  pose proof (mul_ss _ _ _ _ _ _ _ _ _ _ one_at fac1_at ltac:(rewrite Rmult_1_l; exact SK) ltac:(lra) ltac:(lra)) as FK. rewrite !Rmult_1_l in FK. fold f1 in FK.
  pose proof (mul_ss _ _ _ _ _ _ _ _ _ _ D FK ltac:(rewrite Rmult_1_l; exact SK) ltac:(lra) ltac:(lra)) as W. destruct W as (W & _). rewrite (Rmult_1_l K) in W.
  assert (W' : near (q * K) (65 * eps * K) (fmul (fsub (fmul xf (dots64 ph qh)) (fmul yf (dots64 eh ph))) (fmul (of_Z 1) f1))) by (apply (near_le _ _ _ _ W); apply Rmult_le_compat_r; [lra|]; apply Rmult_le_compat_r; [unfold eps|]; lra).
  destruct sigma_in as [Sg SgP]. assert (N2 : near (s * s) (24.2 * eps) (fadd (of_Z 1) (dots64 qh eh))) by (rewrite SS; exact fac2_near).
  assert (BX : Rabs (q * K) <= K * (1.4143 * s)) by (rewrite Rabs_mult, (Rabs_pos_eq K) by lra; rewrite Rmult_comm; apply Rmult_le_compat_l; lra).
  pose proof (div_thin K s _ _ _ SK Ss S1 BX W' N2 Sg) as Dv. pose proof (length_at p u Sp (wider _ 50 190 ltac:(lia) Pu)) as Ln. fold P in Ln.
  pose proof (mul_ss _ _ _ _ _ _ _ _ _ _ Dv Ln SgP ltac:(lra) ltac:(lra)) as Fin. rewrite SS in Fin at 2. replace (1 * K / F * P * q) with (q * K / F * P) by (field; lra). eapply looser; [exact Fin|lra|apply Rle_trans with (1 := proj1 (proj2 Fin)); lra|lra].
Qed.
End Deflection.
