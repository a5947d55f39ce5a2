(** More proofs about Delta T in binary64. *)
From Coq Require Import ZArith Reals List Bool Lia Lra.
From Coq.Floats Require Import SpecFloat.
From Flocq Require Import Core BinarySingleNaN.
From Verif Require Import Float64 Float64_Proofs Float_Time_Model Float_Time_Proofs Float_Time_Proofs4 SexaF_Proofs2 CalF_Proofs CalF_Proofs2 Curve_Model Curve_Spec SplF_Model SplF_Spec SplF_Proofs SplF_Proofs2 Ut1F_Model Ut1F_Proofs DeltaF_Model DeltaF_Spec DeltaF_Proofs.
Import ListNotations.
Open Scope R_scope.

Definition fnode (p : node) : b64 * b64 := (B2SF (fst p), B2SF (snd p)).
Definition rnode (p : node) := (B2R (fst p), B2R (snd p)).
Lemma fcombine (l : list node) : combine (floats (dates l)) (floats (values l)) = map fnode l.
Proof. induction l as [|p l IH]; [reflexivity|]. unfold floats, dates, values, fnode in *. cbn [map combine]. f_equal. exact IH. Qed.
Lemma rcombine (l : list node) : combine (reals (dates l)) (reals (values l)) = map rnode l.
Proof. induction l as [|p l IH]; [reflexivity|]. unfold reals, dates, values, rnode in *. cbn [map combine]. f_equal. exact IH. Qed.
Lemma last_of {A B} (f : A -> B) (l : list A) (p : A) : last (f p :: map f l) (f p) = f (last l p).
Proof.
  assert (H : forall l d, last (map f l) (f d) = f (last l d)). { clear. intros l. induction l as [|a [|b l] IH]; intros d; [reflexivity|reflexivity|]. change (last (map f (b :: l)) (f d) = f (last (b :: l) d)). apply IH. }
  destruct l as [|q l]; [reflexivity|]. change (last (map f (q :: l)) (f p) = f (last (q :: l) p)). apply H.
Qed.
Lemma last_cons {A} (l : list A) (q p : A) : last (q :: l) p = last l q.
Proof. revert q p. induction l as [|a l IH]; intros q p; [reflexivity|]. change (last (a :: l) p = last (a :: l) q). rewrite !IH. reflexivity. Qed.
Lemma nan_cases (x : b64) (p : node) (rest : list node) : interp_nan64 x (map fnode (p :: rest)) = if fltb x (B2SF (fst p)) then S754_nan else if fltb (B2SF (fst (last rest p))) x then S754_nan else interp_from64 x (B2SF (fst p)) (B2SF (snd p)) (map fnode rest).
Proof. pose proof (last_of fnode rest p) as L. cbn [map]. unfold interp_nan64. destruct (fnode p) as (a, b) eqn:E. match goal with |- context [last (?q :: ?l) ?d] => replace (last (q :: l) d) with (fnode (last rest p)) by (symmetry; exact L) end. unfold fnode in E. inversion E. reflexivity. Qed.
Lemma nan_cases_real (x : R) (p : node) (rest : list node) : interp_nan x (map rnode (p :: rest)) = if Rlt_dec x (B2R (fst p)) then None else if Rlt_dec (B2R (fst (last rest p))) x then None else Some (interp_from x (B2R (fst p)) (B2R (snd p)) (map rnode rest)).
Proof. pose proof (last_of rnode rest p) as L. cbn [map]. unfold interp_nan. destruct (rnode p) as (a, b) eqn:E. rewrite L. unfold rnode in E. inversion E. reflexivity. Qed.
Lemma not_nan (v : bf) : is_finite v = true -> isnan64 (B2SF v) = false.
Proof. destruct v; cbn; congruence. Qed.

Lemma table_from Y (x : bf) : fair x -> forall (rest : list node) (p : node), daily_ok Y p rest -> B2R (fst p) <= B2R x ->
  exists v : bf, interp_from64 (B2SF x) (B2SF (fst p)) (B2SF (snd p)) (map fnode rest) = B2SF v /\ is_finite v = true /\ Rabs (B2R v - interp_from (B2R x) (B2R (fst p)) (B2R (snd p)) (map rnode rest)) <= 13 * (eps * Y).
Proof.
  intros Hx. induction rest as [|q rest IH]; intros p (HY & HF & HA) B; pose proof eps_val as Ev; pose proof LO_pos as L0; fold LO in HY; assert (EY : 0 < eps * Y) by (apply Rmult_lt_0_compat; lra); inversion HF as [|? ? Hp HF']; subst.
  - cbn [map interp_from64 interp_from]. exists (snd p). split; [reflexivity|]. split; [apply Hp|]. rewrite Rminus_eq_0, Rabs_R0. lra.
  - inversion HF' as [|? ? Hq _]; subst. destruct HA as (G & HA). cbn [map interp_from64 interp_from]. unfold fnode at 1, rnode at 1. pose proof Hp as ((Fp1 & _) & Fp2 & _). pose proof Hq as ((Fq1 & _) & Fq2 & _). rewrite (fltb_val x (fst q)) by (apply Hx || assumption). destruct (Rlt_dec (B2R x) (B2R (fst q))) as [C|C].
    + destruct (feqb (B2SF (fst p)) (B2SF x)) eqn:EQ.
      * apply feqb_val in EQ; [|assumption|apply Hx]. exists (snd p). split; [reflexivity|]. split; [assumption|]. rewrite EQ, Rminus_eq_0, Rmult_0_l, Rplus_0_r, Rminus_eq_0, Rabs_R0. lra.
      * destruct p as (x0, y0), q as (x1, y1). cbn [fst snd] in *. apply stretch_close; try assumption. lra.
    + apply IH; [split; [exact HY|split; [exact HF'|exact HA]]|]. lra.
Qed.
(** Inside the table. *)
Lemma table_value curve Y (p : node) (rest : list node) (x : bf) : fair x -> daily_ok Y p rest -> B2R (fst p) <= B2R x <= B2R (fst (last rest p)) ->
  exists v : bf, delta_t64 (map row64_of curve) (floats (dates (p :: rest))) (floats (values (p :: rest))) (B2SF x) = B2SF v /\ is_finite v = true /\
    Rabs (B2R v - delta_t (map real_row curve) (reals (dates (p :: rest))) (reals (values (p :: rest))) (B2R x)) <= 13 * (eps * Y).
Proof.
  intros Hx HD B. destruct (table_from Y x Hx rest p HD (proj1 B)) as (v & E & Fv & V). exists v. unfold delta_t64, delta_t. rewrite fcombine, rcombine, nan_cases, nan_cases_real.
  assert (HL : fair_node Y (last rest p)). { destruct HD as (_ & HF & _). apply (proj1 (Forall_forall _ _) HF). destruct rest as [|q r]; [left; reflexivity|]. right. rewrite last_cons. clear. revert q. induction r as [|a r IH]; intros q; [left; reflexivity|]. rewrite last_cons. right. apply IH. }
  destruct HD as (_ & HF & _). inversion HF as [|? ? Hp _]; subst. destruct Hp as ((Fp & _) & _). destruct HL as ((FL & _) & _).
  rewrite (fltb_val x (fst p)), (fltb_val (fst (last rest p)) x) by (apply Hx || assumption). destruct (Rlt_dec (B2R x) (B2R (fst p))); [lra|]. destruct (Rlt_dec (B2R (fst (last rest p))) (B2R x)); [lra|].
  rewrite E, (not_nan v Fv). split; [reflexivity|]. split; [exact Fv|exact V].
Qed.
(** Outside. *)
Lemma year_close (x : bf) : is_finite x = true -> Rabs (B2R x) <= 8388608 -> exists y : bf, year_of64 (B2SF x) = B2SF y /\ fair y /\ Rabs (B2R y - year_of (B2R x)) <= bpow radix2 (-37).
Proof.
  intros F B. apply Rabs_le_inv in B. unfold year_of64. destruct (of_Z_bf 1721045 ltac:(unfold fits; lia)) as (o & -> & Fo & Vo). destruct (fl_bf 1461 (-2) ltac:(unfold small; lia)) as (c & -> & Fc & Vc). unfold F2R in Vc. cbn [Fnum Fexp] in Vc. change (bpow radix2 (-2)) with (/ 4) in Vc.
  pose proof big_bound as Big. change (bpow radix2 40) with 1099511627776 in Big. destruct (fsub_val x o F Fo) as (d & -> & Fd & Vd); [rewrite Vo; apply Rabs_lt; lra|].
  assert (R : B2R x - B2R o - bpow radix2 (-30) <= B2R d <= B2R x - B2R o + bpow radix2 (-30)) by (rewrite Vd; apply (rnd_small _ 24); [lia|]; change (bpow radix2 24) with 16777216; rewrite Vo; apply Rabs_lt; lra). change (bpow radix2 (-30)) with (/ 1073741824) in R. rewrite Vo in R.
  destruct (fdiv_val d c Fd) as (y & -> & Fy & Vy); [rewrite Vc; lra|rewrite Vc; apply Rabs_lt; lra|]. exists y. split; [reflexivity|].
  assert (R2 : B2R d / B2R c - bpow radix2 (-39) <= B2R y <= B2R d / B2R c + bpow radix2 (-39)) by (rewrite Vy; apply (rnd_small _ 15); [lia|]; change (bpow radix2 15) with 32768; rewrite Vc; apply Rabs_lt; lra). change (bpow radix2 (-39)) with (/ 549755813888) in R2. rewrite Vc in R2.
  change (bpow radix2 (-37)) with (/ 137438953472). split; [|unfold year_of; apply Rabs_le; lra]. split; [exact Fy|]. assert (bpow radix2 40 <= bpow radix2 300) by (apply bpow_le; lia). change (bpow radix2 40) with 1099511627776 in *. apply Rabs_le. lra.
Qed.
Lemma outside_value n A J ratio a more (p : node) (rest : list node) (x : bf) : table_ok n A J ratio a more -> is_finite x = true -> Rabs (B2R x) <= 8388608 -> is_finite (fst p) = true -> is_finite (fst (last rest p)) = true ->
  B2R x < B2R (fst p) \/ B2R (fst (last rest p)) < B2R x -> B2R (blo a) + bpow radix2 (-37) <= year_of (B2R x) <= B2R (bhi (last more a)) - bpow radix2 (-37) ->
  exists v year : bf, delta_t64 (map row64_of (a :: more)) (floats (dates (p :: rest))) (floats (values (p :: rest))) (B2SF x) = B2SF v /\ is_finite v = true /\ Rabs (B2R year - year_of (B2R x)) <= bpow radix2 (-37) /\
    Rabs (B2R v - splines (map real_row (a :: more)) (B2R year)) <= J + INR n * INR n * (4 + (INR (length more) + 7) * (1 + ratio)) * (eps * A).
Proof.
  intros HT F B Fp FL HO HY. destruct (year_close x F B) as (y & Ey & Hy & Vy). pose proof Vy as Vy'. apply Rabs_le_inv in Vy'. destruct (curve_close n A J ratio a more y HT Hy ltac:(lra)) as (v & E & Fv & V). exists v, y.
  unfold delta_t64. rewrite fcombine, nan_cases.
  rewrite (fltb_val x (fst p)), (fltb_val (fst (last rest p)) x) by assumption.
  match goal with |- context [isnan64 ?t] => replace t with (S754_nan : b64) end.
  - cbn [isnan64]. rewrite Ey. split; [exact E|]. split; [exact Fv|]. split; [exact Vy|exact V].
  - destruct (Rlt_dec (B2R x) (B2R (fst p))); [reflexivity|]. destruct (Rlt_dec (B2R (fst (last rest p))) (B2R x)); [reflexivity|lra].
Qed.
(** ** The table changes slowly *)
Lemma interp_near l (rest : list node) : 0 <= l -> forall p x, apart (p :: rest) -> gentle l (p :: rest) -> B2R (fst p) <= x -> Rabs (interp_from x (B2R (fst p)) (B2R (snd p)) (map rnode rest) - B2R (snd p)) <= l * (x - B2R (fst p)).
Proof.
  intros L. pose proof LO_pos as L0. induction rest as [|q rest IH]; intros p x HA HG B.
  - cbn [map interp_from]. rewrite Rminus_eq_0, Rabs_R0. apply Rmult_le_pos; lra.
  - destruct HA as (G & HA). destruct HG as (S & HG). fold LO in G. cbn [map interp_from]. unfold rnode at 1. destruct (Rlt_dec x (B2R (fst q))) as [C|C].
    + set (g := B2R (fst q) - B2R (fst p)) in *. set (D := B2R (snd q) - B2R (snd p)) in *. replace (B2R (snd p) + (x - B2R (fst p)) * (D / g) - B2R (snd p)) with ((x - B2R (fst p)) * (D / g)) by ring. rewrite Rabs_mult, (Rabs_pos_eq (x - _)) by lra. rewrite Rmult_comm. apply Rmult_le_compat_r; [lra|].
      unfold Rdiv. rewrite Rabs_mult, (Rabs_pos_eq (/ g)) by (left; apply Rinv_0_lt_compat; lra). apply (Rmult_le_reg_r g); [lra|]. replace (Rabs D * / g * g) with (Rabs D) by (field; lra). exact S.
    + pose proof (IH q x HA HG ltac:(lra)) as H. set (v := interp_from x (B2R (fst q)) (B2R (snd q)) (map rnode rest)) in *. replace (v - B2R (snd p)) with (v - B2R (snd q) + (B2R (snd q) - B2R (snd p))) by ring. pose proof (Rabs_triang (v - B2R (snd q)) (B2R (snd q) - B2R (snd p))). lra.
Qed.
Lemma interp_steady l (rest : list node) : 0 <= l -> forall p x x', apart (p :: rest) -> gentle l (p :: rest) -> B2R (fst p) <= x -> x <= x' ->
  Rabs (interp_from x' (B2R (fst p)) (B2R (snd p)) (map rnode rest) - interp_from x (B2R (fst p)) (B2R (snd p)) (map rnode rest)) <= l * (x' - x).
Proof.
  intros L. pose proof LO_pos as L0. induction rest as [|q rest IH]; intros p x x' HA HG B B'.
  - cbn [map interp_from]. rewrite Rminus_eq_0, Rabs_R0. apply Rmult_le_pos; lra.
  - pose proof HA as (G & HA'). pose proof HG as (S & HG'). fold LO in G. cbn [map interp_from]. unfold rnode at 1 3. set (g := B2R (fst q) - B2R (fst p)) in *. set (D := B2R (snd q) - B2R (snd p)) in *.
    assert (SL : Rabs (D / g) <= l). { unfold Rdiv. rewrite Rabs_mult, (Rabs_pos_eq (/ g)) by (left; apply Rinv_0_lt_compat; lra). apply (Rmult_le_reg_r g); [lra|]. replace (Rabs D * / g * g) with (Rabs D) by (field; lra). exact S. }
    assert (P : forall y, 0 <= y -> Rabs (y * (D / g)) <= l * y) by (intros y Y; rewrite Rabs_mult, (Rabs_pos_eq y), Rmult_comm by exact Y; apply Rmult_le_compat_r; assumption).
    destruct (Rlt_dec x' (B2R (fst q))) as [C'|C']; destruct (Rlt_dec x (B2R (fst q))) as [C|C]; [| lra | |].
    + replace (B2R (snd p) + (x' - B2R (fst p)) * (D / g) - (B2R (snd p) + (x - B2R (fst p)) * (D / g))) with ((x' - x) * (D / g)) by ring. apply P. lra.
    + pose proof (interp_near l rest L q x' HA' HG' ltac:(lra)) as H. set (v := interp_from x' (B2R (fst q)) (B2R (snd q)) (map rnode rest)) in *. pose proof (P (B2R (fst q) - x) ltac:(lra)) as Q.
      replace (v - (B2R (snd p) + (x - B2R (fst p)) * (D / g))) with (v - B2R (snd q) + (B2R (fst q) - x) * (D / g)). { pose proof (Rabs_triang (v - B2R (snd q)) ((B2R (fst q) - x) * (D / g))). lra. }
      replace (B2R (snd q)) with (B2R (snd p) + D) by (unfold D; ring). replace (B2R (fst q)) with (B2R (fst p) + g) by (unfold g; ring). field. lra.
    + apply IH; try assumption. lra.
Qed.
Lemma delta_t_inside curve (p : node) (rest : list node) x : B2R (fst p) <= x <= B2R (fst (last rest p)) -> delta_t curve (reals (dates (p :: rest))) (reals (values (p :: rest))) x = interp_from x (B2R (fst p)) (B2R (snd p)) (map rnode rest).
Proof.
  intros B. unfold delta_t. rewrite rcombine, nan_cases_real. destruct (Rlt_dec x (B2R (fst p))); [lra|]. destruct (Rlt_dec (B2R (fst (last rest p))) x); [lra|]. reflexivity.
Qed.
Lemma interp_within Y (rest : list node) : forall p x, Forall (fair_node Y) (p :: rest) -> apart (p :: rest) -> B2R (fst p) <= x -> Rabs (interp_from x (B2R (fst p)) (B2R (snd p)) (map rnode rest)) <= Y.
Proof.
  pose proof LO_pos as L0. induction rest as [|q rest IH]; intros p x HF HA B; inversion HF as [|? ? (_ & _ & Hp) HF']; subst.
  - exact Hp.
  - inversion HF' as [|? ? (_ & _ & Hq) _]; subst. destruct HA as (G & HA). fold LO in G. cbn [map interp_from]. unfold rnode at 1. destruct (Rlt_dec x (B2R (fst q))) as [C|C].
    + set (g := B2R (fst q) - B2R (fst p)) in *. set (u := (x - B2R (fst p)) / g). assert (U : 0 <= u <= 1). { unfold u. split; [apply Rmult_le_pos; [lra|left; apply Rinv_0_lt_compat; lra]|]. apply (Rmult_le_reg_r g); [lra|]. replace ((x - B2R (fst p)) / g * g) with (x - B2R (fst p)) by (field; lra). unfold g. lra. }
      replace (B2R (snd p) + (x - B2R (fst p)) * ((B2R (snd q) - B2R (snd p)) / g)) with (B2R (snd p) * (1 - u) + B2R (snd q) * u) by (unfold u; field; lra). pose proof (Rabs_triang (B2R (snd p) * (1 - u)) (B2R (snd q) * u)) as T. rewrite !Rabs_mult, (Rabs_pos_eq (1 - u)), (Rabs_pos_eq u) in T by lra.
      assert (Rabs (B2R (snd p)) * (1 - u) <= Y * (1 - u)) by (apply Rmult_le_compat_r; lra). assert (Rabs (B2R (snd q)) * u <= Y * u) by (apply Rmult_le_compat_r; lra). lra.
    + apply IH; try assumption. lra.
Qed.
(** ** UT1 dates under the daily table *)
Lemma ut1_daily curve (p : node) (rest : list node) (jd : bf) : daily_ok 10000 p rest -> gentle (/ 50) (p :: rest) -> - 4194303 <= B2R (fst p) -> B2R (fst (last rest p)) <= 4194303 -> is_finite jd = true -> B2R (fst p) + 1 <= B2R jd <= B2R (fst (last rest p)) - 1 ->
  exists f z : bf, ut1_jd64 (delta_t64 (map row64_of curve) (floats (dates (p :: rest))) (floats (values (p :: rest)))) (B2SF jd) = UT (B2SF jd) (B2SF f) (B2SF z) /\ is_finite f = true /\ B2R z = 0 /\
    Rabs (86400 * B2R f - delta_t (map real_row curve) (reals (dates (p :: rest))) (reals (values (p :: rest))) (B2R jd + B2R f)) <= 102 / 100000000000.
Proof.
  intros HD HG BL BH F B. pose proof eps_val as Ev. pose proof HD as (_ & HF & HA).
  destruct (ut1_delta_t (delta_t64 (map row64_of curve) (floats (dates (p :: rest))) (floats (values (p :: rest)))) (delta_t (map real_row curve) (reals (dates (p :: rest))) (reals (values (p :: rest)))) (13 * (eps * 10000)) (B2R (fst p)) (B2R (fst (last rest p))) jd F) as (f & z & E & Ff & _ & Vz & V); [lra|exact BL|exact BH| | | |exact B|].
  - intros x Bx. rewrite delta_t_inside by exact Bx. apply interp_within; [exact HF|exact HA|lra].
  - intros x x' Bx Bx'. rewrite !delta_t_inside by assumption. destruct (Rle_lt_dec x x') as [C|C].
    + rewrite Rabs_minus_sym, (Rabs_minus_sym x). rewrite (Rabs_pos_eq (x' - x)) by lra. apply interp_steady; (assumption || lra).
    + rewrite (Rabs_pos_eq (x - x')) by lra. apply interp_steady; (assumption || lra).
  - intros x Fx Bx. apply table_value; [|exact HD|exact Bx]. split; [exact Fx|]. assert (Q : bpow radix2 40 <= bpow radix2 300) by (apply bpow_le; lia). change (bpow radix2 40) with 1099511627776 in Q. apply Rabs_le. lra.
  - exists f, z. split; [exact E|]. split; [exact Ff|]. split; [exact Vz|]. rewrite Ev in V. lra.
Qed.
(** ** A table *)
Lemma little_table : exists (p q : node) (jd x : bf), floats (dates [p; q]) = [of_Z 2451545; of_Z 2451645] /\ floats (values [p; q]) = [of_Z 64; of_Z 65] /\ B2SF jd = fl 4903189 (-1) /\ B2SF x = of_Z 2451700 /\
  daily_ok 10000 p [q] /\ gentle (/ 50) [p; q] /\ - 4194303 <= B2R (fst p) /\ B2R (fst (last [q] p)) <= 4194303 /\ is_finite jd = true /\ B2R (fst p) + 1 <= B2R jd <= B2R (fst (last [q] p)) - 1 /\ fair jd /\
  is_finite x = true /\ Rabs (B2R x) <= 8388608 /\ (B2R x < B2R (fst p) \/ B2R (fst (last [q] p)) < B2R x).
Proof.
  destruct (of_Z_bf 2451545 ltac:(unfold fits; lia)) as (a & Ea & Fa & Va). destruct (of_Z_bf 2451645 ltac:(unfold fits; lia)) as (b & Eb & Fb & Vb). destruct (of_Z_bf 64 ltac:(unfold fits; lia)) as (c & Ec & Fc & Vc). destruct (of_Z_bf 65 ltac:(unfold fits; lia)) as (d & Ed & Fd & Vd).
  destruct (fl_bf 4903189 (-1) ltac:(unfold small; lia)) as (j & Ej & Fj & Vj). unfold F2R in Vj. cbn [Fnum Fexp] in Vj. change (bpow radix2 (-1)) with (/ 2) in Vj. destruct (of_Z_bf 2451700 ltac:(unfold fits; lia)) as (x & Ex & Fx & Vx).
  assert (Q : bpow radix2 40 <= bpow radix2 300) by (apply bpow_le; lia). change (bpow radix2 40) with 1099511627776 in Q. assert (Q' : bpow radix2 (-300) <= 1) by (change 1 with (bpow radix2 0); apply bpow_le; lia).
  exists (a, c), (b, d), j, x. unfold floats, dates, values, daily_ok, fair_node, fair. cbn [map fst snd apart gentle last]. rewrite Ea, Eb, Ec, Ed, Ej, Ex, Va, Vb, Vc, Vd, Vj, Vx.
  split; [reflexivity|]. split; [reflexivity|]. split; [reflexivity|]. split; [reflexivity|]. split; [|split; [|split; [|split; [|split; [|split; [|split; [|split; [|split]]]]]]]]; try lra; try assumption.
  - split; [lra|]. split; [|split; [lra|exact I]]. apply Forall_cons; [|apply Forall_cons; [|apply Forall_nil]]; cbn [fst snd]; rewrite ?Va, ?Vb, ?Vc, ?Vd; (split; [split; [assumption|apply Rabs_le; lra]|split; [assumption|apply Rabs_le; lra]]).
  - split; [apply Rabs_le; lra|exact I].
  - split; [exact Fj|apply Rabs_le; lra].
  - apply Rabs_le. lra.
Qed.
