(** Proofs about splines in binary64: the choice of the row, and the curve. *)
From Coq Require Import ZArith Reals List Bool Lia Lra.
From Coq.Floats Require Import SpecFloat.
From Flocq Require Import Core BinarySingleNaN.
From Verif Require Import Float64 Float64_Proofs Float_Time_Model Float_Time_Proofs Float_Time_Proofs4 SexaF_Proofs2 CalF_Proofs CalF_Proofs2 Curve_Model Curve_Spec Curve_Proofs SplF_Model SplF_Spec SplF_Proofs.
Import ListNotations.
Open Scope R_scope.

Lemma fltb_val (x y : bf) : is_finite x = true -> is_finite y = true -> fltb (B2SF x) (B2SF y) = if Rlt_dec (B2R x) (B2R y) then true else false.
Proof.
  intros Fx Fy. unfold fltb. change (SFltb (B2SF x) (B2SF y)) with (Bltb x y). rewrite Bltb_correct by assumption. destruct (Rlt_bool_spec (B2R x) (B2R y)); destruct (Rlt_dec (B2R x) (B2R y)); try reflexivity; lra.
Qed.
Lemma feqb_val (x y : bf) : is_finite x = true -> is_finite y = true -> feqb (B2SF x) (B2SF y) = true -> B2R x = B2R y.
Proof. intros Fx Fy. unfold feqb. change (SFeqb (B2SF x) (B2SF y)) with (Beqb x y). rewrite Beqb_correct by assumption. destruct (Req_bool_spec (B2R x) (B2R y)); [auto|discriminate]. Qed.
Lemma trunc_ge0 (x : bf) (n : Z) : is_finite x = true -> (0 <= n < 2 ^ 40)%Z -> IZR n <= B2R x < IZR n + 1 -> ftruncZ (B2SF x) = n.
Proof.
  intros F N B. assert (N1 : 0 <= IZR n <= 1099511627776) by (split; apply IZR_le; lia). destruct (Req_dec (B2R x) 0) as [Z|Z].
  - assert (n = 0)%Z. { assert (n < 1)%Z by (apply lt_IZR; lra). lia. } subst n. destruct x as [s|s| |s m e H]; try discriminate F; [reflexivity|]. cbn [B2R] in Z. exfalso. apply eq_0_F2R in Z. destruct s; discriminate Z.
  - rewrite trunc_nonneg; [apply Zfloor_imp; rewrite plus_IZR; lra|exact F|apply sign_of_pos; [exact F|lra]|]. change (bpow radix2 51) with 2251799813685248. lra.
Qed.
Lemma step_index (x a b : bf) (k : Z) : fair x -> fair a -> fair b -> LO <= B2R b - B2R a -> (0 <= k <= 2 ^ 30)%Z -> B2R a <= B2R x < B2R b ->
  exists r : bf, fadd (fmul (fdiv (fsub (of_Z (k + 1)) (of_Z k)) (fsub (B2SF b) (B2SF a))) (fsub (B2SF x) (B2SF a))) (of_Z k) = B2SF r /\ is_finite r = true /\ IZR k <= B2R r < IZR k + 2 /\
    (IZR k + 1 <= B2R r -> B2R b - B2R x <= (IZR k + 7) * eps * (B2R b - B2R a)).
Proof.
  intros Hx Ha Hb G K B. assert (KR : 0 <= IZR k <= 1073741824) by (split; apply IZR_le; lia). pose proof LO_pos as L0. pose proof eps_val as Ev. pose proof HI_ge as H1. pose proof TOP_ge as T1. pose proof eta_HI as EH. pose proof eta_pos as E0.
  assert (EE : eta <= / 1000 * eps) by (assert (eta * 1 <= eta * HI) by (apply Rmult_le_compat_l; lra); lra).
  rewrite sub_Z by fit. replace (k + 1 - k)%Z with 1%Z by lia. destruct (of_Z_bf 1 ltac:(fit)) as (o & -> & Fo & Vo). destruct (of_Z_bf k ltac:(fit)) as (kk & -> & Fk & Vk).
  destruct (gap_close a b Ha Hb G) as (w & -> & Fw & Vw & Pw). destruct (offset_close x a (B2R b - B2R a) Hx Ha G) as (d & -> & Fd & Vd & Pd); [apply Rabs_le; lra|]. specialize (Pd ltac:(lra)).
  set (g := B2R b - B2R a) in *. set (y := B2R x - B2R a) in *. assert (G0 : 0 < g) by lra. pose proof (shrink g (B2R w) G0 Vw) as Q.
  assert (Y : 0 <= y / g < 1). { split; [apply Rmult_le_pos; [unfold y; lra|left; apply Rinv_0_lt_compat; lra]|]. apply (Rmult_lt_reg_r g); [lra|]. replace (y / g * g) with y by (field; lra). unfold y, g. lra. }
  assert (YA : Rabs (y / g) <= 1) by (apply Rabs_le; lra).
  assert (W1 : 0 < / B2R w) by (apply Rinv_0_lt_compat; lra). assert (W99 : 99 / 100 * LO <= B2R w). { apply Rabs_le_inv in Vw. assert (eps * g <= / 1000 * g) by (apply Rmult_le_compat_r; lra). lra. }
  assert (WH : / B2R w <= 2 * HI). { apply (Rmult_le_reg_r (B2R w)); [lra|]. rewrite Rinv_l by lra. assert (2 * HI * (99 / 100 * LO) <= 2 * HI * B2R w) by (apply Rmult_le_compat_l; lra). pose proof HI_LO. lra. }
  destruct (fdiv_val o w Fo) as (s & -> & Fs & Vs); [lra| |]. { fold TOP. rewrite Vo. unfold Rdiv. rewrite Rmult_1_l, Rabs_pos_eq by lra. lra. }
  rewrite Vo in Vs. unfold Rdiv in Vs. rewrite Rmult_1_l in Vs. pose proof (rnd_err (/ B2R w)) as RS. rewrite <- Vs, (Rabs_pos_eq (/ B2R w)) in RS by lra.
  assert (S0 : 0 <= B2R s). { rewrite Vs. change 0 with (IZR 0). rewrite <- (rnd_Z 0) by fit. apply rnd_le. lra. }
  assert (SW : Rabs (B2R s * B2R w - 1) <= 11 / 10 * eps).
  { replace (B2R s * B2R w - 1) with ((B2R s - / B2R w) * B2R w) by (field; lra). rewrite Rabs_mult, (Rabs_pos_eq (B2R w)) by lra. assert (M : Rabs (B2R s - / B2R w) * B2R w <= (eps * / B2R w + eta) * B2R w) by (apply Rmult_le_compat_r; lra).
    replace ((eps * / B2R w + eta) * B2R w) with (eps + eta * B2R w) in M by (field; lra). assert (eta * B2R w <= eta * (4 * HI)) by (apply Rmult_le_compat_l; lra). lra. }
  assert (U1 : Rabs 1 <= 1) by (rewrite Rabs_R1; lra).
  pose proof (times_near (g / B2R w) 1 (B2R s * B2R w) _ _ U1 Q SW ltac:(lra) ltac:(lra)) as Q2.
  pose proof (times_near (B2R d / g) (y / g) (g / B2R w * (B2R s * B2R w)) _ _ YA Vd Q2 ltac:(lra) ltac:(lra)) as P. replace (B2R d / g * (g / B2R w * (B2R s * B2R w))) with (B2R s * B2R d) in P by (field; lra).
  destruct (fmul_val s d Fs Fd) as (p & -> & Fp & Vp & _). { fold TOP. replace (B2R s * B2R d) with (B2R s * B2R d - y / g + y / g) by ring. pose proof (Rabs_triang (B2R s * B2R d - y / g) (y / g)). lra. }
  pose proof (rnd_unit _ _ _ YA P ltac:(lra)) as RP. rewrite <- Vp in RP. assert (RP2 : Rabs (B2R p - y / g) <= 5 * eps) by lra. apply Rabs_le_inv in RP2.
  assert (P0 : 0 <= B2R p). { rewrite Vp. change 0 with (IZR 0). rewrite <- (rnd_Z 0) by fit. apply rnd_le. apply Rmult_le_pos; assumption. }
  destruct (fadd_val p kk Fp Fk) as (r & -> & Fr & Vr). { fold TOP. rewrite Vk. apply Rabs_lt. assert (1073741826 < TOP) by (unfold TOP; assert (1073741826 <= bpow radix2 40) by (change (bpow radix2 40) with 1099511627776; lra); assert (bpow radix2 40 < bpow radix2 1007) by (apply bpow_lt; lia); lra). lra. }
  rewrite Vk in Vr. pose proof (rnd_err (B2R p + IZR k)) as RR. rewrite <- Vr, (Rabs_pos_eq (B2R p + IZR k)) in RR by lra. apply Rabs_le_inv in RR.
  exists r. split; [reflexivity|]. split; [exact Fr|]. assert (EK : eps * (B2R p + IZR k) <= eps * (IZR k + 1 + 5 * eps)) by (apply Rmult_le_compat_l; lra). assert (E5 : eps * (5 * eps) <= / 1000 * eps) by (rewrite Rmult_comm; apply Rmult_le_compat_r; lra).
  assert (KE : 0 <= eps * IZR k <= / 1000) by (split; [apply Rmult_le_pos; lra|]; assert (eps * IZR k <= eps * 1073741824) by (apply Rmult_le_compat_l; lra); lra). split; [split|].
  - rewrite Vr. rewrite <- (rnd_Z k) at 1 by fit. apply rnd_le. lra.
  - lra.
  - intros R1. assert (T : 1 - y / g <= (IZR k + 7) * eps) by lra. replace (B2R b - B2R x) with ((1 - y / g) * g) by (unfold y, g; field; unfold g in G0; lra). apply Rmult_le_compat_r; lra.
Qed.

(** ** The row chosen *)
Fixpoint pickb (a : brow) (rest : list brow) (x : R) : brow :=
  match rest with [] => a | b :: l => if Rlt_dec x (B2R (blo b)) then a else pickb b l x end.
Lemma pickb_real a rest x : pick (real_row a) (map real_row rest) x = real_row (pickb a rest x).
Proof. revert a. induction rest as [|b rest IH]; intros a; [reflexivity|]. cbn [map pick pickb real_row lo]. destruct (Rlt_dec x (B2R (blo b))); [reflexivity|apply IH]. Qed.
Fixpoint spaced_rows (rows : list brow) : Prop :=
  match rows with a :: ((b :: _) as r) => LO <= B2R (blo b) - B2R (blo a) /\ spaced_rows r | _ => True end.
(** [c] and [d] follow each other in the list. *)
Definition followed (rows : list brow) (c d : brow) : Prop := exists before after, rows = before ++ c :: d :: after.
Definition no_brow : brow := BRow (B754_zero false) (B754_zero false) [].
Lemma index_from64 : forall rest a k (x : bf), spaced_rows (a :: rest) -> Forall (fun r => fair (blo r)) (a :: rest) -> fair x -> (Z.of_nat (k + length rest) <= 2 ^ 20)%Z -> B2R (blo a) <= B2R x ->
  exists j, ftruncZ (interp_from64 (B2SF x) (B2SF (blo a)) (of_Z (Z.of_nat k)) (combine (map (fun r => B2SF (blo r)) rest) (map (fun k => of_Z (Z.of_nat k)) (seq (S k) (length rest))))) = Z.of_nat (k + j) /\
    (j <= length rest)%nat /\ let c := pickb a rest (B2R x) in let d := nth j (a :: rest) no_brow in
    d = c \/ (followed (a :: rest) c d /\ B2R (blo c) <= B2R x < B2R (blo d) /\ B2R (blo d) - B2R x <= (INR (k + length rest) + 7) * eps * (B2R (blo d) - B2R (blo c))).
Proof.
  induction rest as [|b rest IH]; intros a k x S HF Hx N L.
  - exists 0%nat. cbn [map combine interp_from64 length]. split; [|split; [lia|left; reflexivity]]. rewrite Nat.add_0_r. apply trunc_Z. cbn [length] in N. fit.
  - inversion HF as [|? ? Ha HF']; subst. inversion HF' as [|? ? Hb HF'']; subst. destruct S as (G & S).
    cbn [length seq map combine interp_from64 pickb]. cbn [length] in N. rewrite (fltb_val x (blo b)) by (apply Hx || apply Hb). destruct (Rlt_dec (B2R x) (B2R (blo b))) as [C|C].
    + destruct (feqb (B2SF (blo a)) (B2SF x)) eqn:Q.
      * exists 0%nat. split; [|split; [lia|left; reflexivity]]. rewrite Nat.add_0_r. apply trunc_Z. fit.
      * replace (Z.of_nat (Datatypes.S k)) with (Z.of_nat k + 1)%Z by lia. destruct (step_index x (blo a) (blo b) (Z.of_nat k) Hx Ha Hb G ltac:(lia) ltac:(lra)) as (r & -> & Fr & Br & Er).
        destruct (Rlt_le_dec (B2R r) (IZR (Z.of_nat k) + 1)) as [R|R].
        { exists 0%nat. split; [|split; [lia|left; reflexivity]]. rewrite Nat.add_0_r. apply trunc_ge0; [exact Fr|lia|lra]. }
        { exists 1%nat. split; [|split; [lia|]]. { replace (Z.of_nat (k + 1)) with (Z.of_nat k + 1)%Z by lia. apply trunc_ge0; [exact Fr|lia|rewrite plus_IZR; lra]. }
          cbv zeta. cbn [nth]. right. split; [exists [], rest; reflexivity|]. split; [lra|]. specialize (Er R). rewrite <- INR_IZR_INZ in Er. pose proof LO_pos as L0. pose proof eps_val.
          assert (M : (INR k + 7) * eps <= (INR (k + Datatypes.S (length rest)) + 7) * eps) by (apply Rmult_le_compat_r; [lra|]; rewrite plus_INR; pose proof (pos_INR (Datatypes.S (length rest))); lra).
          assert ((INR k + 7) * eps * (B2R (blo b) - B2R (blo a)) <= (INR (k + Datatypes.S (length rest)) + 7) * eps * (B2R (blo b) - B2R (blo a))) by (apply Rmult_le_compat_r; lra). lra. }
    + destruct (IH b (Datatypes.S k) x S HF' Hx ltac:(lia) ltac:(lra)) as (j & E & J & D). exists (Datatypes.S j). split; [rewrite E; f_equal; lia|]. split; [lia|]. cbv zeta in D |- *. cbn [nth]. replace (k + Datatypes.S (length rest))%nat with (Datatypes.S k + length rest)%nat by lia.
      destruct D as [D|((be & af & D1) & D2)]; [left; exact D|right]. split; [|exact D2]. exists (a :: be), af. rewrite D1. reflexivity.
Qed.

(** ** The curve *)
Lemma joined_tail J a l : joined J (a :: l) -> joined J l.
Proof. destruct l; [intros _; exact I|intros (_ & _ & H); exact H]. Qed.
Lemma rows_spaced n A J : forall rest a, Forall (fair_row n A) (a :: rest) -> joined J (map real_row (a :: rest)) -> spaced_rows (a :: rest).
Proof.
  induction rest as [|b rest IH]; intros a HF HJ; [exact I|]. inversion HF as [|? ? (_ & _ & W & _) HF']; subst. cbn [map joined real_row lo hi] in HJ. destruct HJ as (E & _ & HJ). split; [fold LO in W; lra|]. apply IH; [exact HF'|exact HJ].
Qed.
Lemma rows_sorted : forall rest a, spaced_rows (a :: rest) -> sorted (map real_row (a :: rest)).
Proof. pose proof LO_pos as L0. induction rest as [|b rest IH]; intros a S; [exact I|]. destruct S as (G & S). split; [cbn [real_row lo]; lra|]. apply IH. exact S. Qed.
Lemma last_any (r : brow) (l : list brow) (a b : brow) : last (r :: l) a = last (r :: l) b.
Proof. revert r. induction l as [|s l IH]; intros r; [reflexivity|]. cbn [last] in *. apply IH. Qed.
Lemma pickb_range J x : forall rest a, joined J (map real_row (a :: rest)) -> B2R (blo a) <= x <= B2R (bhi (last rest a)) -> let c := pickb a rest x in In c (a :: rest) /\ B2R (blo c) <= x <= B2R (bhi c).
Proof.
  induction rest as [|b rest IH]; intros a HJ B; cbv zeta.
  - cbn [pickb last] in *. split; [left; reflexivity|exact B].
  - cbn [pickb]. pose proof HJ as (E & _ & HJ'). cbn [map real_row lo hi] in E. destruct (Rlt_dec x (B2R (blo b))) as [C|C].
    + split; [left; reflexivity|]. lra.
    + destruct (IH b HJ') as (I & R); [|split; [right; exact I|exact R]]. split; [lra|]. destruct rest as [|r rest]; [exact (proj2 B)|]. rewrite (last_any r rest b a). exact (proj2 B).
Qed.
Lemma followed_facts J ratio rows c d : followed rows c d -> joined J (map real_row rows) -> widths_within ratio (map real_row rows) ->
  In c rows /\ In d rows /\ B2R (bhi c) = B2R (blo d) /\ Rabs (row_at (real_row c) (B2R (blo d)) - row_at (real_row d) (B2R (blo d))) <= J /\ B2R (bhi c) - B2R (blo c) <= ratio * (B2R (bhi d) - B2R (blo d)).
Proof.
  intros (be & af & ->) HJ HW. induction be as [|b be IH].
  - cbn [app map joined widths_within real_row lo hi] in HJ, HW. destruct HJ as (E1 & E2 & _). destruct HW as (E3 & _). split; [left; reflexivity|]. split; [right; left; reflexivity|]. split; [exact E1|]. split; [exact E2|exact E3].
  - cbn [app map] in HJ, HW. apply joined_tail in HJ. assert (HW' : widths_within ratio (map real_row (be ++ c :: d :: af))) by (destruct be; cbn [app map] in *; apply HW). destruct (IH HJ HW') as (I1 & I2 & R). split; [right; exact I1|]. split; [right; exact I2|exact R].
Qed.
Lemma row_close n A (r : brow) (x : bf) : (n <= 1000)%nat -> scale_ok A -> fair_row n A r -> fair x -> Rabs (B2R x - B2R (blo r)) <= B2R (bhi r) - B2R (blo r) ->
  exists v : bf, row_at64 (row64_of r) (B2SF x) = B2SF v /\ is_finite v = true /\ Rabs (B2R v - row_at (real_row r) (B2R x)) <= 4 * (INR n * INR n) * (eps * A).
Proof.
  intros N HA (Hl & Hh & W & L & C) Hx B. destruct (place_close x (blo r) (bhi r) Hx Hl Hh W B) as (t & Et & Ft & Vt). fold LO in W. pose proof LO_pos as L0. destruct (scale_eta A HA) as (A0 & _).
  set (g := B2R (bhi r) - B2R (blo r)) in *. set (y := B2R x - B2R (blo r)) in *. assert (Y : Rabs (y / g) <= 1). { unfold Rdiv. rewrite Rabs_mult, (Rabs_pos_eq (/ g)) by (left; apply Rinv_0_lt_compat; lra). apply (Rmult_le_reg_r g); [lra|]. replace (Rabs y * / g * g) with (Rabs y) by (field; lra). lra. }
  destruct (horner_close t (y / g) A (bco r) Ft Y Vt HA C ltac:(lia)) as (v & Ev' & Fv & Vv). exists v. unfold row_at64, width64, row64_of. cbn [lo64 hi64 co64]. rewrite Et. split; [exact Ev'|]. split; [exact Fv|].
  unfold row_at, width, real_row. cbn [lo hi co]. fold g y. assert (LN : INR (length (bco r)) <= INR n) by (apply le_INR; lia). pose proof (pos_INR (length (bco r))). assert (INR (length (bco r)) * INR (length (bco r)) <= INR n * INR n) by (apply Rmult_le_compat; assumption).
  pose proof eps_val. assert (0 < eps * A) by (apply Rmult_lt_0_compat; lra). assert (4 * (INR (length (bco r)) * INR (length (bco r))) * (eps * A) <= 4 * (INR n * INR n) * (eps * A)) by (apply Rmult_le_compat_r; lra). lra.
Qed.
(** Two places in one row. *)
Lemma row_moves n A (r : brow) (x z : R) : 0 <= A -> fair_row n A r -> Rabs (x - B2R (blo r)) <= B2R (bhi r) - B2R (blo r) -> Rabs (z - B2R (blo r)) <= B2R (bhi r) - B2R (blo r) ->
  Rabs (row_at (real_row r) x - row_at (real_row r) z) <= INR n * INR n * A * (Rabs (x - z) / (B2R (bhi r) - B2R (blo r))).
Proof.
  intros A0 (Hl & Hh & W & L & C) BX BZ. fold LO in W. pose proof LO_pos as L0. unfold row_at, width, real_row. cbn [lo hi co]. set (g := B2R (bhi r) - B2R (blo r)) in *.
  assert (U : forall y, Rabs y <= g -> Rabs (y / g) <= 1). { intros y Y. unfold Rdiv. rewrite Rabs_mult, (Rabs_pos_eq (/ g)) by (left; apply Rinv_0_lt_compat; lra). apply (Rmult_le_reg_r g); [lra|]. replace (Rabs y * / g * g) with (Rabs y) by (field; lra). lra. }
  assert (C' : Forall (fun c => Rabs c <= A) (map (fun c : bf => B2R c) (bco r))). { clear -C. induction (bco r); constructor; inversion C; subst; [tauto|auto]. }
  pose proof (horner_lipschitz ((x - B2R (blo r)) / g) ((z - B2R (blo r)) / g) A _ (U _ BX) (U _ BZ) A0 C') as H. rewrite map_length in H.
  replace ((x - B2R (blo r)) / g - (z - B2R (blo r)) / g) with ((x - z) / g) in H by (field; lra). replace (Rabs ((x - z) / g)) with (Rabs (x - z) / g) in H by (unfold Rdiv; rewrite Rabs_mult, (Rabs_pos_eq (/ g)) by (left; apply Rinv_0_lt_compat; lra); reflexivity).
  assert (LN : INR (length (bco r)) <= INR n) by (apply le_INR; lia). pose proof (pos_INR (length (bco r))). assert (INR (length (bco r)) * INR (length (bco r)) <= INR n * INR n) by (apply Rmult_le_compat; assumption).
  assert (D0 : 0 <= Rabs (x - z) / g) by (apply Rmult_le_pos; [apply Rabs_pos|left; apply Rinv_0_lt_compat; lra]).
  assert (INR (length (bco r)) * INR (length (bco r)) * A * (Rabs (x - z) / g) <= INR n * INR n * A * (Rabs (x - z) / g)) by (apply Rmult_le_compat_r; [exact D0|]; apply Rmult_le_compat_r; assumption). lra.
Qed.
(** The row chosen and the value there. *)
Lemma curve_cases n A J ratio a rest (x : bf) : table_ok n A J ratio a rest -> fair x -> B2R (blo a) <= B2R x <= B2R (bhi (last rest a)) ->
  exists (v : bf) (d : brow), splines64 (map row64_of (a :: rest)) (B2SF x) = B2SF v /\ is_finite v = true /\ let c := pickb a rest (B2R x) in
    splines (map real_row (a :: rest)) (B2R x) = row_at (real_row c) (B2R x) /\ In c (a :: rest) /\ B2R (blo c) <= B2R x <= B2R (bhi c) /\ Rabs (B2R v - row_at (real_row d) (B2R x)) <= 4 * (INR n * INR n) * (eps * A) /\
    (d = c \/ (followed (a :: rest) c d /\ B2R (blo c) <= B2R x < B2R (blo d) /\ B2R (blo d) - B2R x <= (INR (length rest) + 7) * eps * (B2R (blo d) - B2R (blo c)))).
Proof.
  intros (N & HA & HJ0 & HR & HN & HF & HJ & HW) Hx B. pose proof (rows_spaced _ _ _ _ _ HF HJ) as S. pose proof (rows_sorted _ _ S) as SS. pose proof eps_val as Ev.
  assert (HB : Forall (fun r => fair (blo r)) (a :: rest)) by (apply (Forall_impl _ (P := fair_row n A)); [intros r (H & _); exact H|exact HF]).
  destruct (index_from64 rest a 0 x S HB Hx ltac:(lia) ltac:(lra)) as (j & E & JL & D). destruct (pickb_range J (B2R x) rest a HJ B) as (IC & BC). cbv zeta in D. set (c := pickb a rest (B2R x)) in *. set (d := nth j (a :: rest) no_brow) in *. cbn [Nat.add] in D.
  assert (ID : In d (a :: rest)) by (apply nth_In; cbn [length]; lia).
  assert (BD : Rabs (B2R x - B2R (blo d)) <= B2R (bhi d) - B2R (blo d)).
  { destruct D as [->|(FO & D2 & D3)]; [apply Rabs_le; lra|]. destruct (followed_facts J ratio _ c d FO HJ HW) as (_ & _ & E1 & _ & E3).
    pose proof (proj1 (Forall_forall _ _) HF d ID) as (_ & _ & WD & _). fold LO in WD. pose proof LO_pos as L0. set (g := B2R (bhi d) - B2R (blo d)) in *. assert (NR : 0 <= INR (length rest) <= 1048576) by (split; [apply pos_INR|rewrite INR_IZR_INZ; apply IZR_le; lia]).
    assert (Q0 : 0 <= (INR (length rest) + 7) * eps <= 1048583 * eps) by (split; [apply Rmult_le_pos; lra|apply Rmult_le_compat_r; lra]). assert (Q1 : B2R (blo d) - B2R (blo c) <= 1048576 * g) by (assert (ratio * g <= 1048576 * g) by (apply Rmult_le_compat_r; lra); lra).
    assert (Q2 : (INR (length rest) + 7) * eps * (B2R (blo d) - B2R (blo c)) <= 1048583 * eps * (1048576 * g)) by (apply Rmult_le_compat; lra). assert (Q3 : 1048583 * eps * (1048576 * g) <= g) by (replace (1048583 * eps * (1048576 * g)) with (1048583 * 1048576 * eps * g) by ring; rewrite <- (Rmult_1_l g) at 2; apply Rmult_le_compat_r; lra).
    apply Rabs_le. lra. }
  destruct (row_close n A d x N HA (proj1 (Forall_forall _ _) HF d ID) Hx BD) as (v & Er & Fv & Vv). exists v, d. split; [|split; [exact Fv|]].
  - unfold splines64, row_index64. cbn [map length seq combine interp64]. cbn [row64_of lo64]. rewrite (fltb_val x (blo a)) by (apply Hx || (inversion HB as [|? ? Q ?]; apply Q)). destruct (Rlt_dec (B2R x) (B2R (blo a))) as [C|C]; [lra|].
    rewrite map_map, map_length. change (map (fun r => lo64 (row64_of r)) rest) with (map (fun r => B2SF (blo r)) rest). match goal with |- context [ftruncZ ?t] => replace (ftruncZ t) with (Z.of_nat (0 + j)) by (symmetry; exact E) end. cbn [Nat.add]. rewrite Nat2Z.id.
    change (row64_of a :: map row64_of rest) with (map row64_of (a :: rest)). rewrite (nth_indep _ no_row64 (row64_of no_brow)) by (rewrite map_length; cbn [length]; lia). rewrite map_nth. exact Er.
  - cbv zeta. split; [cbn [map]; rewrite (splines_pick (real_row a) (map real_row rest) (B2R x) SS), pickb_real; reflexivity|]. split; [exact IC|]. split; [exact BC|]. split; [exact Vv|exact D].
Qed.
Lemma curve_close n A J ratio a rest (x : bf) : table_ok n A J ratio a rest -> fair x -> B2R (blo a) <= B2R x <= B2R (bhi (last rest a)) ->
  exists v : bf, splines64 (map row64_of (a :: rest)) (B2SF x) = B2SF v /\ is_finite v = true /\
    Rabs (B2R v - splines (map real_row (a :: rest)) (B2R x)) <= J + INR n * INR n * (4 + (INR (length rest) + 7) * (1 + ratio)) * (eps * A).
Proof.
  intros HT Hx B. destruct (curve_cases n A J ratio a rest x HT Hx B) as (v & d & E & Fv & C). cbv zeta in C. set (c := pickb a rest (B2R x)) in *. destruct C as (-> & IC & BC & Vv & D). destruct HT as (N & HA & HJ0 & HR & HN & HF & HJ & HW). exists v. split; [exact E|]. split; [exact Fv|].
  pose proof eps_val as Ev. destruct (scale_eta A HA) as (A0 & _). assert (EA : 0 < eps * A) by (apply Rmult_lt_0_compat; lra). pose proof (pos_INR n) as N0. pose proof (pos_INR (length rest)) as L0. set (nn := INR n * INR n) in *. assert (NN : 0 <= nn) by (apply Rmult_le_pos; lra). set (M := INR (length rest) + 7) in *.
  assert (NE : 0 <= nn * (eps * A)) by (apply Rmult_le_pos; lra). set (K := nn * (eps * A)) in *. replace (nn * (4 + M * (1 + ratio)) * (eps * A)) with (4 * K + M * K + M * ratio * K) by (unfold K; ring). replace (4 * nn * (eps * A)) with (4 * K) in Vv by (unfold K; ring).
  assert (MK : 0 <= M * K) by (apply Rmult_le_pos; unfold M; lra). assert (MRK : 0 <= M * ratio * K) by (apply Rmult_le_pos; [apply Rmult_le_pos; unfold M; lra|lra]).
  destruct D as [->|(FO & D2 & D3)]; [lra|]. destruct (followed_facts J ratio _ c d FO HJ HW) as (_ & ID & E1 & E2 & E3). pose proof (proj1 (Forall_forall _ _) HF d ID) as FD. pose proof (proj1 (Forall_forall _ _) HF c IC) as FC. pose proof LO_pos as LP.
  pose proof FD as (_ & _ & WD & _). pose proof FC as (_ & _ & WC & _). fold LO in WD, WC. set (gc := B2R (bhi c) - B2R (blo c)) in *. set (gd := B2R (bhi d) - B2R (blo d)) in *. assert (GC : B2R (blo d) - B2R (blo c) = gc) by (unfold gc; lra). rewrite GC in D3.
  assert (ME : 0 <= M * eps) by (apply Rmult_le_pos; unfold M; lra). assert (D4 : M * eps * gc <= M * eps * (ratio * gd)) by (apply Rmult_le_compat_l; assumption). 
  assert (MR : M * eps * ratio <= 1). { assert (M <= 1048583) by (unfold M; rewrite INR_IZR_INZ; assert (IZR (Z.of_nat (length rest)) <= 1048576) by (apply IZR_le; lia); lra). assert (M * eps <= 1048583 * eps) by (apply Rmult_le_compat_r; lra). assert (M * eps * ratio <= 1048583 * eps * 1048576) by (apply Rmult_le_compat; lra). lra. }
  assert (D5 : M * eps * (ratio * gd) <= gd) by (replace (M * eps * (ratio * gd)) with (M * eps * ratio * gd) by ring; rewrite <- (Rmult_1_l gd) at 2; apply Rmult_le_compat_r; lra).
  pose proof (row_moves n A d (B2R x) (B2R (blo d)) ltac:(lra) FD) as P1. fold gd nn in P1. specialize (P1 ltac:(apply Rabs_le; lra)). rewrite Rminus_eq_0, Rabs_R0 in P1. specialize (P1 ltac:(lra)).
  pose proof (row_moves n A c (B2R x) (B2R (blo d)) ltac:(lra) FC) as P2. fold gc nn in P2. specialize (P2 ltac:(apply Rabs_le; lra) ltac:(apply Rabs_le; lra)).
  assert (XD : Rabs (B2R x - B2R (blo d)) = B2R (blo d) - B2R x) by (rewrite Rabs_left by lra; ring). rewrite XD in P1, P2.
  assert (Q1 : (B2R (blo d) - B2R x) / gd <= M * eps * ratio) by (apply (Rmult_le_reg_r gd); [lra|]; replace ((B2R (blo d) - B2R x) / gd * gd) with (B2R (blo d) - B2R x) by (field; lra); lra).
  assert (Q2 : (B2R (blo d) - B2R x) / gc <= M * eps) by (apply (Rmult_le_reg_r gc); [lra|]; replace ((B2R (blo d) - B2R x) / gc * gc) with (B2R (blo d) - B2R x) by (field; lra); lra).
  assert (NA : 0 <= nn * A) by (apply Rmult_le_pos; lra).
  assert (P1' : nn * A * ((B2R (blo d) - B2R x) / gd) <= M * ratio * K) by (replace (M * ratio * K) with (nn * A * (M * eps * ratio)) by (unfold K; ring); apply Rmult_le_compat_l; assumption).
  assert (P2' : nn * A * ((B2R (blo d) - B2R x) / gc) <= M * K) by (replace (M * K) with (nn * A * (M * eps)) by (unfold K; ring); apply Rmult_le_compat_l; assumption).
  apply Rabs_le_inv in Vv, E2. assert (P1b := Rle_trans _ _ _ P1 P1'). assert (P2b := Rle_trans _ _ _ P2 P2'). apply Rabs_le_inv in P1b, P2b. apply Rabs_le. lra.
Qed.
(** Away from the ends of the rows. *)
Lemma curve_inside n A J ratio a rest (x : bf) : table_ok n A J ratio a rest -> fair x -> B2R (blo a) <= B2R x <= B2R (bhi (last rest a)) ->
  (forall c, In c (a :: rest) -> B2R (blo c) <= B2R x < B2R (bhi c) -> (INR (length rest) + 7) * eps * (B2R (bhi c) - B2R (blo c)) < B2R (bhi c) - B2R x) ->
  exists v : bf, splines64 (map row64_of (a :: rest)) (B2SF x) = B2SF v /\ is_finite v = true /\ Rabs (B2R v - splines (map real_row (a :: rest)) (B2R x)) <= 4 * (INR n * INR n) * (eps * A).
Proof.
  intros HT Hx B HI. destruct (curve_cases n A J ratio a rest x HT Hx B) as (v & d & E & Fv & C). cbv zeta in C. set (c := pickb a rest (B2R x)) in *. destruct C as (-> & IC & BC & Vv & D). destruct HT as (N & HA & HJ0 & HR & HN & HF & HJ & HW). exists v. split; [exact E|]. split; [exact Fv|].
  destruct D as [->|(FO & D2 & D3)]; [exact Vv|]. exfalso. destruct (followed_facts J ratio _ c d FO HJ HW) as (_ & ID & E1 & _). specialize (HI c IC ltac:(lra)). rewrite E1 in HI. lra.
Qed.

(** ** Examples *)
Lemma scale_1_ok A : 1 <= A <= 2 -> scale_ok A.
Proof. intros H. unfold scale_ok. assert (bpow radix2 (-900) <= 1) by (change 1 with (bpow radix2 0); apply bpow_le; lia). assert (2 <= bpow radix2 900) by (change 2 with (bpow radix2 1); apply bpow_le; lia). lra. Qed.
Lemma fair_small (x : bf) : is_finite x = true -> Rabs (B2R x) <= 3 -> fair x.
Proof. intros F B. split; [exact F|]. assert (4 <= bpow radix2 300) by (change 4 with (bpow radix2 2); apply bpow_le; lia). lra. Qed.
Lemma LO_le : bpow radix2 (-300) <= 1. Proof. change 1 with (bpow radix2 0). apply bpow_le. lia. Qed.
(** A line that bends at 1. *)
Lemma bent_line : exists (a b : brow) (x : bf), map row64_of [a; b] = [Row64 (of_Z 0) (of_Z 1) [of_Z 1; of_Z 0]; Row64 (of_Z 1) (of_Z 3) [of_Z (-2); of_Z 1]] /\ B2SF x = of_Z 2 /\
  table_ok 2 2 0 1 a [b] /\ fair x /\ B2R (blo a) <= B2R x <= B2R (bhi (last [b] a)) /\
  (forall c, In c [a; b] -> B2R (blo c) <= B2R x < B2R (bhi c) -> (INR (length [b]) + 7) * eps * (B2R (bhi c) - B2R (blo c)) < B2R (bhi c) - B2R x).
Proof.
  destruct (of_Z_bf 0 ltac:(fit)) as (z0 & E0 & F0 & V0). destruct (of_Z_bf 1 ltac:(fit)) as (z1 & E1 & F1 & V1). destruct (of_Z_bf 2 ltac:(fit)) as (z2 & E2 & F2 & V2). destruct (of_Z_bf 3 ltac:(fit)) as (z3 & E3 & F3 & V3). destruct (of_Z_bf (-2) ltac:(fit)) as (m2 & Em & Fm & Vm).
  pose proof LO_le as L. exists (BRow z0 z1 [z1; z0]), (BRow z1 z3 [m2; z1]), z2. rewrite E0, E1, E2, E3, Em. split; [reflexivity|]. split; [reflexivity|].
  assert (A0 : fair z0) by (apply fair_small; [exact F0|rewrite V0; apply Rabs_le; lra]). assert (A1 : fair z1) by (apply fair_small; [exact F1|rewrite V1; apply Rabs_le; lra]). assert (A2 : fair z2) by (apply fair_small; [exact F2|rewrite V2; apply Rabs_le; lra]). assert (A3 : fair z3) by (apply fair_small; [exact F3|rewrite V3; apply Rabs_le; lra]).
  split; [|split; [exact A2|split; [cbn [blo bhi last]; lra|]]].
  - split; [lia|]. split; [apply scale_1_ok; lra|]. split; [lra|]. split; [lra|]. split; [reflexivity|]. split; [|split].
    + apply Forall_cons; [|apply Forall_cons; [|apply Forall_nil]]; (split; [assumption|]; split; [assumption|]; split; [cbn [blo bhi]; lra|]; split; [cbn [bco length]; lia|]); cbn [bco].
      * apply Forall_cons; [split; [exact F1|rewrite V1; apply Rabs_le; lra]|]. apply Forall_cons; [split; [exact F0|rewrite V0; apply Rabs_le; lra]|apply Forall_nil].
      * apply Forall_cons; [split; [exact Fm|rewrite Vm; apply Rabs_le; lra]|]. apply Forall_cons; [split; [exact F1|rewrite V1; apply Rabs_le; lra]|apply Forall_nil].
    + cbn [map joined real_row lo hi]. split; [reflexivity|]. split; [|exact I]. unfold row_at, width, real_row, horner. cbn [lo hi co bco map fold_left blo bhi]. rewrite V0, V1, V3, Vm. apply Rabs_le. lra.
    + cbn [map widths_within]. unfold width, real_row. cbn [lo hi blo bhi]. split; [lra|exact I].
  - intros c [<-|[<-|[]]]; cbn [blo bhi length]; change (INR 1) with 1; rewrite eps_val, ?V0, ?V1, ?V2, ?V3; intros; lra.
Qed.
(** A step: just below 0 the code takes the row that starts there. *)
Lemma step_taken : exists (a b : brow) (x : bf), B2SF x = fl (-1) (-100) /\ table_ok 1 1 1 1 a [b] /\ fair x /\ B2R (blo a) <= B2R x <= B2R (bhi (last [b] a)) /\ B2R x < B2R (blo b) /\
  splines64 (map row64_of [a; b]) (B2SF x) = of_Z 1 /\ splines (map real_row [a; b]) (B2R x) = 0.
Proof.
  destruct (of_Z_bf 0 ltac:(fit)) as (z0 & E0 & F0 & V0). destruct (of_Z_bf 1 ltac:(fit)) as (z1 & E1 & F1 & V1). destruct (of_Z_bf (-1) ltac:(fit)) as (m1 & Em & Fm & Vm). destruct (fl_bf (-1) (-100) ltac:(unfold small; lia)) as (x & Ex & Fx & Vx).
  unfold F2R in Vx. cbn [Fnum Fexp] in Vx. assert (X : - / 2 <= B2R x < 0). { rewrite Vx. pose proof (bpow_gt_0 radix2 (-100)). assert (bpow radix2 (-100) <= bpow radix2 (-1)) by (apply bpow_le; lia). change (bpow radix2 (-1)) with (/ 2) in *. lra. }
  pose proof LO_le as L. exists (BRow m1 z0 [z0]), (BRow z0 z1 [z1]), x. split; [symmetry; exact Ex|].
  assert (A0 : fair z0) by (apply fair_small; [exact F0|rewrite V0; apply Rabs_le; lra]). assert (A1 : fair z1) by (apply fair_small; [exact F1|rewrite V1; apply Rabs_le; lra]). assert (Am : fair m1) by (apply fair_small; [exact Fm|rewrite Vm; apply Rabs_le; lra]). assert (Ax : fair x) by (apply fair_small; [exact Fx|apply Rabs_le; lra]).
  assert (S : spaced_rows [BRow m1 z0 [z0]; BRow z0 z1 [z1]]) by (split; [unfold LO; cbn [blo]; lra|exact I]).
  split; [|split; [exact Ax|split; [cbn [blo bhi last]; lra|split; [cbn [blo]; lra|split]]]].
  - split; [lia|]. split; [apply scale_1_ok; lra|]. split; [lra|]. split; [lra|]. split; [reflexivity|]. split; [|split].
    + apply Forall_cons; [|apply Forall_cons; [|apply Forall_nil]]; (split; [assumption|]; split; [assumption|]; split; [cbn [blo bhi]; lra|]; split; [cbn [bco length]; lia|]); cbn [bco].
      * apply Forall_cons; [split; [exact F0|rewrite V0; apply Rabs_le; lra]|apply Forall_nil].
      * apply Forall_cons; [split; [exact F1|rewrite V1; apply Rabs_le; lra]|apply Forall_nil].
    + cbn [map joined real_row lo hi]. split; [reflexivity|]. split; [|exact I]. unfold row_at, real_row, horner. cbn [co bco map fold_left]. rewrite V0, V1. apply Rabs_le. lra.
    + cbn [map widths_within]. unfold width, real_row. cbn [lo hi blo bhi]. split; [lra|exact I].
  - unfold row64_of. cbn [map blo bhi bco]. rewrite <- E0, <- E1, <- Em, <- Ex. vm_compute. reflexivity.
  - cbn [map]. rewrite (splines_pick _ [_] _ (rows_sorted _ _ S)). cbn [pick real_row lo blo]. destruct (Rlt_dec (B2R x) (B2R z0)) as [C|C]; [|lra]. unfold row_at, real_row, horner. cbn [co bco map fold_left]. exact V0.
Qed.
