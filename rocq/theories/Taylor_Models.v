(** Verified bounds by Taylor models: a function of a variable between -1 and 1 is held as a
    polynomial with integer coefficients, in units of 2^-80, and a bound of the error. *)
From Coq Require Import Reals ZArith List Lra Lia Psatz.
From Verif Require Import Pi_Bounds Frames_Proofs.
Import ListNotations.
Open Scope R_scope.

(** * Polynomials *)
Fixpoint peval (l : list Z) (s : R) : R := match l with [] => 0 | c :: l => IZR c + s * peval l s end.
Fixpoint norm (l : list Z) : Z := match l with [] => 0 | c :: l => Z.abs c + norm l end%Z.
Fixpoint padd (a b : list Z) : list Z :=
  match a, b with [], _ => b | _, [] => a | x :: a, y :: b => (x + y)%Z :: padd a b end.
Definition pscale (c : Z) (l : list Z) : list Z := map (Z.mul c) l.
Fixpoint pmul (a b : list Z) : list Z := match a with [] => [] | c :: a => padd (pscale c b) (0%Z :: pmul a b) end.
Definition popp (l : list Z) : list Z := map Z.opp l.
Definition pdiv (n : Z) (l : list Z) : list Z := map (fun c => (c / n)%Z) l.

Lemma norm_pos l : (0 <= norm l)%Z. Proof. induction l as [|c l IH]; cbn [norm]; lia. Qed.
Lemma peval_norm l s : Rabs s <= 1 -> Rabs (peval l s) <= IZR (norm l).
Proof.
  intros S. induction l as [|c l IH]; cbn [peval norm]; [rewrite Rabs_R0; lra|]. rewrite plus_IZR, abs_IZR.
  apply Rle_trans with (1 := Rabs_triang _ _). rewrite Rabs_mult. pose proof (Rabs_pos s). pose proof (Rabs_pos (peval l s)). nra.
Qed.
Lemma peval_add a b s : peval (padd a b) s = peval a s + peval b s.
Proof. revert b. induction a as [|x a IH]; intros [|y b]; cbn [padd peval]; try ring. rewrite IH, plus_IZR. ring. Qed.
Lemma peval_scale c l s : peval (pscale c l) s = IZR c * peval l s.
Proof. induction l as [|x l IH]; cbn [pscale map peval]; [ring|]. fold (pscale c l). rewrite IH, mult_IZR. ring. Qed.
Lemma peval_mul a b s : peval (pmul a b) s = peval a s * peval b s.
Proof. induction a as [|x a IH]; cbn [pmul peval]; [ring|]. rewrite peval_add, peval_scale. cbn [peval]. rewrite IH. ring. Qed.
Lemma peval_opp l s : peval (popp l) s = - peval l s.
Proof. induction l as [|x l IH]; cbn [popp map peval]; [ring|]. fold (popp l). rewrite IH, opp_IZR. ring. Qed.
Lemma div_near c n : (0 < n)%Z -> Rabs (IZR c / IZR n - IZR (c / n)) <= 1.
Proof.
  intros N. pose proof (Z.div_mod c n ltac:(lia)) as D. pose proof (Z.mod_pos_bound c n N) as M. rewrite D at 1. rewrite plus_IZR, mult_IZR.
  assert (P : 0 < IZR n) by (apply IZR_lt; exact N). replace ((IZR n * IZR (c / n) + IZR (c mod n)) / IZR n - IZR (c / n)) with (IZR (c mod n) / IZR n) by (field; lra).
  destruct M as [M1 M2]. apply IZR_le in M1. apply IZR_lt in M2. apply Rabs_le. split.
  - apply Rle_trans with 0; [lra|]. apply Rmult_le_pos; [exact M1|]. left. apply Rinv_0_lt_compat, P.
  - apply Rmult_le_reg_r with (1 := P). unfold Rdiv. rewrite Rmult_assoc, Rinv_l by lra. lra.
Qed.
Lemma peval_div n l s : (0 < n)%Z -> Rabs s <= 1 -> Rabs (peval l s / IZR n - peval (pdiv n l) s) <= IZR (Z.of_nat (length l)).
Proof.
  intros N S. induction l as [|c l IH]; cbn [pdiv map peval length]; [unfold Rdiv; rewrite Rmult_0_l, Rminus_0_r, Rabs_R0; cbn; lra|].
  fold (pdiv n l). replace ((IZR c + s * peval l s) / IZR n - (IZR (c / n) + s * peval (pdiv n l) s)) with ((IZR c / IZR n - IZR (c / n)) + s * (peval l s / IZR n - peval (pdiv n l) s)) by (unfold Rdiv; ring).
  apply Rle_trans with (1 := Rabs_triang _ _). rewrite Rabs_mult, Nat2Z.inj_succ, succ_IZR. pose proof (div_near c n N). pose proof (Rabs_pos s). pose proof (Rabs_pos (peval l s / IZR n - peval (pdiv n l) s)). nra.
Qed.
Lemma peval_cut d l s : Rabs s <= 1 -> Rabs (peval l s - peval (firstn d l) s) <= IZR (norm (skipn d l)).
Proof.
  intros S. revert l. induction d as [|d IH]; intros l; [cbn [firstn skipn peval]; rewrite Rminus_0_r; apply peval_norm, S|].
  destruct l as [|c l]; cbn [firstn skipn peval norm]; [rewrite Rminus_0_r, Rabs_R0; lra|].
  replace (IZR c + s * peval l s - (IZR c + s * peval (firstn d l) s)) with (s * (peval l s - peval (firstn d l) s)) by ring.
  rewrite Rabs_mult. specialize (IH l). pose proof (Rabs_pos s). pose proof (Rabs_pos (peval l s - peval (firstn d l) s)). nra.
Qed.

(** * Models *)
Definition unit_ : Z := (2 ^ 80)%Z.
Definition down (c : Z) : Z := Z.shiftr c 80.
Definition tm : Type := list Z * Z.
Definition encl (s : R) (m : tm) (x : R) : Prop := Rabs (x * IZR unit_ - peval (fst m) s) <= IZR (snd m).
Definition tadd (a b : tm) : tm := (padd (fst a) (fst b), snd a + snd b)%Z.
Definition topp (a : tm) : tm := (popp (fst a), snd a).
Definition tpoly (cs : list Z) (q : Z) : tm := (map (fun c => (c * unit_ / q)%Z) cs, Z.of_nat (length cs)).
Definition tmul (d : nat) (a b : tm) : tm :=
  let p := map down (pmul (fst a) (fst b)) in
  (firstn d p, down ((norm (fst a) + snd a) * snd b) + down (norm (fst b) * snd a) + 2 + Z.of_nat (length p) + norm (skipn d p))%Z.
Definition tdiv (n : Z) (a : tm) : tm := (pdiv n (fst a), snd a / n + 1 + Z.of_nat (length (fst a)))%Z.
Definition tone : tm := ([unit_], 0%Z).
Fixpoint tnest (d n : nat) (k : Z) (q : tm) : tm :=
  match n with O => tone | S n => tadd tone (topp (tdiv (k * (k + 1)) (tmul d q (tnest d n (k + 2) q)))) end.
Definition size (a : tm) : Z := (norm (fst a) + snd a)%Z.
Definition grow (a : tm) : tm := (fst a, snd a + 1)%Z.
Definition tsin (d : nat) (a : tm) : option tm := if (2 * size a <=? unit_)%Z then Some (grow (tmul d a (tnest d 9 2 (tmul d a a)))) else None.
Definition tcos (d : nat) (a : tm) : option tm := if (2 * size a <=? unit_)%Z then Some (grow (tnest d 9 1 (tmul d a a))) else None.

Lemma down_eq c : down c = (c / unit_)%Z. Proof. unfold down, unit_. apply Z.shiftr_div_pow2. lia. Qed.
Lemma map_down l : map down l = pdiv unit_ l. Proof. apply map_ext, down_eq. Qed.
Lemma unit_pos : 0 < IZR unit_. Proof. apply IZR_lt. reflexivity. Qed.
Global Opaque unit_.
Section At.
Variables (s : R) (Hs : Rabs s <= 1).
Lemma tadd_ok a b x y : encl s a x -> encl s b y -> encl s (tadd a b) (x + y).
Proof.
  unfold encl, tadd. cbn [fst snd]. rewrite peval_add, plus_IZR. intros A B.
  replace ((x + y) * IZR unit_ - (peval (fst a) s + peval (fst b) s)) with ((x * IZR unit_ - peval (fst a) s) + (y * IZR unit_ - peval (fst b) s)) by ring.
  apply Rle_trans with (1 := Rabs_triang _ _). lra.
Qed.
Lemma topp_ok a x : encl s a x -> encl s (topp a) (- x).
Proof. unfold encl, topp. cbn [fst snd]. rewrite peval_opp. intros A. replace (- x * IZR unit_ - - peval (fst a) s) with (- (x * IZR unit_ - peval (fst a) s)) by ring. rewrite Rabs_Ropp. exact A. Qed.
Lemma tpoly_ok cs q : (0 < q)%Z -> encl s (tpoly cs q) (peval cs s / IZR q).
Proof.
  intros Q. unfold encl, tpoly. cbn [fst snd]. assert (E : map (fun c => (c * unit_ / q)%Z) cs = pdiv q (pscale unit_ cs)).
  { unfold pdiv, pscale. rewrite map_map. apply map_ext. intros c. rewrite Z.mul_comm. reflexivity. }
  rewrite E. replace (peval cs s / IZR q * IZR unit_) with (peval (pscale unit_ cs) s / IZR q) by (rewrite peval_scale; unfold Rdiv; ring).
  apply Rle_trans with (1 := peval_div q _ s Q Hs). unfold pscale. rewrite map_length. lra.
Qed.
Lemma quot_up a n : (0 < n)%Z -> IZR a / IZR n <= IZR (a / n) + 1.
Proof. intros N. pose proof (div_near a n N) as H. apply Rabs_def2_le in H. lra. Qed.
Lemma encl_size a x : encl s a x -> Rabs (x * IZR unit_) <= IZR (size a).
Proof.
  unfold encl, size. intros A. rewrite plus_IZR. pose proof (peval_norm (fst a) s Hs). replace (x * IZR unit_) with ((x * IZR unit_ - peval (fst a) s) + peval (fst a) s) by ring.
  apply Rle_trans with (1 := Rabs_triang _ _). lra.
Qed.
Lemma tmul_ok d a b x y : encl s a x -> encl s b y -> encl s (tmul d a b) (x * y).
Proof.
  intros A B. pose proof (encl_size a x A) as SA. unfold encl in *. unfold tmul. cbv zeta. cbn [fst snd]. rewrite map_down, !down_eq. set (p := pmul (fst a) (fst b)). set (U := IZR unit_) in *. assert (UP : 0 < U) by exact unit_pos.
  assert (UZ : (0 < unit_)%Z) by (apply lt_IZR; exact unit_pos).
  pose proof (peval_norm (fst b) s Hs) as NB.
  assert (E : Rabs (x * U * (y * U) - peval p s) <= IZR ((norm (fst a) + snd a) * snd b) + IZR (norm (fst b) * snd a)).
  { unfold p. rewrite peval_mul. replace (x * U * (y * U) - peval (fst a) s * peval (fst b) s) with (x * U * (y * U - peval (fst b) s) + peval (fst b) s * (x * U - peval (fst a) s)) by ring.
    apply Rle_trans with (1 := Rabs_triang _ _). rewrite (Rabs_mult (x * U)), (Rabs_mult (peval (fst b) s)), !mult_IZR. fold (size a).
    apply Rplus_le_compat; apply Rmult_le_compat; try apply Rabs_pos; assumption. }
  pose proof (peval_div unit_ p s UZ Hs) as D. fold U in D. pose proof (peval_cut d (pdiv unit_ p) s Hs) as C.
  assert (L : length (pdiv unit_ p) = length p) by apply map_length.
  rewrite !plus_IZR, L.
  replace (x * y * U - peval (firstn d (pdiv unit_ p)) s) with ((x * U * (y * U) - peval p s) / U + ((peval p s / U - peval (pdiv unit_ p) s) + (peval (pdiv unit_ p) s - peval (firstn d (pdiv unit_ p)) s))) by (field; lra).
  apply Rle_trans with (1 := Rabs_triang _ _).
  assert (E1 : Rabs ((x * U * (y * U) - peval p s) / U) <= IZR ((norm (fst a) + snd a) * snd b / unit_) + IZR (norm (fst b) * snd a / unit_) + 2).
  { unfold Rdiv. rewrite Rabs_mult, (Rabs_pos_eq (/ U)) by (left; apply Rinv_0_lt_compat, UP).
    apply Rle_trans with ((IZR ((norm (fst a) + snd a) * snd b) + IZR (norm (fst b) * snd a)) * / U); [apply Rmult_le_compat_r; [left; apply Rinv_0_lt_compat, UP|exact E]|].
    pose proof (quot_up ((norm (fst a) + snd a) * snd b) unit_ UZ) as Q1. pose proof (quot_up (norm (fst b) * snd a) unit_ UZ) as Q2. fold U in Q1, Q2. unfold Rdiv in Q1, Q2. lra. }
  pose proof (Rabs_triang (peval p s / U - peval (pdiv unit_ p) s) (peval (pdiv unit_ p) s - peval (firstn d (pdiv unit_ p)) s)). lra.
Qed.
Lemma tdiv_ok n a x : (0 < n)%Z -> encl s a x -> encl s (tdiv n a) (x / IZR n).
Proof.
  intros N A. unfold encl in *. unfold tdiv. cbn [fst snd]. assert (NP : 0 < IZR n) by (apply IZR_lt, N). pose proof (peval_div n (fst a) s N Hs) as D. pose proof (quot_up (snd a) n N) as Q.
  rewrite !plus_IZR. replace (x / IZR n * IZR unit_ - peval (pdiv n (fst a)) s) with ((x * IZR unit_ - peval (fst a) s) / IZR n + (peval (fst a) s / IZR n - peval (pdiv n (fst a)) s)) by (field; lra).
  apply Rle_trans with (1 := Rabs_triang _ _).
  assert (E1 : Rabs ((x * IZR unit_ - peval (fst a) s) / IZR n) <= IZR (snd a) / IZR n).
  { unfold Rdiv. rewrite Rabs_mult, (Rabs_pos_eq (/ IZR n)) by (left; apply Rinv_0_lt_compat, NP). apply Rmult_le_compat_r; [left; apply Rinv_0_lt_compat, NP|exact A]. }
  lra.
Qed.
Lemma tone_ok : encl s tone 1.
Proof. unfold encl, tone. cbn [fst snd peval]. replace (1 * IZR unit_ - (IZR unit_ + s * 0)) with 0 by ring. rewrite Rabs_R0. lra. Qed.
Fixpoint rnest (n : nat) (k : Z) (y : R) : R := match n with O => 1 | S n => 1 + - ((y * rnest n (k + 2) y) / IZR (k * (k + 1))) end.
Lemma tnest_ok d n : forall k q y, (0 < k)%Z -> encl s q y -> encl s (tnest d n k q) (rnest n k y).
Proof.
  induction n as [|n IH]; intros k q y K Q; [apply tone_ok|]. cbn [tnest rnest]. apply tadd_ok; [apply tone_ok|]. apply topp_ok, tdiv_ok; [nia|]. apply tmul_ok; [exact Q|]. apply IH; [lia|exact Q].
Qed.
Lemma grow_ok a x y : encl s a x -> Rabs ((y - x) * IZR unit_) <= 1 -> encl s (grow a) y.
Proof.
  unfold encl, grow. cbn [fst snd]. intros A B. rewrite plus_IZR. replace (y * IZR unit_ - peval (fst a) s) with ((y - x) * IZR unit_ + (x * IZR unit_ - peval (fst a) s)) by ring.
  apply Rle_trans with (1 := Rabs_triang _ _). lra.
Qed.
End At.
Lemma unit_val : IZR unit_ = 2 ^ 80.
Proof. Transparent unit_. unfold unit_. rewrite (pow_IZR 2 80). reflexivity. Opaque unit_. Qed.
Lemma small_pow x n : Rabs x <= 1 / 2 -> 0 <= Rabs x ^ n <= (1 / 2) ^ n.
Proof. intros H. split; [apply pow_le, Rabs_pos|]. apply pow_incr. split; [apply Rabs_pos|exact H]. Qed.
Lemma sin_near0 x : 0 <= x <= 1 / 2 -> Rabs ((sin x - x * rnest 9 2 (x * x)) * IZR unit_) <= 1.
Proof.
  intros H. destruct (sin_at4 x ltac:(lra)) as [A B]. rewrite Rabs_mult, (Rabs_pos_eq (IZR unit_)) by (left; apply unit_pos).
  assert (E : x * rnest 9 2 (x * x) = x - x ^ 3 / 6 + x ^ 5 / 120 - x ^ 7 / 5040 + x ^ 9 / 362880 - x ^ 11 / 39916800 + x ^ 13 / 6227020800 - x ^ 15 / 1307674368000 + x ^ 17 / 355687428096000 - x ^ 19 / 121645100408832000).
  { cbv beta iota zeta delta [rnest Z.add Z.mul Pos.add Pos.mul Pos.succ Pos.add_carry]. field. }
  rewrite E. set (t := x - x ^ 3 / 6 + _ - _ + _ - _ + _ - _ + _ - _) in *.
  assert (P : 0 <= x ^ 21 <= (1 / 2) ^ 21). { pose proof (small_pow x 21) as S. rewrite Rabs_pos_eq in S by lra. apply S. lra. }
  apply Rle_trans with (x ^ 21 / 51090942171709440000 * IZR unit_); [apply Rmult_le_compat_r; [left; apply unit_pos|]; apply Rabs_le; lra|].
  rewrite unit_val. lra.
Qed.
Lemma cos_near0 x : 0 <= x <= 1 / 2 -> Rabs ((cos x - rnest 9 1 (x * x)) * IZR unit_) <= 1.
Proof.
  intros H. destruct (cos_at4 x ltac:(lra)) as [A B]. rewrite Rabs_mult, (Rabs_pos_eq (IZR unit_)) by (left; apply unit_pos).
  assert (E : rnest 9 1 (x * x) = 1 - x ^ 2 / 2 + x ^ 4 / 24 - x ^ 6 / 720 + x ^ 8 / 40320 - x ^ 10 / 3628800 + x ^ 12 / 479001600 - x ^ 14 / 87178291200 + x ^ 16 / 20922789888000 - x ^ 18 / 6402373705728000).
  { cbv beta iota zeta delta [rnest Z.add Z.mul Pos.add Pos.mul Pos.succ Pos.add_carry]. field. }
  rewrite E. set (t := 1 - x ^ 2 / 2 + _ - _ + _ - _ + _ - _ + _ - _) in *.
  assert (P : 0 <= x ^ 20 <= (1 / 2) ^ 20). { pose proof (small_pow x 20) as S. rewrite Rabs_pos_eq in S by lra. apply S. lra. }
  apply Rle_trans with (x ^ 20 / 2432902008176640000 * IZR unit_); [apply Rmult_le_compat_r; [left; apply unit_pos|]; apply Rabs_le; lra|].
  rewrite unit_val. lra.
Qed.
Lemma sin_near x : Rabs x <= 1 / 2 -> Rabs ((sin x - x * rnest 9 2 (x * x)) * IZR unit_) <= 1.
Proof.
  intros H. destruct (Rle_dec 0 x) as [P|N]; [apply sin_near0; rewrite Rabs_pos_eq in H by lra; lra|]. rewrite Rabs_left in H by lra.
  pose proof (sin_near0 (- x) ltac:(lra)) as S. rewrite sin_neg in S. replace (- x * - x) with (x * x) in S by ring.
  replace ((- sin x - - x * rnest 9 2 (x * x)) * IZR unit_) with (- ((sin x - x * rnest 9 2 (x * x)) * IZR unit_)) in S by ring. rewrite Rabs_Ropp in S. exact S.
Qed.
Lemma cos_near x : Rabs x <= 1 / 2 -> Rabs ((cos x - rnest 9 1 (x * x)) * IZR unit_) <= 1.
Proof.
  intros H. destruct (Rle_dec 0 x) as [P|N]; [apply cos_near0; rewrite Rabs_pos_eq in H by lra; lra|]. rewrite Rabs_left in H by lra.
  pose proof (cos_near0 (- x) ltac:(lra)) as S. rewrite cos_neg in S. replace (- x * - x) with (x * x) in S by ring. exact S.
Qed.
Lemma half_size s a x : Rabs s <= 1 -> encl s a x -> (2 * size a <=? unit_)%Z = true -> Rabs x <= 1 / 2.
Proof.
  intros S A C. apply Z.leb_le in C. apply IZR_le in C. rewrite mult_IZR in C. pose proof (encl_size s S a x A) as B. rewrite Rabs_mult, (Rabs_pos_eq (IZR unit_)) in B by (left; apply unit_pos).
  pose proof unit_pos. apply Rmult_le_reg_r with (IZR unit_); [assumption|]. lra.
Qed.
Lemma some_inj {A} (a b : A) : Some a = Some b -> a = b. Proof. intros E. injection E. auto. Qed.
Lemma tsin_ok s d a m x : Rabs s <= 1 -> encl s a x -> tsin d a = Some m -> encl s m (sin x).
Proof.
  intros S A. unfold tsin. destruct (2 * size a <=? unit_)%Z eqn:C; [|discriminate]. intros E. apply some_inj in E. rewrite <- E. apply grow_ok with (x * rnest 9 2 (x * x)).
  - apply tmul_ok; [exact S|exact A|]. apply tnest_ok; [exact S|lia|]. apply tmul_ok; assumption.
  - apply sin_near. exact (half_size s a x S A C).
Qed.
Lemma tcos_ok s d a m x : Rabs s <= 1 -> encl s a x -> tcos d a = Some m -> encl s m (cos x).
Proof.
  intros S A. unfold tcos. destruct (2 * size a <=? unit_)%Z eqn:C; [|discriminate]. intros E. apply some_inj in E. rewrite <- E. apply grow_ok with (rnest 9 1 (x * x)).
  - apply tnest_ok; [exact S|lia|]. apply tmul_ok; assumption.
  - apply cos_near. exact (half_size s a x S A C).
Qed.

(** * Expressions *)
Inductive ex := Poly (cs : list Z) (q : Z) | Arcsec | Var (n : nat) | Plus (a b : ex) | Minus (a b : ex) | Neg (a : ex) | Times (a b : ex) | Sin (a : ex) | Cos (a : ex).
Fixpoint ev (rho : list R) (s : R) (e : ex) : R :=
  match e with
  | Poly cs q => peval cs s / IZR q
  | Arcsec => PI / 648000
  | Var n => nth n rho 0
  | Plus a b => ev rho s a + ev rho s b
  | Minus a b => ev rho s a - ev rho s b
  | Neg a => - ev rho s a
  | Times a b => ev rho s a * ev rho s b
  | Sin a => sin (ev rho s a)
  | Cos a => cos (ev rho s a)
  end.
Definition obind {A B} (o : option A) (f : A -> option B) : option B := match o with Some x => f x | None => None end.
Definition tarcsec : tm := ([5861037767957312625]%Z, 1%Z).
Fixpoint tmof (G : list tm) (d : nat) (e : ex) : option tm :=
  match e with
  | Poly cs q => if (0 <? q)%Z then Some (tpoly cs q) else None
  | Arcsec => Some tarcsec
  | Var n => nth_error G n
  | Plus a b => obind (tmof G d a) (fun a => obind (tmof G d b) (fun b => Some (tadd a b)))
  | Minus a b => obind (tmof G d a) (fun a => obind (tmof G d b) (fun b => Some (tadd a (topp b))))
  | Neg a => obind (tmof G d a) (fun a => Some (topp a))
  | Times a b => obind (tmof G d a) (fun a => obind (tmof G d b) (fun b => Some (tmul d a b)))
  | Sin a => obind (tmof G d a) (tsin d)
  | Cos a => obind (tmof G d a) (tcos d)
  end.
Lemma tarcsec_ok s : encl s tarcsec (PI / 648000).
Proof. unfold encl, tarcsec. cbn [fst snd peval]. rewrite unit_val. pose proof pi_bounds. apply Rabs_le. split; lra. Qed.
Lemma tmof_ok rho s G d : Rabs s <= 1 -> Forall2 (encl s) G rho -> forall e m, tmof G d e = Some m -> encl s m (ev rho s e).
Proof.
  intros S F. induction e as [cs q| |n|a IHa b IHb|a IHa b IHb|a IHa|a IHa b IHb|a IHa|a IHa]; intros m; cbn [tmof ev].
  - destruct (0 <? q)%Z eqn:Q; [|discriminate]. intros E. injection E as <-. apply tpoly_ok; [exact S|]. apply Z.ltb_lt, Q.
  - intros E. injection E as <-. apply tarcsec_ok.
  - revert n. induction F as [|g x G rho H F IH]; intros [|n] E; try discriminate; cbn [nth_error nth] in *; [injection E as <-; exact H|apply IH, E].
  - destruct (tmof G d a) as [ma|]; [|discriminate]. destruct (tmof G d b) as [mb|]; [|discriminate]. cbn [obind]. intros E. injection E as <-. apply tadd_ok; auto.
  - destruct (tmof G d a) as [ma|]; [|discriminate]. destruct (tmof G d b) as [mb|]; [|discriminate]. cbn [obind]. intros E. injection E as <-. apply tadd_ok; [|apply topp_ok]; auto.
  - destruct (tmof G d a) as [ma|]; [|discriminate]. cbn [obind]. intros E. injection E as <-. apply topp_ok; auto.
  - destruct (tmof G d a) as [ma|]; [|discriminate]. destruct (tmof G d b) as [mb|]; [|discriminate]. cbn [obind]. intros E. injection E as <-. apply tmul_ok; auto.
  - destruct (tmof G d a) as [ma|]; [|discriminate]. cbn [obind]. apply tsin_ok; auto.
  - destruct (tmof G d a) as [ma|]; [|discriminate]. cbn [obind]. apply tcos_ok; auto.
Qed.
(** Values computed one after another, each of which may use those before it. *)
Fixpoint tmofs (G : list tm) (d : nat) (es : list ex) : option (list tm) :=
  match es with [] => Some G | e :: es => obind (tmof G d e) (fun m => tmofs (G ++ [m]) d es) end.
Fixpoint evs (rho : list R) (s : R) (es : list ex) : list R :=
  match es with [] => rho | e :: es => evs (rho ++ [ev rho s e]) s es end.
Lemma tmofs_ok s d : Rabs s <= 1 -> forall es G rho H, Forall2 (encl s) G rho -> tmofs G d es = Some H -> Forall2 (encl s) H (evs rho s es).
Proof.
  intros S. induction es as [|e es IH]; intros G rho H F; cbn [tmofs evs]; [intros E; injection E as <-; exact F|].
  destruct (tmof G d e) as [m|] eqn:E; [|discriminate]. cbn [obind]. apply IH. apply Forall2_app; [exact F|]. constructor; [|constructor]. exact (tmof_ok rho s G d S F e m E).
Qed.
(** All of each [out], which may use the values of [es], are at most [num / den] in size. *)
Definition all_below (d : nat) (es : list ex) (groups : list (list ex * Z * Z)) : bool :=
  match tmofs [] d es with
  | Some G => forallb (fun g => forallb (fun e => match tmof G d e with Some m => (size m * snd g <=? snd (fst g) * unit_)%Z | None => false end) (fst (fst g))) groups
  | None => false
  end.
Lemma all_below_ok d es groups out num den s : Rabs s <= 1 -> all_below d es groups = true -> In (out, num, den) groups -> (0 < den)%Z ->
  forall e, In e out -> Rabs (ev (evs [] s es) s e) <= IZR num / IZR den.
Proof.
  intros S. unfold all_below. destruct (tmofs [] d es) as [G|] eqn:E; [|discriminate]. intros A J DP e I. rewrite forallb_forall in A. specialize (A _ J). cbn [fst snd] in A. rewrite forallb_forall in A. specialize (A e I). cbv beta in A.
  destruct (tmof G d e) as [m|] eqn:M; [|discriminate]. pose proof (tmof_ok _ s G d S (tmofs_ok s d S es [] [] G (Forall2_nil _) E) e m M) as B. apply (encl_size s S) in B.
  rewrite Rabs_mult, (Rabs_pos_eq (IZR unit_)) in B by (left; apply unit_pos). apply Z.leb_le, IZR_le in A. rewrite !mult_IZR in A. pose proof unit_pos as U. apply IZR_lt in DP.
  apply Rmult_le_reg_r with (IZR den); [exact DP|]. replace (IZR num / IZR den * IZR den) with (IZR num) by (field; lra). apply Rmult_le_reg_r with (IZR unit_); [exact U|]. nra.
Qed.
