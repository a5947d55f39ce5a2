From Coq Require Import ZArith QArith Qround List Bool Lia Lqa.
From Coq Require Import ZifyBool.
From Verif Require Import PyNum Cal_Model Cal_Spec Cal_Proofs Time_Model Time_Spec.
Import ListNotations.
Open Scope Q_scope.

(** * Floor and remainder *)
Lemma floor_spec x : inject_Z (Qfloor x) <= x /\ x < inject_Z (Qfloor x) + 1.
Proof. split; [apply Qfloor_le|]. pose proof (Qlt_floor x) as H. rewrite inject_Z_plus in H. exact H. Qed.

Lemma floor_unique x n : inject_Z n <= x -> x < inject_Z n + 1 -> Qfloor x = n.
Proof.
  intros H1 H2. destruct (floor_spec x) as [F1 F2].
  assert (A : (n < Qfloor x + 1)%Z).
  { rewrite Zlt_Qlt, inject_Z_plus. change (inject_Z 1) with 1. lra. }
  assert (B : (Qfloor x < n + 1)%Z).
  { rewrite Zlt_Qlt, inject_Z_plus. change (inject_Z 1) with 1. lra. }
  lia.
Qed.

Lemma qdiv_spec x m : 0 < m -> inject_Z (qdiv x m) * m <= x /\ x < inject_Z (qdiv x m) * m + m.
Proof.
  intros Hm. unfold qdiv. destruct (floor_spec (x / m)) as [F1 F2].
  assert (E : x == x / m * m) by (field; lra).
  set (q := x / m) in *. set (k := inject_Z (Qfloor q)) in *. clearbody k q. rewrite E. split; nra.
Qed.
Lemma qmod_range x m : 0 < m -> 0 <= qmod x m /\ qmod x m < m.
Proof. intros Hm. unfold qmod. destruct (qdiv_spec x m Hm). lra. Qed.
Lemma qdivmod x m : x == inject_Z (qdiv x m) * m + qmod x m.
Proof. unfold qmod. ring. Qed.

Lemma qdiv_unique x m k : 0 < m -> inject_Z k * m <= x -> x < inject_Z k * m + m -> qdiv x m = k.
Proof.
  intros Hm H1 H2. unfold qdiv. apply floor_unique.
  - apply Qle_shift_div_l; assumption.
  - apply Qlt_shift_div_r; [assumption|]. lra.
Qed.

#[global] Instance qdiv_proper : Proper (Qeq ==> Qeq ==> eq) qdiv.
Proof. intros a b H c d H2. unfold qdiv. apply Qfloor_comp. rewrite H, H2. reflexivity. Qed.
#[global] Instance qmod_proper : Proper (Qeq ==> Qeq ==> Qeq) qmod.
Proof. intros a b H c d H2. unfold qmod. rewrite (qdiv_proper _ _ H _ _ H2). rewrite H, H2. reflexivity. Qed.

Lemma qdiv1_int n x : 0 <= x < 1 -> qdiv (inject_Z n + x) 1 = n.
Proof. intros H. apply qdiv_unique; lra. Qed.
Lemma qmod1_int n x : 0 <= x < 1 -> qmod (inject_Z n + x) 1 == x.
Proof. intros H. unfold qmod. rewrite qdiv1_int by assumption. ring. Qed.

#[global] Instance Qltb_proper : Proper (Qeq ==> Qeq ==> eq) Qltb.
Proof. intros a b H c d H2. unfold Qltb. f_equal. apply Bool.eq_true_iff_eq. rewrite !Qle_bool_iff, H, H2. reflexivity. Qed.
Lemma Qltb_true a b : Qltb a b = true <-> a < b.
Proof. unfold Qltb. destruct (Qle_bool b a) eqn:E; cbn.
  - apply Qle_bool_iff in E. split; [discriminate|lra].
  - split; [|auto]. intros _. apply Qnot_le_lt. intros H. apply Qle_bool_iff in H. congruence. Qed.
Lemma Qltb_false a b : Qltb a b = false <-> b <= a.
Proof. unfold Qltb. destruct (Qle_bool b a) eqn:E; cbn.
  - apply Qle_bool_iff in E. tauto.
  - split; [discriminate|]. intros H. apply Qle_bool_iff in H. congruence. Qed.

Lemma qtrunc_floor x : 0 <= x -> qtrunc x = Qfloor x.
Proof. intros H. unfold qtrunc, Qfloor. destruct x as [n d]. cbn [Qnum Qden].
  unfold Qle in H. cbn in H. apply Z.quot_div_nonneg; lia. Qed.
Lemma qtrunc_inject n : qtrunc (inject_Z n) = n.
Proof. unfold qtrunc. cbn [inject_Z Qnum Qden]. apply Z.quot_1_r. Qed.
Lemma div_cross a b c d : (0 < b -> 0 < d -> a * d = c * b -> a / b = c / d)%Z.
Proof.
  intros Hb Hd E. rewrite <- (Z.div_mul_cancel_r a b d), <- (Z.div_mul_cancel_r c d b) by lia.
  rewrite E, (Z.mul_comm b d). reflexivity.
Qed.
Lemma quot_cross a b c d : (0 < b -> 0 < d -> a * d = c * b -> Z.quot a b = Z.quot c d)%Z.
Proof.
  intros Hb Hd E.
  destruct (Z_le_gt_dec 0 a) as [Ha|Ha].
  - assert (0 <= c)%Z by nia. rewrite !Z.quot_div_nonneg by lia. apply div_cross; assumption.
  - assert (c <= 0)%Z by nia.
    assert (X : Z.quot (- a) b = Z.quot (- c) d) by (rewrite !Z.quot_div_nonneg by lia; apply div_cross; lia).
    rewrite !Z.quot_opp_l in X by lia. lia.
Qed.
#[global] Instance qtrunc_proper : Proper (Qeq ==> eq) qtrunc.
Proof. intros [a b] [c d] H. unfold Qeq in H. cbn in H. unfold qtrunc. cbn [Qnum Qden].
  apply quot_cross; lia. Qed.

(** * numpy.interp respects equality of rationals *)
Lemma interp_from_compat x x' rest x0 y0 : x == x' -> interp_from x x0 y0 rest == interp_from x' x0 y0 rest.
Proof.
  intros H. revert x0 y0. induction rest as [|[x1 y1] r IH]; intros x0 y0; cbn [interp_from]; [reflexivity|].
  rewrite H. destruct (Qltb x' x1); [rewrite H; reflexivity|apply IH].
Qed.
Lemma interp_compat x x' tbl : x == x' -> interp x tbl == interp x' tbl.
Proof. intros H. destruct tbl as [|[x0 y0] r]; cbn [interp]; [reflexivity|].
  rewrite H. destruct (Qltb x' x0); [reflexivity|apply interp_from_compat, H]. Qed.

(** * The leap second tables *)
Definition Lu (n : Z) : Z := (86400 * n - 43200)%Z.

(** Rational tables equal, entry by entry, to integer ones. *)
Fixpoint tbl_utc (ns : list Z) (base : Z) : list (Z * Z) :=
  match ns with
  | [] => []
  | n :: r => (Lu n - 1, base)%Z :: (Lu n, base + 1)%Z :: tbl_utc r (base + 1)
  end.
Fixpoint tbl_tai (ns : list Z) (base : Z) : list (Z * Z) :=
  match ns with
  | [] => []
  | n :: r => (Lu n - 1 + base, base)%Z :: (Lu n + base + 1, base + 1)%Z :: tbl_tai r (base + 1)
  end.
Definition qpair (p : Z * Z) : Q * Q := (inject_Z (fst p), inject_Z (snd p)).
Definition peq (p q : Q * Q) : Prop := fst p == fst q /\ snd p == snd q.

Lemma interp_from_peq x l l' : Forall2 peq l l' ->
  forall x0 y0 x0' y0', x0 == x0' -> y0 == y0' -> interp_from x x0 y0 l == interp_from x x0' y0' l'.
Proof.
  induction 1 as [|[x1 y1] [x2 y2] l l' [P1 P2] _ IH]; intros x0 y0 x0' y0' E1 E2; cbn [interp_from].
  - exact E2.
  - cbn in P1, P2. rewrite P1. destruct (Qltb x x2).
    + rewrite P1, P2, E1, E2. reflexivity.
    + apply IH; assumption.
Qed.
Lemma interp_peq x l l' : Forall2 peq l l' -> interp x l == interp x l'.
Proof. intros H. destruct H as [|[x1 y1] [x2 y2] l l' [P1 P2] H]; cbn [interp]; [reflexivity|].
  cbn in P1, P2. rewrite P1. destruct (Qltb x x2); [exact P2|]. apply interp_from_peq; assumption. Qed.

Ltac injz := rewrite ?inject_Z_plus, ?inject_Z_mult, ?inject_Z_opp; unfold Zminus;
  rewrite ?inject_Z_plus, ?inject_Z_mult, ?inject_Z_opp.

(** The tables that [build_tables] makes. *)
Lemma tables_utc_gen ns base k :
  let ts := build_tables (map fin (leap_dates_of ns))
              (map (fun i => inject_Z (base + 1 + Z.of_nat i)) (seq k (length ns))) None in
  Forall2 peq (combine (leap_utc ts) (leap_off ts)) (map qpair (tbl_utc ns (base + Z.of_nat k))) /\
  Forall2 peq (combine (leap_tai ts) (leap_off ts)) (map qpair (tbl_tai ns (base + Z.of_nat k))).
Proof.
  revert k. induction ns as [|n r IH]; intros k; cbn; [split; constructor|].
  specialize (IH (S k)). cbn in IH. destruct IH as [IH1 IH2].
  replace (base + Z.of_nat k + 1)%Z with (base + Z.of_nat (S k))%Z by lia.
  split; (constructor; [|constructor; [|assumption]]); unfold peq, qpair; cbn [fst snd]; unfold Lu, DAY_S;
    rewrite ?Nat2Z.inj_succ; unfold Z.succ; injz; split; try ring.
Qed.

Lemma timescale_tables ns base cut ts : timescale_for ns base cut ts ->
  ns <> [] /\ cutoff ts = cut /\
  Forall2 peq (combine (leap_utc ts) (leap_off ts)) (map qpair (tbl_utc ns base)) /\
  Forall2 peq (combine (leap_tai ts) (leap_off ts)) (map qpair (tbl_tai ns base)).
Proof.
  intros [_ H]. unfold timescale_init in H.
  destruct (rev (leap_dates_of ns)) as [|last l] eqn:E; [discriminate|].
  assert (Hn : ns <> []) by (intros ->; discriminate).
  assert (Hl : exists d, last = Fin d).
  { assert (In last (leap_dates_of ns)) by (apply in_rev; rewrite E; left; reflexivity).
    unfold leap_dates_of in H0. apply in_map_iff in H0 as [x [Hx _]]. eauto. }
  destruct Hl as [d ->]. injection H as <-. split; [assumption|]. split; [reflexivity|].
  pose proof (tables_utc_gen ns base 0) as T. cbn in T. rewrite Z.add_0_r in T. exact T.
Qed.

(** * Interpolating in the integer tables *)
Lemma Qltb_Z a b : Qltb (inject_Z a) (inject_Z b) = (a <? b)%Z.
Proof. destruct (a <? b)%Z eqn:E.
  - apply Qltb_true. rewrite <- Zlt_Qlt. lia.
  - apply Qltb_false. rewrite <- Zle_Qle. lia. Qed.

Lemma increasing_tail a l : increasing (a :: l) -> increasing l.
Proof. cbn. tauto. Qed.
Lemma increasing_lt a l : increasing (a :: l) -> forall b, In b l -> (a < b)%Z.
Proof.
  revert a. induction l as [|c l IH]; intros a H b Hb; [destruct Hb|].
  cbn in H. destruct H as [H1 H2]. destruct Hb as [->|Hb]; [assumption|].
  assert (c < b)%Z by (apply IH; assumption). lia.
Qed.
Lemma leaps_before_zero ns J : (forall n, In n ns -> (J < n)%Z) -> leaps_before ns J = 0%Z.
Proof. induction ns as [|n r IH]; cbn [leaps_before]; intros H; [reflexivity|].
  rewrite IH by (intros; apply H; right; assumption).
  specialize (H n (or_introl eq_refl)). destruct (n <=? J)%Z eqn:?; lia. Qed.

(** number of table seconds [Lu n] at or before [s] *)
Fixpoint count_utc (ns : list Z) (s : Z) : Z :=
  match ns with [] => 0 | n :: r => (if (Lu n <=? s) then 1 else 0) + count_utc r s end%Z.

Lemma count_utc_day ns J sod : (0 <= sod < 86400)%Z -> count_utc ns (86400 * J - 43200 + sod) = leaps_before ns J.
Proof. intros H. induction ns as [|n r IH]; cbn [count_utc leaps_before]; [reflexivity|].
  rewrite IH. unfold Lu. destruct (_ <=? _)%Z eqn:?, (n <=? J)%Z eqn:?; lia. Qed.

Lemma count_utc_zero ns s : (forall n, In n ns -> (s < Lu n)%Z) -> count_utc ns s = 0%Z.
Proof. induction ns as [|n r IH]; cbn [count_utc]; intros H; [reflexivity|].
  rewrite IH by (intros; apply H; right; assumption).
  specialize (H n (or_introl eq_refl)). destruct (Lu n <=? s)%Z eqn:?; lia. Qed.

Lemma zero_slope y d e : y == y -> (y - y) / d * e + y == y.
Proof. intros _. setoid_replace (y - y) with 0 by ring. unfold Qdiv. rewrite !Qmult_0_l. ring. Qed.

Lemma interp_from_utc n0 ns base s : increasing (n0 :: ns) -> (Lu n0 <= s)%Z ->
  interp_from (inject_Z s) (inject_Z (Lu n0)) (inject_Z base) (map qpair (tbl_utc ns base))
  == inject_Z (base + count_utc ns s).
Proof.
  revert n0 base. induction ns as [|n r IH]; intros n0 base Hi Hs; cbn [tbl_utc map interp_from qpair fst snd count_utc].
  - rewrite Z.add_0_r. reflexivity.
  - rewrite Qltb_Z. destruct (s <? Lu n - 1)%Z eqn:E1.
    + rewrite zero_slope by reflexivity.
      rewrite count_utc_zero.
      * destruct (Lu n <=? s)%Z eqn:?; [lia|]. rewrite !Z.add_0_r. reflexivity.
      * intros m Hm. assert (n < m)%Z by (apply (increasing_lt n r); [apply (increasing_tail n0), Hi|assumption]).
        unfold Lu in *. lia.
    + cbn [interp_from qpair fst snd]. rewrite Qltb_Z. destruct (s <? Lu n)%Z eqn:E2.
      * assert (s = Lu n - 1)%Z by lia. subst s.
        rewrite count_utc_zero.
        -- destruct (Lu n <=? Lu n - 1)%Z eqn:?; [lia|]. rewrite !Z.add_0_r.
           setoid_replace (inject_Z (Lu n - 1) - inject_Z (Lu n - 1)) with 0 by ring. ring.
        -- intros m Hm. assert (n < m)%Z by (apply (increasing_lt n r); [apply (increasing_tail n0), Hi|assumption]).
           unfold Lu in *. lia.
      * rewrite (IH n (base + 1)%Z); [|apply (increasing_tail n0), Hi|lia].
        destruct (Lu n <=? s)%Z eqn:?; [|lia]. rewrite Z.add_assoc. reflexivity.
Qed.

Lemma interp_utc ns base s : ns <> [] -> increasing ns ->
  interp (inject_Z s) (map qpair (tbl_utc ns base)) == inject_Z (base + count_utc ns s).
Proof.
  intros Hn Hi. destruct ns as [|n r]; [congruence|]. cbn [tbl_utc map interp qpair fst snd count_utc].
  rewrite Qltb_Z.
  assert (Hr : (s < Lu n)%Z -> count_utc r s = 0%Z).
  { intros Hs. apply count_utc_zero. intros m Hm. assert (n < m)%Z by (apply (increasing_lt n r); assumption).
    unfold Lu in *. lia. }
  destruct (s <? Lu n - 1)%Z eqn:E1.
  - rewrite Hr by lia. destruct (Lu n <=? s)%Z eqn:?; [lia|]. rewrite !Z.add_0_r. reflexivity.
  - cbn [interp_from qpair fst snd]. rewrite Qltb_Z. destruct (s <? Lu n)%Z eqn:E2.
    + rewrite Hr by lia. destruct (Lu n <=? s)%Z eqn:?; [lia|]. rewrite !Z.add_0_r.
      assert (s = Lu n - 1)%Z by lia. subst s.
      setoid_replace (inject_Z (Lu n - 1) - inject_Z (Lu n - 1)) with 0 by ring. ring.
    + rewrite interp_from_utc by (assumption || lia). destruct (Lu n <=? s)%Z eqn:?; [|lia].
      rewrite Z.add_assoc. reflexivity.
Qed.

(** TAI side: whole offset and leap flag of a TAI second. *)
Fixpoint tai_lookup (ns : list Z) (base s : Z) : Z * bool :=
  match ns with
  | [] => (base, false)
  | n :: r =>
      if (s <? Lu n + base) then (base, false)
      else if (s =? Lu n + base) then (base, true)
      else tai_lookup r (base + 1) s
  end%Z.

Definition lookup_q (p : Z * bool) : Q := inject_Z (fst p) + (if snd p then 1 # 2 else 0).

Lemma interp_from_tai n0 ns base s : increasing (n0 :: ns) -> (Lu n0 + base <= s)%Z ->
  interp_from (inject_Z s) (inject_Z (Lu n0 + base)) (inject_Z base) (map qpair (tbl_tai ns base))
  == lookup_q (tai_lookup ns base s).
Proof.
  revert n0 base. induction ns as [|n r IH]; intros n0 base Hi Hs; cbn [tbl_tai map interp_from qpair fst snd tai_lookup].
  - unfold lookup_q; cbn [fst snd]. ring.
  - assert (Hnn : (n0 < n)%Z) by (cbn in Hi; tauto).
    rewrite Qltb_Z. destruct (s <? Lu n - 1 + base)%Z eqn:E1.
    + rewrite zero_slope by reflexivity. destruct (s <? Lu n + base)%Z eqn:?; [|lia].
      unfold lookup_q; cbn [fst snd]. ring.
    + cbn [interp_from qpair fst snd]. rewrite Qltb_Z. destruct (s <? Lu n + base + 1)%Z eqn:E2.
      * assert (Hcase : (s = Lu n + base - 1 \/ s = Lu n + base)%Z) by lia. destruct Hcase as [-> | ->].
        -- replace (Lu n + base - 1 <? Lu n + base)%Z with true by lia. unfold lookup_q; cbn [fst snd].
           replace (Lu n + base - 1)%Z with (Lu n - 1 + base)%Z by lia.
           setoid_replace (inject_Z (Lu n - 1 + base) - inject_Z (Lu n - 1 + base)) with 0 by ring. ring.
        -- rewrite Z.ltb_irrefl, Z.eqb_refl. unfold lookup_q; cbn [fst snd].
           injz. field. intro C; ring_simplify in C; discriminate.
      * destruct (s <? Lu n + base)%Z eqn:?; [lia|]. destruct (s =? Lu n + base)%Z eqn:?; [lia|].
        replace (Lu n + base + 1)%Z with (Lu n + (base + 1))%Z by lia.
        apply (IH n); [apply (increasing_tail n0), Hi|lia].
Qed.

Lemma interp_tai ns base s : ns <> [] -> increasing ns ->
  interp (inject_Z s) (map qpair (tbl_tai ns base)) == lookup_q (tai_lookup ns base s).
Proof.
  intros Hn Hi. destruct ns as [|n r]; [congruence|]. cbn [tbl_tai map interp qpair fst snd tai_lookup].
  rewrite Qltb_Z. destruct (s <? Lu n - 1 + base)%Z eqn:E1.
  - destruct (s <? Lu n + base)%Z eqn:?; [|lia]. unfold lookup_q; cbn [fst snd]. ring.
  - cbn [interp_from qpair fst snd]. rewrite Qltb_Z. destruct (s <? Lu n + base + 1)%Z eqn:E2.
    + assert (Hcase : (s = Lu n + base - 1 \/ s = Lu n + base)%Z) by lia. destruct Hcase as [-> | ->].
      * replace (Lu n + base - 1 <? Lu n + base)%Z with true by lia. unfold lookup_q; cbn [fst snd].
        replace (Lu n + base - 1)%Z with (Lu n - 1 + base)%Z by lia.
        setoid_replace (inject_Z (Lu n - 1 + base) - inject_Z (Lu n - 1 + base)) with 0 by ring. ring.
      * rewrite Z.ltb_irrefl, Z.eqb_refl. unfold lookup_q; cbn [fst snd].
        injz. field. intro C; ring_simplify in C; discriminate.
    + destruct (s <? Lu n + base)%Z eqn:?; [lia|]. destruct (s =? Lu n + base)%Z eqn:?; [lia|].
      replace (Lu n + base + 1)%Z with (Lu n + (base + 1))%Z by lia.
      apply (interp_from_tai n); [assumption|lia].
Qed.

(** * Labels *)
Definition label_of (ns : list Z) (base s : Z) : Z * Z :=
  let '(off, leap) := tai_lookup ns base s in
  let x := (s - off - b2z leap + 43200)%Z in
  (x / 86400, x mod 86400 + b2z leap)%Z.

Lemma ends_in_leap_cons n r J : ends_in_leap (n :: r) J = ((J + 1 =? n)%Z || ends_in_leap r J)%bool.
Proof. reflexivity. Qed.
Lemma ends_in_leap_false ns J : (forall n, In n ns -> (J + 1 < n)%Z) -> ends_in_leap ns J = false.
Proof. intros H. unfold ends_in_leap. destruct (existsb _ ns) eqn:E; [|reflexivity].
  apply existsb_exists in E as [x [Hx Ex]]. specialize (H x Hx). lia. Qed.
Lemma day_length_pos ns J : (86400 <= day_length ns J <= 86401)%Z.
Proof. unfold day_length. destruct (ends_in_leap ns J); lia. Qed.

Ltac Zify.zify_post_hook ::= Z.div_mod_to_equations.

Lemma label_of_spec ns base s : increasing ns ->
  let '(J, sod) := label_of ns base s in
  (0 <= sod < day_length ns J)%Z /\ tai_second ns base J sod = s.
Proof.
  unfold label_of. revert base. induction ns as [|n r IH]; intros base Hi; cbn [tai_lookup].
  - unfold tai_second, day_length, ends_in_leap. cbn [existsb leaps_before b2z]. lia.
  - pose proof (increasing_lt n r Hi) as Hlt.
    destruct (s <? Lu n + base)%Z eqn:E1; [|destruct (s =? Lu n + base)%Z eqn:E2].
    + cbn [b2z]. set (x := (s - base - 0 + 43200)%Z).
      assert (HJ : (x / 86400 < n)%Z) by (unfold x, Lu in *; lia).
      unfold tai_second. rewrite leaps_before_zero.
      * pose proof (day_length_pos (n :: r) (x / 86400)). assert (Ex : s = (x + base - 43200)%Z) by (unfold x; lia).
        clearbody x. generalize dependent (day_length (n :: r) (x / 86400)). intros. lia.
      * intros m [->|Hm]; [assumption|]. specialize (Hlt m Hm). lia.
    + cbn [b2z]. assert (Es : s = (Lu n + base)%Z) by lia. subst s.
      replace (Lu n + base - base - 1 + 43200)%Z with (86399 + (n - 1) * 86400)%Z by (unfold Lu; lia).
      rewrite Z.div_add, Z.mod_add by lia. cbn [Z.div Z.modulo].
      change (86399 / 86400)%Z with 0%Z. change (86399 mod 86400)%Z with 86399%Z.
      unfold tai_second, day_length. rewrite ends_in_leap_cons.
      replace (0 + (n - 1) + 1 =? n)%Z with true by lia. cbn [orb].
      rewrite leaps_before_zero; [unfold Lu; lia|].
      intros m [->|Hm]; [lia|]. specialize (Hlt m Hm). lia.
    + specialize (IH (base + 1)%Z (increasing_tail _ _ Hi)).
      destruct (tai_lookup r (base + 1) s) as [off leap].
      destruct IH as [IHr IHt].
      set (J := ((s - off - b2z leap + 43200) / 86400)%Z) in *.
      set (sod := ((s - off - b2z leap + 43200) mod 86400 + b2z leap)%Z) in *.
      assert (HJ : (n <= J)%Z).
      { destruct (Z_le_gt_dec n J); [assumption|exfalso].
        assert (Z1 : leaps_before r J = 0%Z).
        { apply leaps_before_zero. intros m Hm. specialize (Hlt m Hm). lia. }
        assert (Z2 : ends_in_leap r J = false).
        { apply ends_in_leap_false. intros m Hm. specialize (Hlt m Hm). lia. }
        unfold day_length in IHr. rewrite Z2 in IHr. unfold tai_second in IHt. rewrite Z1 in IHt.
        unfold Lu in *. lia. }
      unfold tai_second, day_length in *. rewrite ends_in_leap_cons. cbn [leaps_before].
      destruct (n <=? J)%Z eqn:?; [|lia]. destruct (J + 1 =? n)%Z eqn:?; [lia|]. cbn [orb]. lia.
Qed.

(** Days follow each other without gap or overlap. *)
Lemma leaps_before_mono ns J J' : (J <= J')%Z -> (leaps_before ns J <= leaps_before ns J')%Z.
Proof. intros H. induction ns as [|n r IH]; cbn [leaps_before]; [lia|].
  destruct (n <=? J)%Z eqn:?, (n <=? J')%Z eqn:?; lia. Qed.
Lemma leaps_before_next ns J : increasing ns ->
  leaps_before ns (J + 1) = (leaps_before ns J + (if ends_in_leap ns J then 1 else 0))%Z.
Proof.
  induction ns as [|n r IH]; intros Hi; [reflexivity|].
  cbn [leaps_before]. rewrite ends_in_leap_cons, IH by (apply (increasing_tail n), Hi).
  pose proof (increasing_lt n r Hi) as Hlt.
  destruct (J + 1 =? n)%Z eqn:E; cbn [orb].
  - rewrite ends_in_leap_false by (intros m Hm; specialize (Hlt m Hm); lia).
    destruct (n <=? J + 1)%Z eqn:?, (n <=? J)%Z eqn:?; lia.
  - destruct (n <=? J + 1)%Z eqn:?, (n <=? J)%Z eqn:?; lia.
Qed.
Lemma tai_second_next_day ns base J : increasing ns ->
  tai_second ns base (J + 1) 0 = (tai_second ns base J 0 + day_length ns J)%Z.
Proof. intros Hi. unfold tai_second, day_length. rewrite leaps_before_next by assumption. lia. Qed.
Lemma tai_second_day_mono ns base J J' : increasing ns -> (J < J')%Z ->
  (tai_second ns base J 0 + day_length ns J <= tai_second ns base J' 0)%Z.
Proof.
  intros Hi H. rewrite <- tai_second_next_day by assumption. unfold tai_second.
  pose proof (leaps_before_mono ns (J + 1) J'). lia.
Qed.
Lemma tai_second_lt ns base J sod J' sod' : increasing ns ->
  (0 <= sod < day_length ns J)%Z -> (0 <= sod' < day_length ns J')%Z ->
  ((tai_second ns base J sod < tai_second ns base J' sod')%Z <-> (J < J' \/ J = J' /\ sod < sod')%Z).
Proof.
  intros Hi H H'.
  assert (E : forall K x, tai_second ns base K x = (tai_second ns base K 0 + x)%Z) by (intros; unfold tai_second; lia).
  rewrite (E J sod), (E J' sod').
  destruct (Z.lt_trichotomy J J') as [L|[->|G]].
  - pose proof (tai_second_day_mono ns base J J' Hi L). lia.
  - lia.
  - pose proof (tai_second_day_mono ns base J' J Hi G). lia.
Qed.
Lemma tai_second_inj ns base J sod J' sod' : increasing ns ->
  (0 <= sod < day_length ns J)%Z -> (0 <= sod' < day_length ns J')%Z ->
  tai_second ns base J sod = tai_second ns base J' sod' -> J = J' /\ sod = sod'.
Proof.
  intros Hi H H' E.
  pose proof (tai_second_lt ns base J sod J' sod' Hi H H').
  pose proof (tai_second_lt ns base J' sod' J sod Hi H' H). lia.
Qed.

(** A leap second is the only second with number 86400. *)
Lemma sod_86400 ns J sod : (0 <= sod < day_length ns J)%Z -> (86400 <= sod)%Z -> sod = 86400%Z /\ ends_in_leap ns J = true.
Proof. unfold day_length. destruct (ends_in_leap ns J); intros; split; try reflexivity; lia. Qed.

(** * The model's [_utc_tuple] reads the instant *)

(** A time whose hidden TAI seconds are the integer [n] plus the fraction [fr]. *)
Definition sec_is (t : time) (n : Z) (fr : Q) : Prop :=
  fst (tai_seconds t) == inject_Z n /\ snd (tai_seconds t) == fr /\ 0 <= fr < 1.

Lemma lookup_floor p : qdiv (lookup_q p) 1 = fst p /\ Qltb 0 (qmod (lookup_q p) 1) = snd p.
Proof.
  destruct p as [o l]. unfold lookup_q. cbn [fst snd]. destruct l.
  - split; [apply qdiv1_int; lra|]. rewrite qmod1_int by lra. reflexivity.
  - split; [apply qdiv1_int; lra|]. rewrite qmod1_int by lra. reflexivity.
Qed.

Lemma clock_split x b : (0 <= x < 86400)%Z -> (b = true -> x = 86399%Z) ->
  (x / 60 / 60, (x / 60) mod 60, x mod 60 + b2z b)%Z = clock (x + b2z b).
Proof.
  intros Hx Hb. unfold clock. destruct b; cbn [b2z].
  - rewrite (Hb eq_refl). reflexivity.
  -    rewrite !Z.add_0_r, Z.div_div by lia. destruct (x =? 86400)%Z eqn:?; [lia|]. reflexivity.
Qed.

Lemma label_leap ns base s : increasing ns -> snd (tai_lookup ns base s) = true ->
  ((s - fst (tai_lookup ns base s) - 1 + 43200) mod 86400 = 86399)%Z.
Proof.
  revert base. induction ns as [|n r IH]; intros base Hi; cbn [tai_lookup]; [discriminate|].
  destruct (s <? Lu n + base)%Z eqn:?; [discriminate|].
  destruct (s =? Lu n + base)%Z eqn:?; cbn [fst snd].
  - intros _. unfold Lu in *. lia.
  - intros H. apply IH; [apply (increasing_tail n), Hi|assumption].
Qed.

Lemma civil_of_jd cut J : good_cutoff cut ->
  let '(y, m, d) := compute_calendar_date J cut in
  exists_under cut (y, m, d) /\ civil_day_number cut (y, m, d) = J.
Proof.
  intros Hc. pose proof (compute_valid cut J) as V. pose proof (day_roundtrip cut J Hc) as R.
  assert (R2 : J = let '(y,m,d) := compute_calendar_date J cut in jd_of (in_force cut J) (y,m,d)).
  { rewrite compute_unfold. pose proof (jd_of_date_of (in_force cut J) J) as E.
    destruct (date_of (in_force cut J) J) as [[y m] d]. auto. }
  destruct (compute_calendar_date J cut) as [[y m] d].
  rewrite jd_of_day_number in R2 by assumption.
  destruct cut as [c|].
  - assert (X : exists_under (Some c) (y,m,d)).
    { unfold exists_under. unfold in_force in *. destruct (J <? c)%Z eqn:E; [left|right]; (split; [assumption|lia]). }
    split; [exact X|]. rewrite <- (reform_day' y m d c Hc X). exact R.
  - split; [exact V|]. unfold civil_day_number. unfold in_force in *. auto.
Qed.

Lemma utc_tuple_reads ns base cut ts t n fr off :
  timescale_for ns base cut ts -> good_cutoff cut -> sec_is t n fr ->
  reads ns base cut (inject_Z n + fr + off) (utc_tuple ts t off).
Proof.
  intros Hts Hc [Hn [Hf Hfr]].
  destruct (timescale_tables _ _ _ _ Hts) as [Hne [Hcut [_ HT]]].
  destruct Hts as [Hi _].
  unfold utc_tuple, utc_seconds. destruct (tai_seconds t) as [s f]. cbn [fst snd] in Hn, Hf.
  set (k := qdiv (f + off) 1).
  set (r := qmod (f + off) 1).
  assert (Hk : f + off == inject_Z k + r) by (unfold k, r; rewrite (qdivmod (f + off) 1) at 1; ring).
  assert (Hr : 0 <= r < 1) by (unfold r; pose proof (qmod_range (f + off) 1 ltac:(reflexivity)); lra).
  clearbody k r.
  assert (Hs : s + inject_Z k == inject_Z (n + k)) by (rewrite inject_Z_plus, Hn; ring).
  assert (Hint : interp (s + inject_Z k) (combine (leap_tai ts) (leap_off ts)) == lookup_q (tai_lookup ns base (n + k))).
  { rewrite (interp_compat _ _ _ Hs), (interp_peq _ _ _ HT). apply interp_tai; assumption. }
  pose proof (label_of_spec ns base (n + k) Hi) as HL. unfold label_of in HL.
  pose proof (label_leap ns base (n + k) Hi) as HLL.
  destruct (lookup_floor (tai_lookup ns base (n + k))) as [L1 L2].
  assert (Q1 : qdiv (interp (s + inject_Z k) (combine (leap_tai ts) (leap_off ts))) 1 = fst (tai_lookup ns base (n + k)))
    by (rewrite Hint; exact L1).
  assert (Q2 : Qltb 0 (qmod (interp (s + inject_Z k) (combine (leap_tai ts) (leap_off ts))) 1) = snd (tai_lookup ns base (n + k)))
    by (rewrite Hint; exact L2).
  cbv zeta. rewrite Q1, Q2. clear Q1 Q2 L1 L2 Hint.
  destruct (tai_lookup ns base (n + k)) as [o l]. cbn [fst snd] in *.
  assert (E0 : s + inject_Z k - inject_Z o == inject_Z (n + k - o)).
  { rewrite Hs. unfold Zminus. rewrite (inject_Z_plus (n + k)), inject_Z_opp. ring. }
  assert (E1 : qtrunc (s + inject_Z k - inject_Z o) = (n + k - o)%Z) by (rewrite E0; apply qtrunc_inject).
  rewrite E1.
  set (x := (n + k - o - b2z l + 43200)%Z) in *.
  pose proof (civil_of_jd cut (x / 86400) Hc) as HC.
  rewrite Hcut. destruct (compute_calendar_date (x / 86400) cut) as [[y m] d].
  destruct HC as [HC1 HC2]. destruct HL as [HL1 HL2].
  exists (x / 86400)%Z, (x mod 86400 + b2z l)%Z. cbn [f_year f_month f_day f_hour f_minute f_isec f_sfr f_jd].
  split; [exact HL1|]. split; [reflexivity|]. split; [exact HC1|]. split; [exact HC2|].
  split; [|split; [exact Hr|]].
  - apply clock_split; [apply Z.mod_pos_bound; lia|]. intros ->. unfold x. cbn [b2z]. apply HLL. reflexivity.
  - rewrite HL2, inject_Z_plus. rewrite <- Hf. lra.
Qed.
