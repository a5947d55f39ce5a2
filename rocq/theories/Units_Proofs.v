From Coq Require Import ZArith QArith Qround Qabs List Bool Ascii String Lia Lqa ZifyBool.
From Verif Require Import PyNum Float64 Units_Model Units_Spec.
Import ListNotations.
Open Scope Q_scope.
Ltac Zify.zify_post_hook ::= Z.div_mod_to_equations.

Lemma floor_half_nearest x : nearest (Qfloor (x + (1 # 2))) x.
Proof.
  intros k. pose proof (Qfloor_le (x + (1#2))) as H1. pose proof (Qlt_floor (x + (1#2))) as H2.
  set (n := Qfloor _) in *. rewrite inject_Z_plus in H2. change (inject_Z 1) with 1 in H2.
  destruct (Z.eq_dec k n) as [->|N]; [apply Qle_refl|].
  destruct (Z_lt_le_dec k n) as [L|L].
  - assert (K : inject_Z k <= inject_Z n - 1). { rewrite <- (inject_Z_opp 1 : _ == -(1)) || idtac. unfold Qminus. change (- (1)) with (inject_Z (-1)). rewrite <- inject_Z_plus, <- Zle_Qle. lia. }
    apply Qabs_case; intros; apply Qabs_case; intros; lra.
  - assert (K : inject_Z n + 1 <= inject_Z k). { change 1 with (inject_Z 1). rewrite <- inject_Z_plus, <- Zle_Qle. lia. }
    apply Qabs_case; intros; apply Qabs_case; intros; lra.
Qed.
Lemma split_ok n P : (0 < P)%Z -> (0 <= n)%Z ->
  (0 <= n mod P < P /\ 0 <= (n / P) mod 60 < 60 /\ 0 <= n / P / 60 mod 60 < 60 /\ 0 <= n / P / 60 / 60 /\
   n = ((n / P / 60 / 60 * 60 + n / P / 60 mod 60) * 60 + (n / P) mod 60) * P + n mod P)%Z.
Proof.
  intros HP Hn. pose proof (Z.mod_pos_bound n P HP). pose proof (Z.div_mod n P ltac:(lia)). pose proof (Z.div_pos n P Hn HP).
  set (q := (n / P)%Z) in *. split; [assumption|]. split; [lia|]. split; [lia|]. split; [lia|].
  assert (E : ((q / 60 / 60 * 60 + q / 60 mod 60) * 60 + q mod 60 = q)%Z) by lia. rewrite E. lia.
Qed.
Lemma sex_int value places s u m sec f : sexagesimalize_to_int value places = (s, u, m, sec, f) ->
  let P := (10 ^ Z.of_nat places)%Z in
  let n := (s * (((u * 60 + m) * 60 + sec) * P + f))%Z in
  (0 <= u /\ 0 <= m < 60 /\ 0 <= sec < 60 /\ 0 <= f < P)%Z /\
  (s = 1 \/ s = -1 \/ (s = 0 /\ u = 0 /\ m = 0 /\ sec = 0 /\ f = 0))%Z /\
  nearest n (inject_Z (P * 3600) * value).
Proof.
  unfold sexagesimalize_to_int. set (P := (10 ^ Z.of_nat places)%Z). assert (HP : (0 < P)%Z) by (apply Z.pow_pos_nonneg; lia).
  set (n := Qfloor _). intros E. injection E as <- <- <- <- <-. cbn zeta.
  destruct (split_ok (Z.abs n) P HP (Z.abs_nonneg n)) as (B1 & B2 & B3 & B4 & B5).
  split; [repeat split; try assumption; lia|]. split.
  - destruct (Z.sgn_spec n) as [[_ ->]|[[<- ->]|[_ ->]]]; auto. right. right. auto 10.
  - rewrite <- B5. rewrite <- (Z.mul_comm (Z.abs n)), Z.abs_sgn. apply floor_half_nearest.
Qed.
Lemma qsign_spec x : (qsign x = 1%Z /\ 0 < x) \/ (qsign x = (-1)%Z /\ x < 0) \/ (qsign x = 0%Z /\ x == 0).
Proof.
  destruct x as [p q]. unfold qsign, Qlt, Qeq. cbn. destruct p; cbn; [right; right|left|right; left]; split; try reflexivity; lia.
Qed.
Lemma sign_abs x : inject_Z (qsign x) * Qabs x == x.
Proof.
  destruct (qsign_spec x) as [[-> H]|[[-> H]|[-> H]]].
  - rewrite Qabs_pos by lra. change (inject_Z 1) with 1. lra.
  - rewrite Qabs_neg by lra. change (inject_Z (-1)) with (-(1)). lra.
  - rewrite H. reflexivity.
Qed.
Lemma sex_float value s u m sec : sexagesimalize_to_float value = (s, u, m, sec) ->
  (0 <= u /\ 0 <= m < 60)%Z /\ 0 <= sec /\ sec < 60 /\
  (s = 1 \/ s = -1 \/ (s = 0 /\ u = 0 /\ m = 0))%Z /\ (s = 0%Z -> sec == 0) /\ (s = 0%Z <-> value == 0) /\
  inject_Z u + inject_Z m / 60 + sec / 3600 == Qabs value /\
  inject_Z s * (inject_Z u + inject_Z m / 60 + sec / 3600) == value.
Proof.
  unfold sexagesimalize_to_float. intros E. injection E as <- <- <- <-.
  pose proof (Qabs_nonneg value) as Ha. pose proof (sign_abs value) as Hv.
  assert (S0 : qsign value = 0%Z <-> value == 0).
  { destruct (qsign_spec value) as [[-> H]|[[-> H]|[-> H]]]; split; try discriminate; try lra; auto. }
  assert (S1 : (qsign value = 1 \/ qsign value = -1 \/ qsign value = 0)%Z) by (destruct (qsign_spec value) as [[? ?]|[[? ?]|[? ?]]]; auto).
  set (s := qsign value) in *. clearbody s. set (a := Qabs value) in *.
  assert (A0 : s = 0%Z -> a == 0). { intros Z0. apply S0 in Z0. unfold a. rewrite Z0. reflexivity. }
  clearbody a.
  set (n := a * 3600). pose proof (Qfloor_le (n / 60)) as F1. pose proof (Qlt_floor (n / 60)) as F2. unfold qmod, qdiv. set (k := Qfloor (n / 60)) in *.
  rewrite inject_Z_plus in F2. change (inject_Z 1) with 1 in F2.
  assert (N0 : 0 <= n) by (unfold n; lra).
  assert (D : n / 60 == n * (1 # 60)) by field. rewrite D in F1, F2.
  assert (K0 : (0 <= k)%Z). { assert (inject_Z (-1) < inject_Z k) by (change (inject_Z (-1)) with (-(1)); lra). rewrite <- Zlt_Qlt in H. lia. }
  assert (KE : inject_Z (k / 60) * 60 + inject_Z (k mod 60) == inject_Z k).
  { change (inject_Z (k / 60) * 60) with (inject_Z (k / 60) * inject_Z 60). rewrite <- inject_Z_mult, <- inject_Z_plus. apply inject_Z_injective. lia. }
  assert (V : inject_Z (k / 60) + inject_Z (k mod 60) / 60 + (n - inject_Z k * 60) / 3600 == a).
  { rewrite <- KE. unfold n. field. }
  split; [split; [apply Z.div_pos; lia|apply Z.mod_pos_bound; lia]|].
  split; [lra|]. split; [lra|].
  assert (K1 : s = 0%Z -> k = 0%Z).
  { intros Z0. specialize (A0 Z0). assert (n == 0) by (unfold n; rewrite A0; reflexivity).
    assert (inject_Z k < inject_Z 1) by (change (inject_Z 1) with 1; lra). rewrite <- Zlt_Qlt in H0. lia. }
  split; [destruct S1 as [?|[?|Z0]]; [auto|auto|]; right; right; rewrite (K1 Z0); auto|].
  split; [intros Z0; rewrite (K1 Z0); change (inject_Z 0) with 0; unfold n; rewrite (A0 Z0); reflexivity|]. split; [assumption|].
  split; [assumption|]. rewrite V. assumption.
Qed.

(** * Reading a tuple back *)
Lemma splus_value x y : value_of (splus x y) == value_of x + value_of y.
Proof.
  unfold splus, value_of. destruct (negative x) eqn:N1, (negative y) eqn:N2; cbn [Bool.eqb negative magnitude].
  1,4: lra. all: unfold Qltb.
  all: destruct (Qle_bool (magnitude y) (magnitude x)) eqn:E1; cbn [negb]; [destruct (Qle_bool (magnitude x) (magnitude y)) eqn:E2; cbn [negb]|];
    cbn [negative magnitude]; rewrite ?N1, ?N2; try lra; apply Qle_bool_iff in E1, E2; lra.
Qed.
Lemma splus_same b x y : splus (S_ b x) (S_ b y) = S_ b (x + y).
Proof. unfold splus. cbn. rewrite eqb_reflx. reflexivity. Qed.
Lemma unsex_any l : forall v factor, negative (unsex_loop v factor l) = negative v /\
  magnitude (unsex_loop v factor l) =
    (fix go (acc factor : Q) (l : list snum) : Q := match l with [] => acc | c :: r => go (acc + magnitude c / (factor * 60)) (factor * 60) r end) (magnitude v) factor l.
Proof.
  induction l as [|c l IH]; intros v factor; [split; reflexivity|]. cbn [unsex_loop].
  destruct v as [b x]. unfold copysign, sdiv. cbn [negative magnitude]. rewrite splus_same. destruct (IH (S_ b (x + magnitude c / (factor * 60))) (factor * 60)) as [I1 I2]. split; assumption.
Qed.
Lemma unsex_three u m s : negative (unsexagesimalize [u; m; s]) = negative u /\
  magnitude (unsexagesimalize [u; m; s]) == magnitude u + magnitude m / 60 + magnitude s / 3600.
Proof.
  unfold unsexagesimalize. destruct (unsex_any [m; s] u 1) as [-> ->]. split; [reflexivity|]. field.
Qed.
Lemma wms_three u m s : negative (wms u m s) = negative u /\ magnitude (wms u m s) == magnitude u + magnitude m / 60 + magnitude s / 3600.
Proof. unfold wms, copysign, sdiv. destruct u as [b x]. cbn [negative magnitude]. rewrite !splus_same. split; [reflexivity|]. cbn. reflexivity. Qed.
Lemma dms_back value : value_of (unsexagesimalize (dms value)) == value.
Proof.
  unfold dms. destruct (sexagesimalize_to_float value) as [[[s u] m] sec] eqn:E.
  destruct (sex_float _ _ _ _ _ E) as (_ & _ & _ & S1 & S2 & S3 & _ & V).
  destruct (unsex_three (scale s (inject_Z u)) (scale s (inject_Z m)) (scale s sec)) as [H1 H2].
  unfold value_of. rewrite H1. rewrite <- V. destruct S1 as [-> |[-> |[-> _]]]; cbn [scale negative magnitude] in *; rewrite H2.
  - change (inject_Z 1) with 1. ring.
  - change (inject_Z (-1)) with (-(1)). ring.
  - change (inject_Z 0) with 0. field.
Qed.
Lemma wms_back value u m s : dms value = [u; m; s] -> value_of (wms u m s) == value.
Proof.
  intros E. pose proof (dms_back value) as H. rewrite E in H. rewrite <- H. unfold value_of.
  destruct (wms_three u m s) as [-> W2]. destruct (unsex_three u m s) as [-> U2]. destruct (negative u); rewrite W2, U2; reflexivity.
Qed.

(** * Text *)
Definition val (acc : Z) (s : list ascii) : Z := fold_left (fun a c => (10 * a + digit_value c)%Z) s acc.
Lemma digit_ok d : (0 <= d < 10)%Z -> is_digit (digit d) = true /\ digit_value (digit d) = d.
Proof.
  intros H. assert (C : (d = 0 \/ d = 1 \/ d = 2 \/ d = 3 \/ d = 4 \/ d = 5 \/ d = 6 \/ d = 7 \/ d = 8 \/ d = 9)%Z) by lia.
  repeat (destruct C as [->|C]; [split; reflexivity|]). subst. split; reflexivity.
Qed.
Lemma val_app s t : forall acc, val acc (s ++ t) = val (val acc s) t.
Proof. intros acc. unfold val. apply fold_left_app. Qed.
Lemma print_digits_ok fuel : forall n acc, (0 <= n < 10 ^ Z.of_nat fuel)%Z -> (0 < fuel)%nat ->
  exists ds, print_digits fuel n acc = ds ++ acc /\ ds <> [] /\ forallb is_digit ds = true /\ val 0 ds = n /\ (n < 10 ^ Z.of_nat (List.length ds))%Z /\
   (n = 0 \/ 10 ^ (Z.of_nat (List.length ds) - 1) <= n)%Z.
Proof.
  induction fuel as [|fuel IH]; intros n acc Hn Hf; [lia|]. cbn [print_digits].
  destruct (digit_ok (n mod 10)) as [D1 D2]; [lia|].
  destruct (Z.eqb_spec (n / 10) 0) as [E|E].
  - exists [digit (n mod 10)]. split; [reflexivity|]. split; [discriminate|]. cbn [forallb val fold_left List.length]. rewrite D1, D2.
    split; [reflexivity|]. split; [lia|]. split; [change (10 ^ Z.of_nat 1)%Z with 10%Z; lia|]. change (10 ^ (Z.of_nat 1 - 1))%Z with 1%Z. lia.
  - assert (F : (0 < fuel)%nat). { destruct fuel; [|lia]. change (10 ^ Z.of_nat 1)%Z with 10%Z in Hn. lia. }
    replace (Z.of_nat (S fuel)) with (1 + Z.of_nat fuel)%Z in Hn by lia. rewrite Z.pow_add_r in Hn by lia.
    destruct (IH (n / 10)%Z (digit (n mod 10) :: acc)) as (ds & I1 & I2 & I3 & I4 & I5 & I6); [split; [lia|]; apply Z.div_lt_upper_bound; lia|assumption|].
    exists (ds ++ [digit (n mod 10)]). split; [rewrite I1, <- app_assoc; reflexivity|].
    split; [destruct ds; discriminate|]. rewrite forallb_app, I3. cbn [forallb]. rewrite D1. split; [reflexivity|].
    rewrite val_app, I4. cbn [val fold_left]. rewrite D2. rewrite app_length. cbn [List.length].
    replace (Z.of_nat (List.length ds + 1)) with (1 + Z.of_nat (List.length ds))%Z by lia. rewrite Z.pow_add_r by lia.
    split; [lia|]. split; [lia|]. right. destruct I6 as [I6|I6]; [lia|].
    replace (1 + Z.of_nat (List.length ds) - 1)%Z with (1 + (Z.of_nat (List.length ds) - 1))%Z by lia.
    assert (0 < List.length ds)%nat by (destruct ds; [congruence|cbn; lia]). rewrite Z.pow_add_r by lia. lia.
Qed.
Lemma print_ok n : (0 <= n)%Z -> print n <> [] /\ forallb is_digit (print n) = true /\ val 0 (print n) = n /\
  (n = 0 \/ 10 ^ (Z.of_nat (List.length (print n)) - 1) <= n)%Z /\ (n = 0%Z -> List.length (print n) = 1%nat).
Proof.
  intros Hn. unfold print. destruct (print_digits_ok (Z.to_nat (Z.log2 n) + 2) n []) as (ds & E & H1 & H2 & H3 & H4 & H5).
  - split; [assumption|]. pose proof (Z.log2_nonneg n). replace (Z.of_nat (Z.to_nat (Z.log2 n) + 2)) with (Z.log2 n + 2)%Z by lia.
    destruct (Z.eq_dec n 0) as [->|N]; [reflexivity|]. pose proof (Z.log2_spec n ltac:(lia)) as [_ L].
    eapply Z.lt_le_trans; [exact L|]. replace (Z.succ (Z.log2 n)) with (Z.log2 n + 1)%Z by lia.
    eapply Z.le_trans; [apply Z.pow_le_mono_l; split; [|instantiate (1 := 10%Z)]; lia|]. apply Z.pow_le_mono_r; lia.
  - lia.
  - rewrite app_nil_r in E. rewrite E. repeat split; try assumption. intros ->.
    replace (Z.to_nat (Z.log2 0) + 2)%nat with 2%nat in E by reflexivity. cbn in E. rewrite <- E. reflexivity.
Qed.
Lemma val_zeros k s : val 0 (repeat "0"%char k ++ s) = val 0 s.
Proof. induction k as [|k IH]; [reflexivity|]. cbn [repeat app]. change (val 0 ("0"%char :: repeat "0"%char k ++ s)) with (val (10 * 0 + 0) (repeat "0"%char k ++ s)). exact IH. Qed.
Lemma padded_ok w n : (0 <= n)%Z -> padded w n <> [] /\ forallb is_digit (padded w n) = true /\ val 0 (padded w n) = n /\
  ((0 < w)%nat -> (n < 10 ^ Z.of_nat w)%Z -> List.length (padded w n) = w).
Proof.
  intros Hn. destruct (print_ok n Hn) as (P1 & P2 & P3 & P4 & P5). unfold padded. split; [|split; [|split]].
  - intros E. apply app_eq_nil in E as [_ E]. auto.
  - rewrite forallb_app, P2, andb_true_r. clear. induction (w - List.length (print n))%nat; [reflexivity|assumption].
  - rewrite val_zeros. assumption.
  - intros Hw Hlt. rewrite app_length, repeat_length. assert (List.length (print n) <= w)%nat; [|lia].
    destruct P4 as [E|L]; [rewrite (P5 E); lia|]. destruct (le_lt_dec (List.length (print n)) w) as [|C]; [assumption|]. exfalso.
    assert (10 ^ Z.of_nat w <= 10 ^ (Z.of_nat (List.length (print n)) - 1))%Z by (apply Z.pow_le_mono_r; lia). lia.
Qed.
Definition stops (s : list ascii) : Prop := match s with [] => True | c :: _ => is_digit c = false end.
Lemma numbers_run ds : forall rest v n, forallb is_digit ds = true -> stops rest ->
  numbers (ds ++ rest) (Some (v, n)) = (val v ds, n + List.length ds)%nat :: numbers rest None.
Proof.
  induction ds as [|c ds IH]; intros rest v n H S1.
  - cbn [app List.length val fold_left]. rewrite Nat.add_0_r. destruct rest as [|c r]; [reflexivity|]. cbn in S1 |- *. rewrite S1. reflexivity.
  - cbn [forallb] in H. apply andb_prop in H as [H1 H2]. cbn [app numbers]. rewrite H1, IH by assumption. cbn [List.length]. rewrite <- Nat.add_succ_comm. reflexivity.
Qed.
Lemma numbers_token ds rest : ds <> [] -> forallb is_digit ds = true -> stops rest ->
  numbers (ds ++ rest) None = (val 0 ds, List.length ds) :: numbers rest None.
Proof.
  intros N H S1. destruct ds as [|c ds]; [congruence|]. cbn [forallb] in H. apply andb_prop in H as [H1 H2]. cbn [app numbers]. rewrite H1, numbers_run by assumption.
  reflexivity.
Qed.
Lemma numbers_skip s rest : forallb (fun c => negb (is_digit c)) s = true -> numbers (s ++ rest) None = numbers rest None.
Proof. induction s as [|c s IH]; intros H; [reflexivity|]. cbn [forallb] in H. apply andb_prop in H as [H1 H2]. cbn [app numbers]. destruct (is_digit c); [discriminate|]. apply IH. assumption. Qed.

Lemma sfmt_ok f value places : exists x k n, denotes (sfmt f value places) = Some (x, k) /\ k = Nat.max 1 places /\
  x == inject_Z n / inject_Z (10 ^ Z.of_nat places * 3600) /\ nearest n (inject_Z (10 ^ Z.of_nat places * 3600) * value).
Proof.
  destruct (sexagesimalize_to_int value places) as [[[[sg u] m] sec] fr] eqn:E. destruct (sex_int _ _ _ _ _ _ _ E) as ((U & M & S1 & F) & Sg & N). cbn zeta in N.
  set (P := (10 ^ Z.of_nat places)%Z) in *. assert (HP : (0 < P)%Z) by (apply Z.pow_pos_nonneg; lia).
  destruct (padded_ok 2 u U) as (U1 & U2 & U3 & _). destruct (padded_ok 2 m ltac:(lia)) as (M1 & M2 & M3 & _). destruct (padded_ok 2 sec ltac:(lia)) as (C1 & C2 & C3 & _).
  destruct (padded_ok places fr ltac:(lia)) as (F1 & F2 & F3 & F4).
  assert (K : List.length (padded places fr) = Nat.max 1 places).
  { destruct places as [|pl]; [|rewrite F4; [reflexivity|lia|]].
    - change P with 1%Z in F. replace fr with 0%Z by lia. reflexivity.
    - fold P. lia. }
  set (sgt := match f with DSgn => match (if (sg <? 0)%Z then text "-" else []) with [] => text "+" | _ => (if (sg <? 0)%Z then text "-" else []) end | _ => (if (sg <? 0)%Z then text "-" else []) end).
  set (suf := match f with HFmt => (text "h ", text "m ", text "s") | _ => (text "deg ", text "' ", ["034"%char]) end).
  assert (T : sfmt f value places = (sgt ++ padded 2 u ++ fst (fst suf) ++ padded 2 m ++ snd (fst suf) ++ padded 2 sec ++ text "." ++ padded places fr ++ snd suf)%list).
  { unfold sfmt. rewrite E. unfold sgt, suf. destruct f; reflexivity. }
  assert (Sx : forall a, stops (fst (fst suf) ++ a) /\ stops (snd (fst suf) ++ a) /\ stops (text "." ++ a) /\ stops (snd suf ++ a)) by (intros a; unfold suf; destruct f; repeat split; reflexivity).
  assert (Nx : forallb (fun c => negb (is_digit c)) (fst (fst suf)) = true /\ forallb (fun c => negb (is_digit c)) (snd (fst suf)) = true /\ forallb (fun c => negb (is_digit c)) (snd suf) = true) by (unfold suf; destruct f; repeat split; reflexivity).
  assert (Ns : forallb (fun c => negb (is_digit c)) sgt = true) by (unfold sgt; destruct f; destruct (sg <? 0)%Z; reflexivity).
  assert (Nums : numbers (sfmt f value places) None = [(u, List.length (padded 2 u)); (m, List.length (padded 2 m)); (sec, List.length (padded 2 sec)); (fr, Nat.max 1 places)]).
  { rewrite T. rewrite numbers_skip by assumption. destruct Nx as (N1 & N2 & N3).
    rewrite numbers_token by (assumption || apply Sx). rewrite U3. f_equal. rewrite numbers_skip by assumption.
    rewrite numbers_token by (assumption || apply Sx). rewrite M3. f_equal. rewrite numbers_skip by assumption.
    rewrite numbers_token by (assumption || apply Sx). rewrite C3. f_equal. rewrite numbers_skip by reflexivity.
    rewrite numbers_token; [|assumption|assumption|rewrite <- (app_nil_r (snd suf)); apply Sx]. rewrite F3, K. f_equal.
    rewrite <- (app_nil_r (snd suf)). rewrite numbers_skip by assumption. reflexivity. }
  unfold denotes. rewrite Nums. do 2 eexists. exists (sg * (((u * 60 + m) * 60 + sec) * P + fr))%Z. split; [reflexivity|]. split; [reflexivity|]. split; [|assumption].
  assert (Sign : (match sfmt f value places with "-"%char :: _ => -1 | _ => 1 end) == (if (sg <? 0)%Z then -1 else 1)).
  { rewrite T. unfold sgt. destruct f; destruct (sg <? 0)%Z; cbn [app text list_ascii_of_string]; try reflexivity.
    all: destruct (padded 2 u) as [|c r]; [congruence|]; cbn [forallb] in U2; apply andb_prop in U2 as [U2 _];
      cbn [app]; destruct c as [[] [] [] [] [] [] [] []]; try reflexivity; discriminate U2. }
  rewrite Sign.
  assert (Frac : inject_Z fr / inject_Z (3600 * 10 ^ Z.of_nat (Nat.max 1 places)) == inject_Z fr / (3600 * inject_Z P)).
  { destruct places as [|pl].
    - change P with 1%Z in F. replace fr with 0%Z by lia. reflexivity.
    - replace (Nat.max 1 (S pl)) with (S pl) by lia. fold P. rewrite inject_Z_mult. reflexivity. }
  rewrite Frac. repeat (rewrite inject_Z_mult || rewrite inject_Z_plus).
  assert (PQ : ~ inject_Z P == 0). { unfold Qeq. cbn [Qnum Qden inject_Z]. lia. }
  change (inject_Z 3600) with 3600. change (inject_Z 60) with 60.
  destruct Sg as [-> |[-> |(-> & -> & -> & -> & ->)]]; cbn [Z.ltb Z.compare].
  - change (inject_Z 1) with 1. field. assumption.
  - change (inject_Z (-1)) with (-(1)). field. assumption.
  - change (inject_Z 0) with 0. field. assumption.
Qed.

Lemma sign_ok value s u m sec : ~ value == 0 -> sexagesimalize_to_float value = (s, u, m, sec) ->
  (s = 1 \/ s = -1)%Z /\ (s = 1%Z <-> 0 < value) /\ 0 <= inject_Z u /\ 0 <= inject_Z m /\ 0 <= sec /\
  inject_Z s * (inject_Z u + inject_Z m / 60 + sec / 3600) == value.
Proof.
  intros N E. destruct (sex_float _ _ _ _ _ E) as ((U & M) & S1 & _ & Sg & _ & Z0 & A & V).
  assert (Qs : s = qsign value) by (unfold sexagesimalize_to_float in E; injection E as <- _ _ _; reflexivity).
  split; [destruct Sg as [|[|[H _]]]; auto; apply Z0 in H; contradiction|].
  split.
  { rewrite Qs. destruct (qsign_spec value) as [[-> H]|[[-> H]|[-> H]]]; split; try discriminate; try lra; auto. }
  change 0 with (inject_Z 0) at 1 2. rewrite <- !Zle_Qle. intuition lia.
Qed.
Lemma sign_zero : exists value s u m sec, sexagesimalize_to_float value = (s, u, m, sec) /\ s <> 1%Z /\ s <> (-1)%Z.
Proof. exists 0. do 4 eexists. split; [reflexivity|]. split; discriminate. Qed.
