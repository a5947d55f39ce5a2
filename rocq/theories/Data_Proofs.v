(** Proofs about texts of data files: numbers, words, packed designations. *)
From Coq Require Import ZArith QArith Qround Bool String Ascii Decimal DecimalString DecimalNat Lia Lqa List.
From Verif Require Import PyNum Cal_Model Cal_Spec Cal_Proofs Time_Model Time_Spec Time_Proofs2 Download_Model Data_Model Data_Spec.
Import ListNotations.
Open Scope Z_scope.

(** * Characters *)
Lemma ord_of n : 0 <= n < 256 -> ord (ascii_of_nat (Z.to_nat n)) = n.
Proof. intros H. unfold ord. rewrite nat_ascii_embedding by lia. lia. Qed.
Lemma ord_inj a b : ord a = ord b -> a = b.
Proof.
  unfold ord. intros H. apply Nat2Z.inj in H. rewrite <- (ascii_nat_embedding a), <- (ascii_nat_embedding b), H. reflexivity.
Qed.
Lemma ord_code n : 0 <= n < 36 -> ord (code n) = if n <? 10 then 48 + n else 55 + n.
Proof. intros H. unfold code. apply ord_of. destruct (Z.ltb_spec n 10); lia. Qed.
Lemma isdigit_code n : 0 <= n < 36 -> isdigit (code n) = (n <? 10).
Proof.
  intros H. unfold isdigit. rewrite ord_code by lia. destruct (Z.ltb_spec n 10).
  - apply andb_true_intro. split; apply Z.leb_le; lia.
  - apply andb_false_iff. right. apply Z.leb_gt. lia.
Qed.
Lemma mpc_n_code n : 0 <= n < 36 -> mpc_n (code n) = n.
Proof.
  intros H. unfold mpc_n. rewrite isdigit_code, ord_code by lia. destruct (Z.ltb_spec n 10); lia.
Qed.
Lemma digits_value_code n r acc : 0 <= n < 10 -> digits_value (code n :: r) acc = digits_value r (10 * acc + n).
Proof.
  intros H. cbn [digits_value]. rewrite isdigit_code, ord_code by lia.
  replace (n <? 10) with true by (symmetry; apply Z.ltb_lt; lia). f_equal. lia.
Qed.
Lemma py_int_two n : 0 <= n < 100 -> py_int (two_digits n) = Some n.
Proof.
  intros H. unfold two_digits, py_int. rewrite !digits_value_code; cbn [digits_value].
  - f_equal. pose proof (Z.div_mod n 10). lia.
  - apply Z.mod_pos_bound. lia.
  - split; [apply Z.div_pos; lia|apply Z.div_lt_upper_bound; lia].
Qed.
Lemma digits_value_app a b acc : digits_value (a ++ b) acc =
  match digits_value a acc with Some v => digits_value b v | None => None end.
Proof.
  revert acc; induction a as [|c a IH]; intros acc; cbn; [reflexivity|]. destruct (isdigit c); [apply IH|reflexivity].
Qed.
Lemma digits_uint u : forall acc, digits_value (list_ascii_of_string (NilEmpty.string_of_uint u)) (Z.of_nat acc) =
  Some (Z.of_nat (Nat.of_uint_acc u acc)).
Proof.
  induction u as [|u IH|u IH|u IH|u IH|u IH|u IH|u IH|u IH|u IH|u IH]; intros acc; cbn -[Z.mul Z.add Nat.tail_mul];
    [reflexivity|..]; rewrite <- IH; f_equal;
    rewrite ?Nat2Z.inj_succ, ?Nat.tail_mul_spec; rewrite ?Nat2Z.inj_succ, Nat2Z.inj_mul; change (Z.of_nat 10) with 10;
    match goal with |- (if isdigit ?c then _ else _) = _ => let o := eval vm_compute in (ord c - 48) in change (isdigit c) with true; change (ord c - 48) with o end;
    cbv iota; f_equal; lia.
Qed.
Lemma decimal_int n : py_int (decimal n) = Some (Z.of_nat n) /\ digits_value (decimal n) 0 = Some (Z.of_nat n) /\ decimal n <> [].
Proof.
  assert (D : digits_value (decimal n) 0 = Some (Z.of_nat n)).
  { unfold decimal, chars. change 0 with (Z.of_nat 0).
    assert (E : Nat.of_uint (Nat.to_uint n) = n) by apply Unsigned.of_to. revert E.
    destruct (Nat.to_uint n) eqn:U; intros E; [|rewrite <- U in *; unfold NilZero.string_of_uint; rewrite U; rewrite <- U, digits_uint;
      f_equal; f_equal; exact E..].
    cbn in E. subst n. reflexivity. }
  assert (N : decimal n <> []).
  { intros E. rewrite E in D. unfold decimal, chars in E. revert E. unfold NilZero.string_of_uint.
    destruct (Nat.to_uint n); cbn; discriminate. }
  split; [|split]; try assumption. unfold py_int. destruct (decimal n) as [|c r] eqn:E; [congruence|exact D].
Qed.
Lemma digits_value_digits s acc v : digits_value s acc = Some v -> Forall (fun c => isdigit c = true) s.
Proof.
  revert acc; induction s as [|c s IH]; intros acc H; constructor; cbn in H; destruct (isdigit c) eqn:E; try discriminate; eauto.
Qed.
Lemma decimal_digits n : Forall (fun c => isdigit c = true) (decimal n).
Proof. destruct (decimal_int n) as [_ [H _]]. exact (digits_value_digits _ _ _ H). Qed.

(** * Packed dates and designations *)
Lemma packed_epoch y m d rest : 0 <= y < 3600 -> 1 <= m <= 12 -> 1 <= d <= 31 ->
  mpc_epoch (packed_date y m d ++ rest) = Some (inject_Z (julian_day y m d None) - (1 # 2))%Q.
Proof.
  intros Hy Hm Hd. unfold mpc_epoch, packed_date. cbn [app two_digits].
  pose proof (Z.mod_pos_bound y 100). pose proof (Z.div_mod y 100).
  assert (0 <= y / 100 < 36) by (split; [apply Z.div_pos; lia|apply Z.div_lt_upper_bound; lia]).
  change [code (y mod 100 / 10); code ((y mod 100) mod 10)] with (two_digits (y mod 100)).
  rewrite py_int_two by lia. rewrite !mpc_n_code by lia.
  replace (100 * (y / 100) + y mod 100) with y by lia. reflexivity.
Qed.
Lemma packed_epoch_civil y m d rest : 0 <= y < 3600 -> exists_under None (y, m, d) ->
  exists jd, mpc_epoch (packed_date y m d ++ rest) = Some jd /\ (jd == inject_Z (civil_day_number None (y, m, d)) - (1 # 2))%Q.
Proof.
  intros Hy He.
  assert (R : 1 <= m <= 12 /\ 1 <= d <= 31).
  { unfold exists_under, valid_date in He. repeat (apply andb_prop in He; destruct He as [He ?]).
    repeat match goal with H : (_ <=? _) = true |- _ => apply Z.leb_le in H end.
    assert (month_length Gregorian y m <= 31); [|lia].
    unfold month_length. repeat match goal with |- context [if ?b then _ else _] => destruct b end; lia. }
  eexists. split.
  - apply packed_epoch; [exact Hy|apply R|apply R].
  - rewrite <- civil_is_julian_day; [reflexivity|exact I|exact He].
Qed.

Lemma digit_text s : Forall (fun c => isdigit c = true) s -> exists u, s = list_ascii_of_string (NilEmpty.string_of_uint u).
Proof.
  induction 1 as [|c s Hc _ [u ->]]; [exists Nil; reflexivity|].
  unfold isdigit in Hc. apply andb_prop in Hc. destruct Hc as [H1 H2]. apply Z.leb_le in H1, H2.
  assert (C : ord c = 48 \/ ord c = 49 \/ ord c = 50 \/ ord c = 51 \/ ord c = 52 \/ ord c = 53 \/ ord c = 54 \/ ord c = 55 \/
              ord c = 56 \/ ord c = 57) by lia.
  destruct C as [C|[C|[C|[C|[C|[C|[C|[C|[C|C]]]]]]]]];
    [rewrite (ord_inj c "0" C); exists (D0 u)|rewrite (ord_inj c "1" C); exists (D1 u)|rewrite (ord_inj c "2" C); exists (D2 u)
    |rewrite (ord_inj c "3" C); exists (D3 u)|rewrite (ord_inj c "4" C); exists (D4 u)|rewrite (ord_inj c "5" C); exists (D5 u)
    |rewrite (ord_inj c "6" C); exists (D6 u)|rewrite (ord_inj c "7" C); exists (D7 u)|rewrite (ord_inj c "8" C); exists (D8 u)
    |rewrite (ord_inj c "9" C); exists (D9 u)]; reflexivity.
Qed.
(** A numeral without leading zeros is the decimal form of its value. *)
Lemma decimal_unique c s v : digits_value (c :: s) 0 = Some v -> c <> "0"%char -> c :: s = decimal (Z.to_nat v).
Proof.
  intros H Hc. destruct (digit_text _ (digits_value_digits _ _ _ H)) as [u E]. rewrite E in H.
  change 0 with (Z.of_nat 0) in H. rewrite digits_uint in H. injection H as <-. rewrite Nat2Z.id, E.
  change (Nat.of_uint_acc u 0) with (Nat.of_uint u). unfold decimal, chars. rewrite Unsigned.to_of.
  destruct u; cbn in E; try discriminate; try reflexivity. injection E as -> _. congruence.
Qed.
Lemma decimal_year y : 1000 <= y < 3600 -> decimal (Z.to_nat (y / 100)) ++ two_digits (y mod 100) = decimal (Z.to_nat y).
Proof.
  intros Hy. pose proof (Z.mod_pos_bound y 100). pose proof (Z.div_mod y 100).
  assert (K : 10 <= y / 100 < 36) by (split; [apply Z.div_le_lower_bound; lia|apply Z.div_lt_upper_bound; lia]).
  assert (D : digits_value (decimal (Z.to_nat (y / 100)) ++ two_digits (y mod 100)) 0 = Some y).
  { rewrite digits_value_app. destruct (decimal_int (Z.to_nat (y / 100))) as [_ [-> _]]. rewrite Z2Nat.id by lia.
    pose proof (Z.mod_pos_bound (y mod 100) 10). pose proof (Z.div_mod (y mod 100) 10).
    assert (0 <= y mod 100 / 10 < 10) by (split; [apply Z.div_pos; lia|apply Z.div_lt_upper_bound; lia]).
    unfold two_digits. rewrite !digits_value_code by lia. cbn [digits_value]. f_equal. lia. }
  assert (N : exists c r, decimal (Z.to_nat (y / 100)) = c :: r /\ c <> "0"%char).
  { assert (C : exists k, (k < 26)%nat /\ y / 100 = Z.of_nat (10 + k)) by (exists (Z.to_nat (y / 100) - 10)%nat; lia).
    destruct C as [k [Hk ->]]. rewrite Nat2Z.id.
    do 26 (destruct k as [|k]; [cbn; eexists _, _; split; [reflexivity|discriminate]|]). lia. }
  destruct N as [c [r [E Hc]]]. rewrite E in *. cbn [app] in *. rewrite (decimal_unique c _ _ D Hc). reflexivity.
Qed.
Lemma code_not_slash n : 0 <= n < 36 -> Ascii.eqb (code n) "/" = false.
Proof.
  intros H. apply Ascii.eqb_neq. intros E. apply (f_equal ord) in E. rewrite ord_code in E by lia. change (ord "/") with 47 in E.
  destruct (Z.ltb_spec n 10); lia.
Qed.
Lemma unpack_packed d : designation_ok d -> order d < 100 -> mpc_unpack (packed d) = Some (written d).
Proof.
  intros [Hy [Ho Hf]] H100. pose proof (Z.mod_pos_bound (d_year d) 100). pose proof (Z.div_mod (d_year d) 100).
  assert (K : 10 <= d_year d / 100 < 36) by (split; [apply Z.div_le_lower_bound; lia|apply Z.div_lt_upper_bound; lia]).
  unfold mpc_unpack, packed, two_digits. cbn [app]. rewrite code_not_slash by lia.
  change [code (order d / 10); code (order d mod 10)] with (two_digits (order d)). rewrite py_int_two by lia. rewrite mpc_n_code by lia.
  unfold py_str. replace (d_year d / 100 <? 0) with false by (symmetry; apply Z.ltb_ge; lia).
  replace (order d <? 0) with false by (symmetry; apply Z.ltb_ge; lia).
  unfold written. rewrite <- (decimal_year (d_year d)) by lia. unfold two_digits.
  rewrite <- !app_assoc. cbn [app]. repeat f_equal.
  destruct (fragment d) as [c|]; [|reflexivity]. destruct (Ascii.eqb_spec c "0"); [subst; congruence|reflexivity].
Qed.
Lemma unpack_slash c s : mpc_unpack (c :: "/"%char :: s) = Some (c :: "/"%char :: s).
Proof. reflexivity. Qed.
Lemma unpack_hundred d : designation_ok d -> 100 <= order d -> mpc_unpack (packed d) = None.
Proof.
  intros [Hy [Ho Hf]] H100. 
  assert (K : 10 <= d_year d / 100 < 36) by (split; [apply Z.div_le_lower_bound; lia|apply Z.div_lt_upper_bound; lia]).
  unfold mpc_unpack, packed, two_digits. cbn [app]. rewrite code_not_slash by lia.
  assert (0 <= order d / 10 < 36 /\ 10 <= order d / 10) by (repeat split; [apply Z.div_pos; lia|apply Z.div_lt_upper_bound; lia|apply Z.div_le_lower_bound; lia]).
  unfold py_int. cbn [digits_value]. rewrite isdigit_code by lia.
  replace (order d / 10 <? 10) with false by (symmetry; apply Z.ltb_ge; lia). reflexivity.
Qed.

(** * Words *)
Arguments isspace : simpl never.
Arguments isdigit : simpl never.
Lemma isspace_blank c : isspace c = true <-> blank c.
Proof.
  unfold isspace, blank. rewrite existsb_exists. split.
  - intros [x [Hx E]]. apply Z.eqb_eq in E. cbn in Hx.
    rewrite <- E in Hx.
    destruct Hx as [Hx|[Hx|[Hx|[Hx|[Hx|[Hx|[]]]]]]]; symmetry in Hx;
      [rewrite (ord_inj c " " Hx)|rewrite (ord_inj c "009" Hx)|rewrite (ord_inj c "010" Hx)|rewrite (ord_inj c "011" Hx)
      |rewrite (ord_inj c "012" Hx)|rewrite (ord_inj c "013" Hx)]; cbn; tauto.
  - intros H. exists (ord c). split; [|apply Z.eqb_refl]. cbn in H. destruct H as [<-|[<-|[<-|[<-|[<-|[<-|[]]]]]]]; cbn; tauto.
Qed.
Lemma isspace_false c : ~ blank c -> isspace c = false.
Proof. intros H. destruct (isspace c) eqn:E; [apply isspace_blank in E; contradiction|reflexivity]. Qed.
Lemma digit_not_blank c : isdigit c = true -> ~ blank c.
Proof. intros H B. cbn in B. destruct B as [<-|[<-|[<-|[<-|[<-|[<-|[]]]]]]]; discriminate. Qed.
Lemma decimal_word n : word (decimal n).
Proof.
  split; [apply (decimal_int n)|]. eapply Forall_impl; [|apply decimal_digits]. intros c. apply digit_not_blank.
Qed.
Lemma split_blanks b s : blanks b -> split_from [] (b ++ s) = split_from [] s.
Proof. induction 1 as [|c b Hc _ IH]; [reflexivity|]. cbn. apply isspace_blank in Hc. rewrite Hc. exact IH. Qed.
Lemma split_word w : Forall (fun c => ~ blank c) w -> forall acc s, split_from acc (w ++ s) = split_from (rev w ++ acc) s.
Proof.
  induction 1 as [|c w Hc _ IH]; intros acc s; [reflexivity|]. cbn [app split_from]. rewrite isspace_false by assumption.
  rewrite IH. cbn [rev]. rewrite <- app_assoc. reflexivity.
Qed.
Lemma split_end w c s : w <> [] -> blank c -> split_from w (c :: s) = rev w :: split_from [] s.
Proof. intros Hw Hc. cbn. apply isspace_blank in Hc. rewrite Hc. destruct w; [congruence|reflexivity]. Qed.
Lemma rev_nonempty {A} (l : list A) : l <> [] -> rev l <> [].
Proof. intros H E. apply H. rewrite <- (rev_involutive l), E. reflexivity. Qed.
Lemma split_spaced ws s : spaced ws s -> split_ws s = ws.
Proof.
  unfold split_ws. induction 1 as [b Hb|b w Hb Hw|b w c ws s Hb Hw Hc Hs IH].
  - rewrite <- (app_nil_r b), split_blanks by assumption. reflexivity.
  - rewrite split_blanks by assumption. rewrite <- (app_nil_r w) at 1. rewrite split_word by apply Hw.
    rewrite app_nil_r. cbn. pose proof (rev_nonempty w (proj1 Hw)).
    destruct (rev w) eqn:E; [congruence|]. rewrite <- E, rev_involutive. reflexivity.
  - rewrite split_blanks by assumption. rewrite split_word by apply Hw. rewrite app_nil_r.
    rewrite split_end by (auto; apply rev_nonempty, Hw). rewrite rev_involutive, IH. reflexivity.
Qed.
Lemma lstrip_blanks b s : blanks b -> lstrip (b ++ s) = lstrip s.
Proof. induction 1 as [|c b Hc _ IH]; [reflexivity|]. cbn. apply isspace_blank in Hc. rewrite Hc. exact IH. Qed.
Lemma lstrip_word c s : ~ blank c -> lstrip (c :: s) = c :: s.
Proof. intros H. cbn. rewrite isspace_false by assumption. reflexivity. Qed.
Lemma lstrip_all b : blanks b -> lstrip b = [].
Proof. intros H. rewrite <- (app_nil_r b), lstrip_blanks by assumption. reflexivity. Qed.
Lemma hash_not_blank : ~ blank "#"%char.
Proof. intros B. cbn in B. intuition discriminate. Qed.

(** * Constellations *)
Lemma edges_star_words l : edges (star_words l) = Some (map (fun p => (Z.of_nat (fst p), Z.of_nat (snd p))) l).
Proof.
  induction l as [|[a b] l IH]; [reflexivity|]. cbn [star_words flat_map app edges fst snd map].
  rewrite (proj1 (decimal_int a)), (proj1 (decimal_int b)). fold (star_words l). rewrite IH. reflexivity.
Qed.
Lemma lstrip_spaced w ws s : spaced (w :: ws) s -> exists c t, lstrip s = c :: t /\ hd "x"%char w = c /\ split_ws (lstrip s) = w :: ws.
Proof.
  intros H. assert (E := H). inversion E as [|b w' Hb Hw|b w' c ws' s' Hb Hw Hc Hs]; subst.
  - rewrite lstrip_blanks by assumption. destruct w as [|c w]; [destruct Hw; congruence|].
    pose proof (Forall_inv (proj2 Hw)). rewrite lstrip_word by assumption. eexists _, _. split; [reflexivity|]. split; [reflexivity|].
    apply split_spaced. apply (sp_last [] (c :: w)); [constructor|exact Hw].
  - rewrite lstrip_blanks by assumption. destruct w as [|d w]; [destruct Hw; congruence|].
    pose proof (Forall_inv (proj2 Hw)). cbn [app]. rewrite lstrip_word by assumption. eexists _, _. split; [reflexivity|]. split; [reflexivity|].
    apply split_spaced. apply (sp_cons [] (d :: w)); try assumption. constructor.
Qed.
Lemma outlines_cons l s rest r : outline_line l s -> parse_constellations rest = Some r ->
  parse_constellations (s :: rest) = Some (l ++ r).
Proof.
  intros H Hr. inversion H as [b s' Hb|b Hb|name count l' s' Hw Hh Hs]; subst; cbn [parse_constellations].
  - rewrite lstrip_blanks, (lstrip_word "#" _ hash_not_blank) by assumption. exact Hr.
  - rewrite lstrip_all by assumption. exact Hr.
  - destruct (lstrip_spaced _ _ _ Hs) as [c [t [E [Ec Es]]]]. rewrite E in *. rewrite Es. cbn [tl].
    rewrite edges_star_words, Hr. cbn [starts_hash]. destruct (Ascii.eqb_spec c "#"); [congruence|reflexivity].
Qed.
Lemma outlines_read ls lines : Forall2 outline_line ls lines -> parse_constellations lines = Some (concat ls).
Proof.
  induction 1 as [|l s ls lines H _ IH]; [reflexivity|]. cbn [concat]. apply outlines_cons; assumption.
Qed.
Lemma outlines_odd ws s l n : word (hd [] ws) -> hd "x"%char (hd [] ws) <> "#"%char -> ws <> [] ->
  (exists name count, ws = name :: count :: star_words l ++ [decimal n]) -> spaced ws s ->
  forall before after, parse_constellations (before ++ s :: after) = None.
Proof.
  intros Hw Hh _ [name [count ->]] Hs before after. cbn [hd] in *.
  assert (O : edges (star_words l ++ [decimal n]) = None).
  { clear. induction l as [|[a b] l IH]; [reflexivity|]. cbn [star_words flat_map app edges fst snd].
    fold (star_words l). rewrite IH. destruct (py_int (decimal a)), (py_int (decimal b)); reflexivity. }
  assert (L : parse_constellations (s :: after) = None).
  { cbn [parse_constellations]. destruct (lstrip_spaced _ _ _ Hs) as [c [t [E [Ec Es]]]]. rewrite E in *. rewrite Es. cbn [tl].
    rewrite O. cbn [starts_hash]. destruct (Ascii.eqb_spec c "#"); [congruence|reflexivity]. }
  induction before as [|b before IH]; [exact L|]. cbn [app parse_constellations]. rewrite IH.
  destruct (starts_hash (lstrip b)); [reflexivity|]. destruct (split_ws (lstrip b)) as [|? f]; [reflexivity|].
  destruct (edges (tl f)); reflexivity.
Qed.
