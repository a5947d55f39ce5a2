(** Histories of reads and almanac calls. *)
From Coq Require Import List Bool.
From Verif Require Import Cache_Model Cache_Spec.
Import ListNotations.

Section Proofs.
Variable V : Type.
Variable r : routines V.
Notation cache := (cache V).
Lemma attr_eqb_eq a b : attr_eqb a b = true <-> a = b.
Proof. split; [destruct a, b; try discriminate; reflexivity|intros <-; destruct a; reflexivity]. Qed.

(** Values determined by the object as constructed. [ok] selects the attributes
    for which the cache is known to be right. *)
Variable c0 : cache.
Definition or0 (a : attr) (v : V) : V := match c0 a with Some x => x | None => v end.
Definition v_taif := or0 tai_fraction (r_tai_fraction V r).
Definition v_tdbf := or0 tdb_fraction (r_tdb_fraction V r).
Definition v_dt := or0 delta_t (r_delta_t V r).
Definition v_J := or0 J (r_J V r).
Definition v_nut := or0 nutation_angles (r_iau2000a V r).
Definition v_ut1f := or0 ut1_fraction (r_ut1_fraction V r v_dt).
Definition v_tais := or0 tai_seconds (r_tai_seconds V r v_taif).
Definition v_utc := or0 utc (r_utc V r v_tais).
Definition v_dut1 := or0 dut1 (r_dut1 V r (r_leap_seconds V r v_tais) v_dt).
Definition v_tdb := r_plus_whole V r v_tdbf.
Definition v_obl := or0 mean_obliquity (r_obliquity V r v_tdb).
Definition v_gmst := or0 gmst (r_gmst V r v_ut1f v_tdbf).
Definition v_gast := or0 gast (r_gast V r v_nut v_obl v_gmst).
Definition v_P := or0 P (r_precession V r v_tdb).
Definition v_N := or0 N (r_nutation V r v_nut v_obl).
Definition v_PT := or0 PT (r_transpose V r v_P).
Definition v_NT := or0 NT (r_transpose V r v_N).
Definition v_M := or0 M (r_mxmxm V r v_N v_P).
Definition v_MT := or0 MT (r_transpose V r v_M).
Definition v_C := or0 C (r_C V r (r_plus_whole V r v_ut1f) v_gast v_M).
Definition v_CT := or0 CT (r_transpose V r v_C).
Definition val (a : attr) : V :=
  match a with
  | tai_fraction => v_taif | tdb_fraction => v_tdbf | ut1_fraction => v_ut1f | delta_t => v_dt | dut1 => v_dut1
  | tai_seconds => v_tais | utc => v_utc | J => v_J | nutation_angles => v_nut | mean_obliquity => v_obl
  | gmst => v_gmst | gast => v_gast | P => v_P | N => v_N | PT => v_PT | NT => v_NT | M => v_M | MT => v_MT | C => v_C | CT => v_CT
  | precession_matrix_name => r_precession V r v_tdb | nutation_matrix_name => r_nutation V r v_nut v_obl
  end.
Definition nval (n : name) : V :=
  match n with Attr a => val a | Tai => r_plus_whole V r v_taif | Tt => r_tt V r | Tdb => v_tdb | Ut1 => r_plus_whole V r v_ut1f end.

Variable ok : attr -> bool.
Variable strict : bool.
Definition clean (c : cache) : Prop := c precession_matrix_name = None /\ c nutation_matrix_name = None.
Definition inv (c : cache) : Prop := (forall a, ok a = true ->
  (forall v, c a = Some v -> v = val a) /\ (c a = None -> c0 a = None)) /\ (strict = true -> clean c).
Definition faithful (p : code V) (v : V) : Prop := forall c, inv c -> fst (p c) = Value v /\ inv (snd (p c)).
(** Any program that keeps the invariant, whatever it returns. *)
Definition keeps (p : code V) : Prop := forall c, inv c -> inv (snd (p c)).
Definition plain_key (a : attr) : bool := match a with precession_matrix_name | nutation_matrix_name => false | _ => true end.

Lemma inv_store c a v : inv c -> (ok a = true -> v = val a) -> (strict = true -> plain_key a = true) -> inv (store V c a v).
Proof.
  intros [I S] H K. split.
  - intros b Hb. unfold store. destruct (attr_eqb a b) eqn:E.
    + apply attr_eqb_eq in E. subst b. split; [intros x [= <-]; auto|discriminate].
    + apply I. assumption.
  - intros Hs. specialize (K Hs). destruct (S Hs). unfold clean, store. destruct a; try discriminate K; split; assumption.
Qed.
Lemma reify_faithful a p : ok a = true -> plain_key a = true -> (c0 a = None -> faithful p (val a)) -> faithful (reify V a p) (val a).
Proof.
  intros Ha Hk H c I. unfold reify, reify_as. destruct (c a) as [v|] eqn:E.
  - split; [|assumption]. cbn. f_equal. apply (proj1 (proj1 I a Ha)). assumption.
  - pose proof (H (proj2 (proj1 I a Ha) E) c I) as [F I']. destruct (p c) as [v c']. cbn in *. subst v. cbn. split; [reflexivity|]. apply inv_store; auto.
Qed.
Lemma reify_keeps a k p : ok k = false -> (strict = true -> plain_key k = true) -> keeps p -> keeps (reify_as V a k p).
Proof.
  intros Ha Hk H c I. unfold reify_as. destruct (c a) as [v|]; [assumption|]. pose proof (H c I) as I'. destruct (p c) as [[v|] c']; cbn in *; [|assumption]. apply inv_store; [assumption|congruence|assumption].
Qed.
Lemma faithful_keeps p v : faithful p v -> keeps p. Proof. intros H c I. apply H. assumption. Qed.
Lemma ret_faithful v : faithful (ret V v) v. Proof. intros c I. split; [reflexivity|assumption]. Qed.
Lemma bind_faithful p v q w : faithful p v -> faithful (q v) w -> faithful (bind V p q) w.
Proof. intros H1 H2 c I. unfold bind. destruct (H1 c I) as [E I']. destruct (p c) as [x c']. cbn in E, I'. subst x. apply H2. assumption. Qed.
Lemma bind_keeps p q : keeps p -> (forall v, keeps (q v)) -> keeps (bind V p q).
Proof. intros H1 H2 c I. unfold bind. pose proof (H1 c I) as I'. destruct (p c) as [[x|] c']; [apply H2|]; assumption. Qed.
Lemma val_or0 a v : c0 a = None -> or0 a v = v. Proof. unfold or0. intros ->. reflexivity. Qed.
Lemma get_or_faithful a p v : ok a = true -> faithful p v -> (c0 a = None -> val a = v) -> faithful (get_or V a p) (val a).
Proof.
  intros Ha H E c I. unfold get_or. destruct (c a) as [x|] eqn:Q; [split; [cbn; f_equal; apply (proj1 (proj1 I a Ha)); assumption|assumption]|].
  rewrite (E (proj2 (proj1 I a Ha) Q)). apply H. assumption.
Qed.
Lemma get_or_keeps a p : keeps p -> keeps (get_or V a p).
Proof. intros H c I. unfold get_or. destruct (c a); [assumption|]. apply H. assumption. Qed.
Lemma call_keeps a p : keeps p -> keeps (call V a p).
Proof. intros H c I. unfold call. destruct (c a); [assumption|]. apply H. assumption. Qed.

(** Elementary attributes. *)
Hypothesis ok_plain : forall a, elementary (Attr a) = true -> ok a = true.
Ltac start v a := change v with (val a); apply reify_faithful; [apply ok_plain; reflexivity|reflexivity|intros E; cbn [val]; unfold v; rewrite (val_or0 _ _ E)].
Ltac next v H := apply (bind_faithful _ v); [apply H|].
Lemma f_taif : faithful (get_tai_fraction V r) v_taif. Proof. start v_taif tai_fraction. apply ret_faithful. Qed.
Lemma f_tdbf : faithful (get_tdb_fraction V r) v_tdbf. Proof. start v_tdbf tdb_fraction. apply ret_faithful. Qed.
Lemma f_dt : faithful (get_delta_t V r) v_dt. Proof. start v_dt delta_t. apply ret_faithful. Qed.
Lemma f_J : faithful (get_J V r) v_J. Proof. start v_J J. apply ret_faithful. Qed.
Lemma f_ut1f : faithful (get_ut1_fraction V r) v_ut1f. Proof. start v_ut1f ut1_fraction. next v_dt f_dt. apply ret_faithful. Qed.
Lemma f_tai : faithful (get_tai V r) (r_plus_whole V r v_taif). Proof. next v_taif f_taif. apply ret_faithful. Qed.
Lemma f_tdb : faithful (get_tdb V r) v_tdb. Proof. next v_tdbf f_tdbf. apply ret_faithful. Qed.
Lemma f_ut1 : faithful (get_ut1 V r) (r_plus_whole V r v_ut1f). Proof. next v_ut1f f_ut1f. apply ret_faithful. Qed.
Lemma f_tais : faithful (get_tai_seconds V r) v_tais. Proof. start v_tais tai_seconds. next v_taif f_taif. apply ret_faithful. Qed.
Lemma f_utc : faithful (get_utc V r) v_utc. Proof. start v_utc utc. next v_tais f_tais. apply ret_faithful. Qed.
Lemma f_dut1 : faithful (get_dut1 V r) v_dut1. Proof. start v_dut1 dut1. next v_tais f_tais. next v_dt f_dt. apply ret_faithful. Qed.
Lemma f_obl : faithful (get_obliquity V r) v_obl. Proof. start v_obl mean_obliquity. next v_tdb f_tdb. apply ret_faithful. Qed.
Lemma f_gmst : faithful (get_gmst V r) v_gmst. Proof. start v_gmst gmst. next v_ut1f f_ut1f. next v_tdbf f_tdbf. apply ret_faithful. Qed.
Lemma f_prec : faithful (precession_matrix V r) (r_precession V r v_tdb). Proof. next v_tdb f_tdb. apply ret_faithful. Qed.
(** Reading [P] gives the right value even where it spoils the cache. *)
Definition gives (p : code V) (v : V) : Prop := forall c, inv c -> fst (p c) = Value v.
Lemma faithful_gives p v : faithful p v -> gives p v. Proof. intros H c I. apply H. assumption. Qed.
Lemma reify_gives a k p : ok a = true -> (c0 a = None -> gives p (val a)) -> gives (reify_as V a k p) (val a).
Proof.
  intros Ha H c I. unfold reify_as. destruct (c a) as [v|] eqn:E; [cbn; f_equal; apply (proj1 (proj1 I a Ha)); assumption|].
  pose proof (H (proj2 (proj1 I a Ha) E) c I) as F. destruct (p c) as [v c']. cbn in F. subst v. reflexivity.
Qed.
Lemma bind_gives p v w : gives p v -> gives (bind V p (fun x => ret V (w x))) (w v).
Proof. intros H c I. unfold bind. pose proof (H c I) as F. destruct (p c) as [x c']. cbn in F. subst x. reflexivity. Qed.
Lemma g_P : gives (get_P V r) v_P.
Proof. change v_P with (val P). apply reify_gives; [apply ok_plain; reflexivity|intros E; cbn [val]; unfold v_P; rewrite (val_or0 _ _ E); apply faithful_gives, f_prec]. Qed.
Lemma g_PT : gives (get_PT V r) v_PT.
Proof. change v_PT with (val PT). apply reify_gives; [apply ok_plain; reflexivity|intros E; cbn [val]; unfold v_PT; rewrite (val_or0 _ _ E); apply (bind_gives _ _ (r_transpose V r)), g_P]. Qed.

Section Full.
(** Nothing exempt, and the methods not hidden. *)
Hypothesis ok_all : forall a, ok a = true.
Hypothesis is_strict : strict = true.
Ltac begin v a := change v with (val a); apply reify_faithful; [apply ok_all|reflexivity|intros E; cbn [val]; unfold v; rewrite (val_or0 _ _ E)].
Lemma f_nut : faithful (get_nutation_angles V r) v_nut. Proof. begin v_nut nutation_angles. apply ret_faithful. Qed.
Lemma f_gast : faithful (get_gast V r) v_gast.
Proof. begin v_gast gast. next v_nut f_nut. next v_obl f_obl. next v_gmst f_gmst. apply ret_faithful. Qed.
Lemma f_nm : faithful (nutation_matrix V r) (r_nutation V r v_nut v_obl).
Proof. next v_nut f_nut. next v_obl f_obl. apply ret_faithful. Qed.
Lemma call_prec : faithful (call V precession_matrix_name (precession_matrix V r)) (r_precession V r v_tdb).
Proof. intros c I. unfold call. rewrite (proj1 (proj2 I is_strict)). apply f_prec. assumption. Qed.
Lemma call_nut : faithful (call V nutation_matrix_name (nutation_matrix V r)) (r_nutation V r v_nut v_obl).
Proof. intros c I. unfold call. rewrite (proj2 (proj2 I is_strict)). apply f_nm. assumption. Qed.
Lemma f_M : faithful (get_M V r) v_M.
Proof.
  begin v_M M. apply (bind_faithful _ v_P).
  - change v_P with (val P). apply (get_or_faithful P _ (r_precession V r v_tdb)); [apply ok_all|apply call_prec|apply val_or0].
  - apply (bind_faithful _ v_N); [|apply ret_faithful].
    change v_N with (val N). apply (get_or_faithful N _ (r_nutation V r v_nut v_obl)); [apply ok_all|apply call_nut|apply val_or0].
Qed.
Lemma f_MT : faithful (get_MT V r) v_MT. Proof. begin v_MT MT. next v_M f_M. apply ret_faithful. Qed.
Lemma f_C : faithful (get_C V r) v_C.
Proof. begin v_C C. next (r_plus_whole V r v_ut1f) f_ut1. next v_gast f_gast. next v_M f_M. apply ret_faithful. Qed.
Lemma f_CT : faithful (get_CT V r) v_CT. Proof. begin v_CT CT. next v_C f_C. apply ret_faithful. Qed.
Lemma f_read n : deprecated n = false -> faithful (read V r n) (nval n).
Proof.
  intros H. destruct n as [[]| | | |]; try discriminate H; cbn [read nval val];
  first [apply f_taif|apply f_tdbf|apply f_ut1f|apply f_dt|apply f_dut1|apply f_tais|apply f_utc|apply f_J|apply f_nut|apply f_obl|apply f_gmst|apply f_gast|apply f_M|apply f_MT|apply f_C|apply f_CT|apply f_tai|apply f_tdb|apply f_ut1|apply call_prec|apply call_nut|apply ret_faithful].
Qed.
Lemma g_N : gives (get_N V r) v_N.
Proof. change v_N with (val N). apply reify_gives; [apply ok_all|intros E; cbn [val]; unfold v_N; rewrite (val_or0 _ _ E); apply faithful_gives, f_nm]. Qed.
Lemma g_NT : gives (get_NT V r) v_NT.
Proof. change v_NT with (val NT). apply reify_gives; [apply ok_all|intros E; cbn [val]; unfold v_NT; rewrite (val_or0 _ _ E); apply (bind_gives _ _ (r_transpose V r)), g_N]. Qed.
Lemma g_read n : gives (read V r n) (nval n).
Proof.
  destruct (deprecated n) eqn:E; [|apply faithful_gives, f_read; assumption]. destruct n as [[]| | | |]; try discriminate E; cbn [read nval val]; [apply g_P|apply g_N|apply g_PT|apply g_NT].
Qed.
End Full.

Section Plain.
(** Only the elementary attributes are claimed. *)
Hypothesis ok_only : forall a, ok a = elementary (Attr a).
Hypothesis not_strict : strict = false.
Lemma ns (a : attr) : strict = true -> plain_key a = true. Proof. congruence. Qed.
Lemma k_ret v : keeps (ret V v). Proof. intros c I. assumption. Qed.
Ltac kreify := apply reify_keeps; [rewrite ok_only; reflexivity|apply ns|].
Lemma k_nut : keeps (get_nutation_angles V r). Proof. kreify. apply k_ret. Qed.
Lemma k_gast : keeps (get_gast V r).
Proof. kreify. apply bind_keeps; [apply k_nut|intros n]. apply bind_keeps; [apply (faithful_keeps _ _ f_obl)|intros o]. apply bind_keeps; [apply (faithful_keeps _ _ f_gmst)|intros g; apply k_ret]. Qed.
Lemma k_nm : keeps (nutation_matrix V r).
Proof. apply bind_keeps; [apply k_nut|intros n]. apply bind_keeps; [apply (faithful_keeps _ _ f_obl)|intros o; apply k_ret]. Qed.
Lemma k_P : keeps (get_P V r). Proof. kreify. apply (faithful_keeps _ _ f_prec). Qed.
Lemma f_PT : faithful (get_PT V r) v_PT.
Proof.
  start v_PT PT. intros c I. split; [apply (bind_gives _ _ (r_transpose V r) g_P); assumption|]. apply (bind_keeps _ _ k_P (fun v => k_ret _)). assumption.
Qed.
Lemma k_N : keeps (get_N V r). Proof. kreify. apply k_nm. Qed.
Lemma k_NT : keeps (get_NT V r). Proof. kreify. apply bind_keeps; [apply k_N|intros; apply k_ret]. Qed.
Lemma k_M : keeps (get_M V r).
Proof.
  kreify. apply bind_keeps; [apply get_or_keeps, call_keeps, (faithful_keeps _ _ f_prec)|intros p]. apply bind_keeps; [apply get_or_keeps, call_keeps, k_nm|intros; apply k_ret].
Qed.
Lemma k_MT : keeps (get_MT V r). Proof. kreify. apply bind_keeps; [apply k_M|intros; apply k_ret]. Qed.
Lemma k_C : keeps (get_C V r).
Proof. kreify. apply bind_keeps; [apply (faithful_keeps _ _ f_ut1)|intros u]. apply bind_keeps; [apply k_gast|intros g]. apply bind_keeps; [apply k_M|intros; apply k_ret]. Qed.
Lemma k_CT : keeps (get_CT V r). Proof. kreify. apply bind_keeps; [apply k_C|intros; apply k_ret]. Qed.
Lemma g_read_plain n : elementary n = true -> gives (read V r n) (nval n).
Proof.
  intros H. destruct n as [[]| | | |]; try discriminate H; cbn [read nval val];
  first [apply g_P|apply g_PT|apply faithful_gives; first [apply f_taif|apply f_tdbf|apply f_ut1f|apply f_dt|apply f_dut1|apply f_tais|apply f_utc|apply f_J|apply f_obl|apply f_gmst|apply f_tai|apply f_tdb|apply f_ut1|apply ret_faithful]].
Qed.
Lemma k_read n : keeps (read V r n).
Proof.
  destruct n as [[]| | | |]; cbn [read];
  first [apply k_P|apply k_nut|apply k_gast|apply k_N|apply k_NT|apply k_M|apply k_MT|apply k_C|apply k_CT
  |apply call_keeps, (faithful_keeps _ _ f_prec)|apply call_keeps, k_nm|eapply faithful_keeps; first [apply f_PT|apply f_taif|apply f_tdbf|apply f_ut1f|apply f_dt|apply f_dut1|apply f_tais|apply f_utc|apply f_J|apply f_obl|apply f_gmst|apply f_tai|apply f_tdb|apply f_ut1|apply ret_faithful]].
Qed.
End Plain.
End Proofs.

Definition all_ok (a : attr) : bool := true.
Definition own_keys (a : attr) : bool := plain_key a.
Lemma inv_start V r c0 ok strict : (strict = true -> clean V c0) -> (forall a, ok a = true -> plain_key a = true \/ c0 a = None) -> inv V r c0 ok strict c0.
Proof.
  intros S K. split; [|assumption]. intros a Ha. split; [|auto]. intros v E. specialize (K a Ha).
  destruct a; cbn [val]; unfold v_taif, v_tdbf, v_dt, v_J, v_nut, v_ut1f, v_tais, v_utc, v_dut1, v_obl, v_gmst, v_gast, v_P, v_N, v_PT, v_NT, v_M, v_MT, v_C, v_CT, or0; rewrite ?E; try reflexivity; (destruct K as [K|K]; [discriminate K|congruence]).
Qed.
Lemma run_keeps V (I : cache V -> Prop) r ops : (forall o c, In o ops -> I c -> I (step V r c o)) -> forall c, I c -> I (run V r ops c).
Proof. induction ops as [|o ops IH]; intros H c Hc; [assumption|]. apply IH; [intros; apply H; [right|]; assumption|]. apply H; [left; reflexivity|assumption]. Qed.
Lemma read_all_keeps V (I : cache V -> Prop) r ns : (forall n c, In n ns -> I c -> I (snd (read V r n c))) -> forall c, I c -> I (read_all V r ns c).
Proof. induction ns as [|n ns IH]; intros H c Hc; [assumption|]. apply IH; [intros; apply H; [right|]; assumption|]. apply H; [left; reflexivity|assumption]. Qed.

Section Histories.
Variable V : Type.
Variable r : routines V.
Variable c0 : cache V.
Lemma full_start : clean V c0 -> inv V r c0 all_ok true c0.
Proof. intros [Hp Hn]. apply inv_start; [intros _; split; assumption|]. intros a _. destruct a; auto. Qed.
Lemma full_read n : deprecated n = false -> faithful V r c0 all_ok true (read V r n) (nval V r c0 n).
Proof. apply f_read; reflexivity. Qed.
Lemma full_value n c : inv V r c0 all_ok true c -> clean V c0 -> value V r n c = value V r n c0.
Proof.
  intros I Hc. assert (G : gives V r c0 all_ok true (read V r n) (nval V r c0 n)) by (apply g_read; reflexivity).
  unfold value. rewrite (G c I). symmetry. apply G, full_start, Hc.
Qed.
Lemma fresh_clean : fresh c0 -> clean V c0.
Proof. intros F. split; [destruct (c0 precession_matrix_name) eqn:E|destruct (c0 nutation_matrix_name) eqn:E]; try reflexivity; exfalso; (assert (Q : forall x, c0 x <> None -> x <> precession_matrix_name /\ x <> nutation_matrix_name) by (intros x Hx; destruct (F x Hx) as [ -> |[ -> |[ -> | -> ]]]; split; discriminate)); [apply (proj1 (Q precession_matrix_name ltac:(congruence))); reflexivity|apply (proj2 (Q nutation_matrix_name ltac:(congruence))); reflexivity]. Qed.
Lemma reads_history ops n : clean V c0 -> only_reads ops -> avoids_deprecated ops -> value V r n (run V r ops c0) = value V r n c0.
Proof.
  intros Hc Ho Hd. apply full_value; [|assumption]. apply (run_keeps V (inv V r c0 all_ok true)); [|apply full_start; assumption].
  intros o c Hin I. destruct (Ho o Hin) as [m ->]. cbn [step]. apply (full_read m); [|assumption]. apply (Hd (Read m)); [assumption|left; reflexivity].
Qed.
Lemma fast_history ops n : clean V c0 -> c0 nutation_angles = Some (r_iau2000b V r) -> avoids_deprecated ops ->
  value V r n (run V r ops c0) = value V r n c0.
Proof.
  intros Hc H0 Hd. apply full_value; [|assumption]. apply (run_keeps V (inv V r c0 all_ok true)); [|apply full_start; assumption].
  intros [m|ms] c Hin I; cbn [step].
  - apply (full_read m); [|assumption]. apply (Hd (Read m)); [assumption|left; reflexivity].
  - apply (read_all_keeps V (inv V r c0 all_ok true)).
    + intros m c' Hm I'. apply (full_read m); [|assumption]. apply (Hd (Almanac ms)); assumption.
    + apply inv_store; [assumption| |reflexivity]. intros _. cbn [val]. unfold v_nut, or0. rewrite H0. reflexivity.
Qed.
Lemma plain_history ops n : elementary n = true -> value V r n (run V r ops c0) = value V r n c0.
Proof.
  intros Hn. set (ok := fun a => elementary (Attr a)).
  assert (S : inv V r c0 ok false c0) by (apply inv_start; [discriminate|intros a Ha; left; destruct a; try reflexivity; discriminate Ha]).
  assert (G : gives V r c0 ok false (read V r n) (nval V r c0 n)) by (apply g_read_plain; auto).
  assert (K : forall m c, inv V r c0 ok false c -> inv V r c0 ok false (snd (read V r m c))). { intros m. apply (k_read V r c0 ok false); [intros a; exact (fun H => H)|reflexivity|reflexivity]. }
  unfold value. rewrite (G c0 S). apply G. apply (run_keeps V (inv V r c0 ok false)); [|assumption].
  intros [m|ms] c _ I; cbn [step]; [apply K; assumption|]. apply (read_all_keeps V (inv V r c0 ok false)); [intros; apply K; assumption|]. apply inv_store; [assumption|discriminate|discriminate].
Qed.
End Histories.

Lemma almanac_changes V r c0 : r_iau2000a V r <> r_iau2000b V r -> fresh c0 ->
  value V r (Attr nutation_angles) (run V r [Almanac []] c0) <> value V r (Attr nutation_angles) c0.
Proof.
  intros H F. assert (E : c0 nutation_angles = None) by (destruct (c0 nutation_angles) eqn:Q; [|reflexivity]; destruct (F nutation_angles ltac:(congruence)) as [X|[X|[X|X]]]; discriminate X).
  unfold value, read, get_nutation_angles, reify, reify_as. cbn. rewrite E. cbn. congruence.
Qed.
Lemma hidden_method V r c0 : fresh c0 ->
  value V r (Attr M) (run V r [Read (Attr P)] c0) = TypeError /\ exists v, value V r (Attr M) c0 = Value v.
Proof.
  intros F. split.
  - assert (E : forall a, a <> tai_fraction -> a <> tdb_fraction -> a <> ut1_fraction -> a <> tai_seconds -> c0 a = None).
    { intros a H1 H2 H3 H4. destruct (c0 a) eqn:Q; [|reflexivity]. destruct (F a ltac:(congruence)) as [X|[X|[X|X]]]; contradiction. }
    assert (HP := E P ltac:(discriminate) ltac:(discriminate) ltac:(discriminate) ltac:(discriminate)).
    assert (HM := E M ltac:(discriminate) ltac:(discriminate) ltac:(discriminate) ltac:(discriminate)).
    unfold value, run, fold_left, step, read, get_P, reify_as. rewrite HP. unfold precession_matrix, get_tdb, bind, get_tdb_fraction, reify, reify_as, ret.
    destruct (c0 tdb_fraction); cbn; unfold get_M, reify, reify_as, bind, get_or, store; cbn; rewrite ?HM, ?HP; cbn; rewrite ?HP; reflexivity.
  - exists (nval V r c0 (Attr M)). apply (full_read V r c0 (Attr M) eq_refl), full_start, fresh_clean, F.
Qed.
Lemma after_first_almanac V r c0 ops n : fresh c0 -> avoids_deprecated ops ->
  value V r n (run V r (Almanac [] :: ops) c0) = value V r n (run V r [Almanac []] c0).
Proof.
  intros F Hd. change (run V r (Almanac [] :: ops) c0) with (run V r ops (run V r [Almanac []] c0)). apply fast_history; [|reflexivity|assumption].
  destruct (fresh_clean V c0 F). split; assumption.
Qed.
