From Coq Require Import ZArith QArith Ascii String List Bool Lia Lqa.
From Verif Require Import PyNum Const_Model Const_Spec Const_Proofs.
Import ListNotations.
Open Scope Q_scope.

(** * Searches *)
Lemma count_le {A} (f g : A -> bool) l : (forall x, In x l -> f x = true -> g x = true) -> (length (filter f l) <= length (filter g l))%nat.
Proof.
  induction l as [|a l IH]; intros H; [apply Nat.le_refl|]. cbn [filter]. assert (IH' := IH (fun x Hx => H x (or_intror Hx))). specialize (H a (or_introl eq_refl)).
  destruct (f a), (g a); cbn [length]; try lia; discriminate (H eq_refl).
Qed.
Lemma count_lt {A} (f g : A -> bool) l y : (forall x, In x l -> f x = true -> g x = true) -> In y l -> f y = false -> g y = true ->
  (length (filter f l) < length (filter g l))%nat.
Proof.
  intros H Hy F G. induction l as [|a l IH]; [destruct Hy|]. cbn [filter]. assert (H' : forall x, In x l -> f x = true -> g x = true) by (intros; apply H; [right|]; assumption).
  destruct Hy as [->|Hy].
  - rewrite F, G. cbn [length]. pose proof (count_le f g l H'). lia.
  - specialize (IH H' Hy). specialize (H a (or_introl eq_refl)). destruct (f a), (g a); cbn [length]; try lia; discriminate (H eq_refl).
Qed.
Lemma count_eq {A} (f g : A -> bool) l : (forall x, In x l -> f x = g x) -> length (filter f l) = length (filter g l).
Proof.
  induction l as [|a l IH]; intros H; [reflexivity|]. cbn [filter]. rewrite (H a) by (left; reflexivity).
  assert (E := IH (fun x Hx => H x (or_intror Hx))). destruct (g a); cbn [length]; lia.
Qed.
Lemma right_mono l x y : x <= y -> (search_right l x <= search_right l y)%nat.
Proof. intros H. apply count_le. intros a _ L. apply Qle_bool_iff in L. apply Qle_bool_iff. lra. Qed.
Lemma right_strict l x y : InQ y l -> x < y -> (search_right l x < search_right l y)%nat.
Proof.
  intros (z & Hz & E) L. apply (count_lt _ _ _ z); [|exact Hz|apply Qle_false; lra|apply Qle_bool_iff; lra].
  intros a _ A. apply Qle_bool_iff in A. apply Qle_bool_iff. lra.
Qed.
Lemma filter_short {A} (f : A -> bool) l : (length (filter f l) <= length l)%nat.
Proof. induction l as [|a l IH]; [apply Nat.le_refl|]. cbn [filter]. destruct (f a); cbn [length]; lia. Qed.
Lemma find_filter {A} (f g : A -> bool) l : find f (filter g l) = find (fun x => g x && f x) l.
Proof. induction l as [|a l IH]; [reflexivity|]. cbn [filter find]. destruct (g a); cbn [andb find]; [destruct (f a); [reflexivity|exact IH]|exact IH]. Qed.
Lemma rev_filter {A} (g : A -> bool) l : rev (filter g (rev l)) = filter g l.
Proof.
  induction l as [|a l IH]; [reflexivity|]. cbn [rev filter]. assert (E : forall k, filter g (k ++ [a]) = filter g k ++ (if g a then [a] else [])).
  { intros k. induction k as [|c k IHk]; cbn; [destruct (g a); reflexivity|]. rewrite IHk. destruct (g c); reflexivity. }
  rewrite E, rev_app_distr, IH. destruct (g a); reflexivity.
Qed.
Lemma find_eq {A} (f g : A -> bool) l : (forall x, In x l -> f x = g x) -> find f l = find g l.
Proof. induction l as [|a l IH]; intros H; [reflexivity|]. cbn [find]. rewrite (H a) by (left; reflexivity). rewrite IH by (intros; apply H; right; assumption). reflexivity. Qed.

(** * The rule *)
Definition here (ra dec : Q) (b : boundary) : bool := Qle_bool (de_low b) dec && (Qle_bool (ra_low b) ra && Qltb ra (ra_up b)).
Lemma rule_find l ra dec c : in_constellation l ra dec c -> exists b, In b l /\ find (here ra dec) l = Some b /\ const b = c.
Proof.
  induction 1 as [b r ra dec H1 H2 H3|b r ra dec c H _ (b' & I & F & E)]; cbn [find].
  - exists b. split; [left; reflexivity|]. unfold here. rewrite (proj2 (Qle_bool_iff _ _) H1), (proj2 (Qle_bool_iff _ _) H2), (proj2 (Qltb_lt' _ _) H3). split; reflexivity.
  - exists b'. split; [right; exact I|]. split; [|exact E]. replace (here ra dec b) with false; [exact F|]. unfold here. symmetry.
    destruct H as [H|[H|H]]; [rewrite (proj2 (Qle_false _ _) H); reflexivity|rewrite (proj2 (Qle_false _ _) H), andb_false_r; reflexivity|rewrite (proj2 (Qltb_ge' _ _) H), !andb_false_r; reflexivity].
Qed.
Lemma rule_functional l ra dec c d : in_constellation l ra dec c -> in_constellation l ra dec d -> c = d.
Proof. intros H K. destruct (rule_find _ _ _ _ H) as (b & _ & F & <-). destruct (rule_find _ _ _ _ K) as (b' & _ & F' & <-). congruence. Qed.

Lemma southward_all a l : southward (a :: l) -> forall b, In b l -> de_low b <= de_low a.
Proof.
  revert a. induction l as [|c l IH]; intros a H b Hb; [destruct Hb|]. destruct H as [H1 H2]. destruct Hb as [->|Hb]; [exact H1|].
  specialize (IH c H2 b Hb). lra.
Qed.
Lemma northward_snoc l : forall b de, northward l de -> de <= de_low b -> (forall x, In x l -> de_low x <= de_low b) -> northward (l ++ [b]) de.
Proof.
  induction l as [|a l IH]; intros b de H Hd Ha; cbn [app northward]; [tauto|]. destruct H as [H1 H2]. split; [exact H1|].
  apply IH; [exact H2|apply Ha; left; reflexivity|intros; apply Ha; right; assumption].
Qed.
Lemma southward_rev l de : southward l -> (forall b, In b l -> de <= de_low b) -> northward (rev l) de.
Proof.
  induction l as [|a l IH]; intros H Hd; cbn [rev]; [exact I|].
  apply northward_snoc; [apply IH; [apply H|intros; apply Hd; right; assumption]|apply Hd; left; reflexivity|].
  intros x Hx. apply in_rev in Hx. apply (southward_all a l H x Hx).
Qed.

(** * Ends of sorted sets *)
Lemma first_is l x : strict l -> InQ x l -> (forall y, In y l -> x <= y) -> exists a r, l = a :: r /\ a == x.
Proof.
  intros S (z & Hz & E) H. destruct l as [|a r]; [destruct Hz|]. exists a, r. split; [reflexivity|].
  pose proof (H a (or_introl eq_refl)). destruct Hz as [->|Hz]; [symmetry; exact E|]. pose proof (strict_lt _ _ S z Hz). lra.
Qed.
Lemma last_max l d : strict l -> forall y, In y l -> y <= last l d.
Proof.
  induction l as [|a l IH]; intros S y Hy; [destruct Hy|]. destruct l as [|b l].
  - destruct Hy as [->|[]]. cbn. lra.
  - change (last (a :: b :: l) d) with (last (b :: l) d). destruct Hy as [->|Hy]; [|apply IH; [apply (strict_tail a), S|exact Hy]].
    specialize (IH (strict_tail _ _ S) b (or_introl eq_refl)). pose proof (strict_lt _ _ S b (or_introl eq_refl)). lra.
Qed.
Lemma last_in (l : list Q) d : l <> [] -> In (last l d) l.
Proof. intros H. rewrite (app_removelast_last d H) at 2. apply in_or_app. right. left. reflexivity. Qed.
Lemma last_is l x d : strict l -> InQ x l -> (forall y, In y l -> y <= x) -> last l d == x.
Proof.
  intros S (z & Hz & E) H. assert (N : l <> []) by (intros ->; destruct Hz). pose proof (last_max l d S z Hz). pose proof (H _ (last_in l d N)). lra.
Qed.
Lemma insert_from x l y : In y (insert x l) -> y = x \/ In y l.
Proof.
  induction l as [|a r IH]; cbn [insert]; [intros [H|[]]; left; symmetry; exact H|]. destruct (Qltb x a); [intros [H|H]; [left; symmetry|right]; assumption|].
  destruct (Qeq_bool x a); [intros H; right; exact H|]. intros [H|H]; [right; left; exact H|]. destruct (IH H); [tauto|right; right; assumption].
Qed.
Lemma set_from l y : In y (sorted_set l) -> In y l.
Proof.
  induction l as [|a l IH]; cbn [sorted_set fold_right]; [tauto|]. fold (sorted_set l). intros H.
  apply insert_from in H as [->|H]; [left; reflexivity|right; apply IH, H].
Qed.

(** * Names *)
Lemma nth_search l x : strict l -> In x l -> nth_error l (search_left l x) = Some x.
Proof.
  induction l as [|a l IH]; intros S H; [destruct H|]. unfold search_left. cbn [filter]. destruct (Qltb a x) eqn:L.
  - apply Qltb_lt' in L. cbn [length nth_error]. destruct H as [->|H]; [lra|]. apply IH; [apply (strict_tail a), S|exact H].
  - apply Qltb_ge' in L. destruct H as [->|H]; [|pose proof (strict_lt _ _ S x H); lra].
    replace (filter (fun b => Qltb b x) l) with (@nil Q); [reflexivity|]. symmetry.
    assert (G : forall b, In b l -> x < b) by apply (strict_lt _ _ S). clear -G. induction l as [|b l IH]; [reflexivity|]. cbn [filter].
    rewrite (proj2 (Qltb_ge' b x)) by (pose proof (G b (or_introl eq_refl)); lra). apply IH. intros; apply G; right; assumption.
Qed.
Lemma name_code cat b : In b cat ->
  item (sorted_set (map (fun b => inject_Z (const b)) cat)) (code (sorted_set (map (fun b => inject_Z (const b)) cat)) b) = Some (inject_Z (const b)).
Proof.
  intros H. set (names := sorted_set _). unfold item, code. rewrite (proj2 (Z.ltb_ge _ _) (Nat2Z.is_nonneg _)), Nat2Z.id.
  apply nth_search; [apply set_strict|].
  assert (I : InQ (inject_Z (const b)) names) by (apply set_in; exists (inject_Z (const b)); split; [apply (in_map (fun b => inject_Z (const b))), H|reflexivity]).
  destruct I as (y & Hy & E). assert (F := set_from _ _ Hy). apply in_map_iff in F as (b' & <- & Hb'). rewrite inject_Z_injective in E. rewrite E. exact Hy.
Qed.

(** * The map *)
Section Sky.
Variable cat : list boundary.
Hypothesis Hs : southward cat.
Hypothesis Hsp : spans cat.
Let ras := flat_map (fun b => [ra_low b; ra_up b]) cat.
Let names := sorted_set (map (fun b => inject_Z (const b)) cat).
Lemma ras_in x : In x ras <-> exists b, In b cat /\ (x = ra_low b \/ x = ra_up b).
Proof. unfold ras. rewrite in_flat_map. split; intros (b & Hb & H); exists b; (split; [exact Hb|]); cbn in *; intuition congruence. Qed.
Lemma ra_parts : exists r0 sra, sorted_set ras = r0 :: sra /\ r0 == 0 /\ last (sorted_set ras) 0 == 24.
Proof.
  destruct Hsp as (R & (b0 & I0 & E0) & (b1 & I1 & E1) & _).
  assert (B : forall y, In y (sorted_set ras) -> 0 <= y /\ y <= 24).
  { intros y Hy. apply set_from, ras_in in Hy as (b & Hb & E). specialize (R b Hb). destruct E as [-> | ->]; lra. }
  destruct (first_is (sorted_set ras) 0 (set_strict _)) as (a & r & E & Ea).
  { apply set_in. exists (ra_low b0). split; [apply ras_in; exists b0; tauto|lra]. }
  { intros y Hy. apply (B y Hy). }
  exists a, r. split; [exact E|]. split; [exact Ea|]. apply last_is; [apply set_strict| |intros y Hy; apply (B y Hy)].
  apply set_in. exists (ra_up b1). split; [apply ras_in; exists b1; tauto|lra].
Qed.
Lemma dec_parts : exists d0 sdec, sorted_set (map de_low cat) = d0 :: sdec /\ d0 == -90 /\ last (sorted_set (map de_low cat)) 0 == 88.
Proof.
  destruct Hsp as (R & _ & _ & (b0 & I0 & E0) & (b1 & I1 & E1)).
  assert (B : forall y, In y (sorted_set (map de_low cat)) -> -90 <= y /\ y <= 88).
  { intros y Hy. apply set_from, in_map_iff in Hy as (b & <- & Hb). specialize (R b Hb). lra. }
  destruct (first_is (sorted_set (map de_low cat)) (-90) (set_strict _)) as (a & r & E & Ea).
  { apply set_in. exists (de_low b0). split; [apply in_map, I0|lra]. }
  { intros y Hy. apply (B y Hy). }
  exists a, r. split; [exact E|]. split; [exact Ea|]. apply last_is; [apply set_strict| |intros y Hy; apply (B y Hy)].
  apply set_in. exists (de_low b1). split; [apply in_map, I1|lra].
Qed.
Lemma built_map : exists r0 sra d0 sdec, sorted_set ras = r0 :: sra /\ r0 == 0 /\ last (sorted_set ras) 0 == 24 /\
  sorted_set (map de_low cat) = d0 :: sdec /\ d0 == -90 /\
  build cat = Some {| f_ra := removelast sra; f_dec := sdec; f_grid := rows sra names (rev cat) (repeat (-128)%Z (length sra)) (-90); f_names := names |}.
Proof.
  destruct ra_parts as (r0 & sra & E & E0 & E1). destruct dec_parts as (d0 & sdec & F & F0 & F1).
  exists r0, sra, d0, sdec. repeat (split; [assumption|]). unfold build. fold ras. fold names. cbv zeta. rewrite E, F in *.
  apply Qeq_bool_iff in E0, E1, F0, F1. rewrite E0, E1, F0, F1. reflexivity.
Qed.
Lemma looked_up m ra ra' dec : build cat = Some m -> 0 <= ra' -> ra' <= ra -> ra < 24 -> -90 <= dec ->
  ~ on_line cat ra' -> (ra' < ra -> clear cat ra' ra) -> constellation_at m ra dec =
  match find (here ra' dec) cat with Some b => Some (inject_Z (const b)) | None => item names (-128) end.
Proof.
  intros Hb H0 H1 H2 Hd Hl Hc. destruct built_map as (r0 & sra & d0 & sdec & E & E0 & E1 & F & F0 & B).
  rewrite B in Hb. injection Hb as <-. unfold constellation_at. cbn [f_ra f_dec f_grid f_names].
  pose proof (set_strict ras) as S. rewrite E in S. destruct Hsp as (R & _).
  assert (Hpos : forall x, In x sra -> 0 < x) by (intros x Hx; pose proof (strict_lt _ _ S x Hx); lra).
  assert (Hline : forall x, In x sra -> exists b, In b cat /\ (x = ra_low b \/ x = ra_up b)).
  { intros x Hx. apply ras_in, set_from. rewrite E. right. exact Hx. }
  assert (Hmem : forall b x, In b cat -> x = ra_low b \/ x = ra_up b -> 0 < x -> InQ x sra).
  { intros b x Hb' Ex Hx. assert (I : InQ x (r0 :: sra)) by (rewrite <- E; apply set_in; exists x; split; [apply ras_in; exists b; tauto|reflexivity]).
    destruct I as (y & [<-|Hy] & Ey); [lra|exists y; tauto]. }
  assert (Hne : sra <> []) by (intros ->; rewrite E in E1; cbn in E1; lra).
  assert (Hlast : last sra 0 == 24) by (rewrite E in E1; destruct sra; [congruence|exact E1]).
  (* the column *)
  assert (Ei : search_left (removelast sra) ra = search_right sra ra').
  { assert (X : search_left sra ra = search_right sra ra').
    { apply count_eq. intros x Hx. destruct (Qltb x ra) eqn:L; symmetry.
      - apply Qltb_lt' in L. apply Qle_bool_iff. destruct (Qlt_le_dec ra' x) as [G|G]; [|exact G]. exfalso.
        destruct (Hline x Hx) as (b & Hb' & Ex). apply (Hc ltac:(lra) b x Hb' Ex G L).
      - apply Qltb_ge' in L. apply Qle_false. destruct (Qlt_le_dec ra' x) as [G|G]; [exact G|]. exfalso. apply Hl.
        destruct (Hline x Hx) as (b & Hb' & Ex). exists b. split; [exact Hb'|]. pose proof (Hpos x Hx). destruct Ex as [-> | ->]; [left|right]; lra. }
    rewrite <- X. rewrite (app_removelast_last 0 Hne) at 2. unfold search_left. rewrite filter_app, app_length. cbn [filter].
    rewrite (proj2 (Qltb_ge' (last sra 0) ra)) by lra. cbn [length]. lia. }
  rewrite Ei. assert (Hi : (search_right sra ra' < length sra)%nat).
  { rewrite <- Ei. unfold search_left. pose proof (filter_short (fun a => Qltb a ra) (removelast sra)) as G.
    assert (Len : length sra = Datatypes.S (length (removelast sra))) by (rewrite (app_removelast_last 0 Hne) at 1; rewrite app_length; cbn; lia). lia. }
  (* the row *)
  assert (N : northward (rev cat) (-90)) by (apply southward_rev; [exact Hs|intros b Hb'; apply (R b Hb')]).
  assert (Ej : search_right sdec dec = search_right (levels (rev cat) (-90)) dec).
  { assert (U : Forall2 Qeq (d0 :: sdec) (-90 :: levels (rev cat) (-90))).
    { apply strict_unique; [rewrite <- F; apply set_strict|apply levels_strict, N|]. intros x. rewrite levels_in by exact N. rewrite <- F, set_in.
      assert (M : InQ x (map de_low (rev cat)) <-> InQ x (map de_low cat)).
      { unfold InQ. rewrite map_rev. split; intros (y & Hy & Ey); exists y; (split; [|exact Ey]); [apply in_rev|apply in_rev; rewrite rev_involutive]; exact Hy. }
      rewrite M. split; [tauto|]. intros [G|G]; [|exact G]. apply set_in. rewrite F. exists d0. split; [left; reflexivity|]. lra. }
    apply search_right_eq. inversion U; assumption. }
  rewrite Ej, rows_at by (exact N || exact Hd). rewrite nth_fill, rev_filter, find_filter.
  assert (Nr : nth_error (repeat (-128)%Z (length sra)) (search_right sra ra') = Some (-128)%Z).
  { assert (L : (search_right sra ra' < length (repeat (-128)%Z (length sra)))%nat) by (rewrite repeat_length; exact Hi).
    rewrite (nth_error_nth' _ (-128)%Z L), nth_repeat. reflexivity. }
  rewrite Nr.
  assert (Q : find (fun x => Qle_bool (de_low x) dec && covers sra (search_right sra ra') x) cat = find (here ra' dec) cat).
  { apply find_eq. intros x Hx. unfold here. f_equal. unfold covers. destruct (R x Hx) as (A1 & A2 & A3 & _). f_equal.
    - destruct (Qle_bool (ra_low x) ra') eqn:L.
      + apply Qle_bool_iff in L. apply Nat.leb_le, right_mono, L.
      + apply Qle_false in L. apply Nat.leb_gt, right_strict; [apply (Hmem x); [exact Hx|tauto|lra]|exact L].
    - destruct (Qltb ra' (ra_up x)) eqn:L.
      + apply Qltb_lt' in L. apply Nat.ltb_lt, right_strict; [apply (Hmem x); [exact Hx|tauto|lra]|exact L].
      + apply Qltb_ge' in L. apply Nat.ltb_ge, right_mono, L. }
  rewrite Q. destruct (find (here ra' dec) cat) as [b|] eqn:Fb; [|reflexivity]. apply name_code. apply find_some in Fb. apply Fb.
Qed.
End Sky.

Lemma find_rule l ra dec b : find (here ra dec) l = Some b -> in_constellation l ra dec (const b).
Proof.
  induction l as [|a l IH]; cbn [find]; [discriminate|]. unfold here at 1.
  destruct (Qle_bool (de_low a) dec) eqn:E1; cbn [andb]; [|intros H; apply further; [left; apply Qle_false, E1|apply IH, H]].
  destruct (Qle_bool (ra_low a) ra) eqn:E2; cbn [andb]; [|intros H; apply further; [right; left; apply Qle_false, E2|apply IH, H]].
  destruct (Qltb ra (ra_up a)) eqn:E3; [|intros H; apply further; [right; right; apply Qltb_ge', E3|apply IH, H]].
  intros [= ->]. apply found; [apply Qle_bool_iff, E1|apply Qle_bool_iff, E2|apply Qltb_lt', E3].
Qed.

Lemma strict_codes l N : strict l -> (forall x, In x l -> exists k, x = inject_Z k /\ (0 <= k < N)%Z) -> (Z.of_nat (length l) <= Z.max 0 N)%Z.
Proof.
  assert (G : forall l m, strict l -> (forall x, In x l -> exists k, x = inject_Z k /\ (m <= k < N)%Z) -> (Z.of_nat (length l) <= Z.max 0 (N - m))%Z).
  { clear l. induction l as [|a r IH]; intros m S H; [cbn; lia|]. destruct (H a (or_introl eq_refl)) as (k & -> & Hk).
    specialize (IH (k + 1)%Z (strict_tail _ _ S)). cbn [length].
    assert (X : forall x, In x r -> exists j, x = inject_Z j /\ (k + 1 <= j < N)%Z).
    { intros x Hx. destruct (H x (or_intror Hx)) as (j & -> & Hj). exists j. split; [reflexivity|].
      pose proof (strict_lt _ _ S _ Hx) as L. rewrite <- Zlt_Qlt in L. lia. }
    specialize (IH X). lia. }
  intros S H. specialize (G l 0%Z S H). rewrite Z.sub_0_r in G. exact G.
Qed.
Lemma off_lines cat m ra dec c : southward cat -> spans cat -> (forall b, In b cat -> (0 <= const b < 127)%Z) -> build cat = Some m ->
  0 <= ra -> ra < 24 -> -90 <= dec -> ~ on_line cat ra ->
  (constellation_at m ra dec = Some (inject_Z c) <-> in_constellation cat ra dec c).
Proof.
  intros Hs Hsp Hn Hb H0 H1 Hd Hl. rewrite (looked_up cat Hs Hsp m ra ra dec Hb) by (assumption || lra || (intros; lra)).
  split.
  - destruct (find (here ra dec) cat) as [b|] eqn:F.
    + intros E. injection E as E. rewrite <- E. apply find_rule, F.
    + unfold item. cbn [Z.ltb Z.compare].
      assert (L : (Z.of_nat (length (sorted_set (map (fun b => inject_Z (const b)) cat))) <= 127)%Z).
      { apply (strict_codes _ 127); [apply set_strict|]. intros x Hx. apply set_from, in_map_iff in Hx as (b & <- & Hx). exists (const b). split; [reflexivity|apply Hn, Hx]. }
      replace (_ <? 0)%Z with true by lia. discriminate.
  - intros H. destruct (rule_find _ _ _ _ H) as (b & _ & F & <-). rewrite F. reflexivity.
Qed.
Lemma west_of_lines cat m ra ra' dec c : southward cat -> spans cat -> build cat = Some m ->
  0 <= ra' -> ra' < ra -> ra < 24 -> -90 <= dec -> ~ on_line cat ra' -> clear cat ra' ra -> in_constellation cat ra' dec c ->
  constellation_at m ra dec = Some (inject_Z c).
Proof.
  intros Hs Hsp Hb H0 H1 H2 Hd Hl Hc H. rewrite (looked_up cat Hs Hsp m ra ra' dec Hb) by (assumption || lra || (intros; assumption)).
  destruct (rule_find _ _ _ _ H) as (b & _ & F & <-). rewrite F. reflexivity.
Qed.
Lemma spans_builds cat : spans cat -> exists m, build cat = Some m.
Proof. intros H. destruct (built_map cat H) as (r0 & sra & d0 & sdec & _ & _ & _ & _ & _ & B). eexists. exact B. Qed.

Definition bd a b d c := {| ra_low := a; ra_up := b; de_low := d; const := c |}.
Definition cat3 : list boundary := [bd 0 24 88 83; bd 0 12 (-90) 2; bd 12 24 (-90) 3].
Lemma cat3_ok : southward cat3 /\ spans cat3 /\ (forall b, In b cat3 -> (0 <= const b < 127)%Z).
Proof.
  split; [cbn; repeat split; discriminate|]. split.
  - split; [intros b [<-|[<-|[<-|[]]]]; cbn; repeat split; discriminate || reflexivity|].
    split; [exists (bd 0 24 88 83); cbn; split; [tauto|reflexivity]|]. split; [exists (bd 0 24 88 83); cbn; split; [tauto|reflexivity]|].
    split; [exists (bd 0 12 (-90) 2); cbn; split; [tauto|reflexivity]|exists (bd 0 24 88 83); cbn; split; [tauto|reflexivity]].
  - intros b [<-|[<-|[<-|[]]]]; cbn; lia.
Qed.
Lemma line_west : exists cat m ra dec c, southward cat /\ spans cat /\ build cat = Some m /\ 0 <= ra /\ ra < 24 /\ -90 <= dec /\
  in_constellation cat ra dec c /\ constellation_at m ra dec <> Some (inject_Z c).
Proof.
  exists cat3. eexists. exists 12, 0, 3%Z. split; [apply cat3_ok|]. split; [apply cat3_ok|]. split; [reflexivity|].
  repeat (split; [discriminate || reflexivity|]). split.
  - apply further; [left; reflexivity|]. apply further; [right; right; discriminate|]. apply (found (bd 12 24 (-90) 3)); try discriminate. reflexivity.
  - vm_compute. discriminate.
Qed.

(** * Names *)
Lemma splitlines_line l : forall acc r, ~ In newline l -> splitlines (l ++ newline :: r) acc = rev (rev l ++ acc) :: splitlines r [].
Proof.
  induction l as [|c l IH]; intros acc r H; cbn [app splitlines].
  - rewrite Ascii.eqb_refl. reflexivity.
  - destruct (Ascii.eqb_spec c newline) as [->|N]; [exfalso; apply H; left; reflexivity|].
    rewrite IH by (intros Hn; apply H; right; exact Hn). cbn [rev]. rewrite <- app_assoc. reflexivity.
Qed.
Lemma split_first a b : ~ In " "%char a -> split_blank (a ++ " "%char :: b) = [a; b].
Proof.
  induction a as [|c a IH]; intros H; cbn [app split_blank]; [reflexivity|].
  destruct (Ascii.eqb_spec c " "%char) as [->|N]; [exfalso; apply H; left; reflexivity|]. rewrite IH by (intros Hn; apply H; right; exact Hn). reflexivity.
Qed.
Lemma names_read pairs : (forall a n, In (a, n) pairs -> ~ In " "%char a /\ ~ In newline a /\ ~ In newline n) ->
  constellation_names (concat (map (fun p => fst p ++ " "%char :: snd p ++ [newline]) pairs)) = map (fun p => [fst p; snd p]) pairs.
Proof.
  unfold constellation_names. induction pairs as [|[a n] r IH]; intros H; [reflexivity|]. cbn [map concat fst snd].
  destruct (H a n (or_introl eq_refl)) as (H1 & H2 & H3).
  replace ((a ++ " "%char :: n ++ [newline]) ++ concat (map (fun p => fst p ++ " "%char :: snd p ++ [newline]) r))
    with ((a ++ " "%char :: n) ++ newline :: concat (map (fun p => fst p ++ " "%char :: snd p ++ [newline]) r)).
  - rewrite splitlines_line.
    + cbn [map]. rewrite app_nil_r, rev_involutive, split_first by exact H1. rewrite IH by (intros; apply H; right; assumption). reflexivity.
    + intros I. apply in_app_or in I as [I|[I|I]]; [tauto|discriminate|tauto].
  - rewrite <- !app_assoc. cbn [app]. rewrite <- app_assoc. reflexivity.
Qed.
