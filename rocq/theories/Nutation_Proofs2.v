(** Nutation for arrays of dates is nutation date by date. *)
From Coq Require Import Reals ZArith List Lra Lia.
From Verif Require Import Real_Math Real_Math_Proofs Vector_Model Geo_Model Spin_Model Spin_Spec Spin_Proofs Nutation_Model Nutation_Spec
  Nutation_Proofs.
Import ListNotations.
Open Scope R_scope.

(** The matrix whose rows are functions of the dates. *)
Definition grid (ts : list R) (G : list (R -> R)) : list (list R) := map (fun g => map g ts) G.
Lemma combine_map2 A B C (f : A -> B) (g : A -> C) l : combine (map f l) (map g l) = map (fun x => (f x, g x)) l.
Proof. induction l as [|x l IH]; [reflexivity|]. cbn. now rewrite IH. Qed.
Lemma combine_map_id A B (f : A -> B) l : combine (map f l) l = map (fun x => (f x, x)) l.
Proof. induction l as [|x l IH]; [reflexivity|]. cbn. now rewrite IH. Qed.
Lemma add_rows_map (ts : list R) (f g : R -> R) : add_rows (map f ts) (map g ts) = map (fun t => f t + g t) ts.
Proof. unfold add_rows. rewrite combine_map2, map_map. reflexivity. Qed.
Lemma mul_row_map (ts : list R) (f : R -> R) : mul_row ts (map f ts) = map (fun t => f t * t) ts.
Proof. unfold mul_row. rewrite combine_map_id, map_map. reflexivity. Qed.
Lemma repeat_map A B (x : B) (l : list A) : repeat x (length l) = map (fun _ => x) l.
Proof. induction l as [|y l IH]; [reflexivity|]. cbn. now rewrite IH. Qed.

Definition at_date (G : list (R -> R)) (t : R) : list R := map (fun g => g t) G.
Lemma outer_grid c ts : exists G, outer c ts = grid ts G /\ forall t, at_date G t = map (fun x => x * t) c.
Proof.
  exists (map (fun k t => k * t) c). unfold outer, grid, at_date. split; [|intros t]; rewrite map_map; reflexivity.
Qed.
Lemma add_col_grid ts G c : exists G', add_col_m (grid ts G) c = grid ts G' /\ forall t, at_date G' t = add_cols (at_date G t) c.
Proof.
  revert c. induction G as [|g G IH]; intros [|k c]; try (exists []; split; [reflexivity|intros; reflexivity]).
  destruct (IH c) as (G' & E & H). exists ((fun t => g t + k) :: G'). split.
  - cbn. rewrite map_map. f_equal. exact E.
  - intros t. specialize (H t). unfold at_date, add_cols in *. cbn. f_equal. exact H.
Qed.
Lemma mul_grid ts G : exists G', map (mul_row ts) (grid ts G) = grid ts G' /\ forall t, at_date G' t = map (fun x => x * t) (at_date G t).
Proof.
  exists (map (fun g t => g t * t) G). split; [|intros t; unfold at_date; rewrite !map_map; reflexivity].
  unfold grid. rewrite !map_map. apply map_ext. intros g. apply mul_row_map.
Qed.
Lemma loop_grid ts fa : forall G, exists G', fa_loop_m (grid ts G) ts fa = grid ts G' /\ forall t, at_date G' t = fa_loop (at_date G t) t fa.
Proof.
  induction fa as [|c fa IH]; intros G; [exists G; split; reflexivity|]. cbn [fa_loop_m fa_loop].
  destruct (add_col_grid ts G c) as (G1 & E1 & H1). destruct (mul_grid ts G1) as (G2 & E2 & H2). destruct (IH G2) as (G3 & E3 & H3).
  exists G3. rewrite E1, E2, E3. split; [reflexivity|]. intros t. rewrite H3, H2, H1. reflexivity.
Qed.
Lemma map_grid ts G f : exists G', map (map f) (grid ts G) = grid ts G' /\ forall t, at_date G' t = map f (at_date G t).
Proof.
  exists (map (fun g t => f (g t)) G). split; [|intros t; unfold at_date; rewrite !map_map; reflexivity].
  unfold grid. rewrite !map_map. apply map_ext. intros g. now rewrite map_map.
Qed.
Lemma arguments_grid ts terms :
  match fundamental_arguments_m ts terms with
  | None => forall t, fundamental_arguments t terms = None
  | Some a => exists G, a = grid ts G /\ forall t, fundamental_arguments t terms = Some (at_date G t)
  end.
Proof.
  unfold fundamental_arguments_m, fundamental_arguments. destruct (slice_from _ _) as [|first fa]; [reflexivity|].
  destruct (outer_grid first ts) as (G & -> & H). destruct (loop_grid ts fa G) as (G1 & -> & H1).
  destruct (add_col_grid ts G1 fa0) as (G2 & -> & H2). destruct (map_grid ts G2 (fun x => fmod x ASEC360 * arcsecond)) as (G3 & -> & H3).
  exists G3. split; [reflexivity|]. intros t. rewrite H3, H2, H1, H. reflexivity.
Qed.
Lemma row_dot_grid ts n G : row_dot_m (length ts) n (grid ts G) = map (fun t => row_dot n (at_date G t)) ts.
Proof.
  revert G. induction n as [|k n IH]; intros [|g G]; try (cbn; apply repeat_map).
  cbn [grid map row_dot_m at_date row_dot]. fold (grid ts G). rewrite IH, map_map, add_rows_map. reflexivity.
Qed.
Lemma transpose_grid ts G : transpose (length ts) (grid ts G) = map (fun t => at_date G t) ts.
Proof.
  induction G as [|g G IH]; [apply repeat_map|]. cbn [grid map transpose at_date]. fold (grid ts G). rewrite IH, combine_map2, map_map. reflexivity.
Qed.
Lemma angles_grid ts rows G : transpose (length ts) (map (fun n => row_dot_m (length ts) n (grid ts G)) rows)
  = map (fun t => map (fun n => row_dot n (at_date G t)) rows) ts.
Proof.
  assert (E : map (fun n => row_dot_m (length ts) n (grid ts G)) rows = grid ts (map (fun n t => row_dot n (at_date G t)) rows)).
  { unfold grid at 2. rewrite map_map. apply map_ext. intros n. apply row_dot_grid. }
  rewrite E, transpose_grid. apply map_ext. intros t. unfold at_date at 1. now rewrite map_map.
Qed.
(** The transposed sum of the planetary arguments. *)
Lemma transpose_columns ts G : transpose (length G) (map (fun t => at_date G t) ts) = grid ts G.
Proof.
  induction ts as [|t ts IH].
  - cbn. unfold grid. cbn. apply repeat_map.
  - cbn [map transpose]. rewrite IH. unfold at_date, grid. rewrite combine_map2, map_map. reflexivity.
Qed.
Lemma times_last_grid ts G : exists G', times_last (mul_row ts) (grid ts G) = grid ts G' /\ forall t, at_date G' t = times_last (fun x => x * t) (at_date G t).
Proof.
  induction G as [|g G IH]; [exists []; split; reflexivity|]. destruct G as [|h G].
  - exists [fun t => g t * t]. split; [|reflexivity]. change ([mul_row ts (map g ts)] = [map (fun t => g t * t) ts]). now rewrite mul_row_map.
  - destruct IH as (G' & E & H). exists (g :: G'). split.
    + change (times_last (mul_row ts) (grid ts (g :: h :: G))) with (map g ts :: times_last (mul_row ts) (grid ts (h :: G))). rewrite E. reflexivity.
    + intros t. specialize (H t). change (at_date (g :: G') t) with (g t :: at_date G' t). rewrite H. reflexivity.
Qed.
Lemma planetary_grid ts : exists G, planetary_arguments_m ts = grid ts G /\ forall t, at_date G t = planetary_arguments t.
Proof.
  unfold planetary_arguments_m. destruct (times_last_grid ts (map (fun p t => t * snd p + fst p) anomaly)) as (G & E & H).
  exists G. split.
  - rewrite <- E. f_equal. rewrite <- transpose_columns, map_length. f_equal.
    assert (O : outer (map snd anomaly) ts = grid ts (map (fun (p : R * R) t => snd p * t) anomaly)).
    { unfold outer, grid. rewrite !map_map. reflexivity. }
    rewrite O. rewrite transpose_grid, map_map. apply map_ext. intros t. unfold at_date, add_cols. rewrite !map_map, combine_map2, map_map.
    apply map_ext. intros p. cbn. ring.
  - intros t. rewrite H. unfold at_date, planetary_arguments. rewrite map_map. reflexivity.
Qed.
Lemma unzip_map A (f g : A -> R) l : unzip_options (map (fun x => Some (f x, g x)) l) = Some (map f l, map g l).
Proof. induction l as [|x l IH]; [reflexivity|]. cbn. unfold unzip_options in IH. now rewrite IH. Qed.
Lemma dot_map ts (f : R -> R) (h : R -> list R) c :
  map (fun row => col_dot row c) (map (map f) (map h ts)) = map (fun t => col_dot (map f (h t)) c) ts.
Proof. now rewrite !map_map. Qed.
Lemma array_ok T jds terms l p : jds <> [] ->
  iau2000a_m T jds terms l p = unzip_options (map (fun jd => iau2000a T jd terms l p) jds).
Proof.
  intros NE. unfold iau2000a_m. set (ts := map (fun jd => (jd - T0) / 36525) jds).
  set (one := fun t => match fundamental_arguments t terms with None => None | Some _ => iau2000a T (t * 36525 + T0) terms l p end).
  assert (E : map (fun jd => iau2000a T jd terms l p) jds = map one ts).
  { unfold ts. rewrite map_map. apply map_ext. intros jd. unfold one.
    replace ((jd - T0) / 36525 * 36525 + T0) with jd by (field; lra). unfold iau2000a. destruct (fundamental_arguments _ _); reflexivity. }
  rewrite E. pose proof (arguments_grid ts terms) as HA. destruct (fundamental_arguments_m ts terms) as [a|].
  2:{ destruct jds as [|j jds]; [contradiction|]. unfold ts. cbn [map unzip_options fold_right]. unfold one at 1. rewrite HA. reflexivity. }
  destruct HA as (G & -> & HA).
  assert (E1 : forall t, one t = (let T' := t in
    let arg := map (fun n => row_dot n (at_date G t)) (slice_to l (nals_t T)) in
    let sarg := map sin arg in let carg := map cos arg in
    let lon := slice_to l (lunisolar_longitude T) in let obl := slice_to l (lunisolar_obliquity T) in
    let dpsi := col_dot sarg (col1 lon) + col_dot sarg (col2 lon) * t + col_dot carg (col3 lon) in
    let deps := col_dot carg (col1 obl) + col_dot carg (col2 obl) * t + col_dot sarg (col3 obl) in
    if (p =? 0)%Z then Some (dpsi, deps)
    else
      let arg := map (fun n => row_dot n (planetary_arguments t)) (slice_to p (napl_t T)) in
      let sarg := map sin arg in let carg := map cos arg in
      let lon := slice_to p (planetary_longitude T) in let obl := slice_to p (planetary_obliquity T) in
      Some (dpsi + col_dot sarg (map fst lon) + col_dot carg (map snd lon), deps + col_dot sarg (map fst obl) + col_dot carg (map snd obl)))).
  { intros t. unfold one. rewrite HA. unfold iau2000a. replace ((t * 36525 + T0 - T0) / 36525) with t by field. rewrite HA. reflexivity. }
  rewrite (map_ext _ _ E1). clear E1. cbv zeta. rewrite !angles_grid, !dot_map, !mul_row_map, !add_rows_map.
  destruct (p =? 0)%Z; [now rewrite unzip_map|].
  destruct (planetary_grid ts) as (P & -> & HP). rewrite !angles_grid, !dot_map, !add_rows_map, unzip_map.
  f_equal. f_equal; apply map_ext; intros t; rewrite HP; reflexivity.
Qed.
