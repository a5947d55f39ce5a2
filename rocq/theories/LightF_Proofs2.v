(** The correction for light travel time in floats, for whole arrays. *)
From Coq Require Import ZArith Reals Lia Lra Psatz List Bool.
From Coq.Floats Require Import SpecFloat.
From Flocq Require Import Core BinarySingleNaN.
From Verif Require Import Float64 Float64_Proofs Float_Time_Proofs Float_Time_Proofs4 SexaF_Proofs2 Vector_Model Vector_Spec SepF_Model SepF_Spec LightF_Model LightF_Spec LightF_Proofs.
Import ListNotations.
Open Scope R_scope.

(** A lane, on its way, of a path. *)
Definition rides (B : R) (l : lane64) (p : (R -> vec) * vec * R) : Prop :=
  let '(X, o, t) := p in exists tb : bf, watched (sight l) p /\ B2R tb = t /\ fraction64 (sight l) = B2SF tb /\ is_finite tb = true /\ good_lane (sight l) X o tb B l.
Lemma rides_first x p : watched x p -> rides 102 (lane_first x) p.
Proof.
  destruct p as [[X o] t]. intros W. pose proof W as (Sl & C & O & (b & E & F & V & Bt) & T). cbn [rides lane_first sight]. exists b. split; [exact W|]. split; [exact V|]. split; [exact E|]. split; [exact F|]. subst t. apply first_good; assumption.
Qed.
Lemma rides_step B l p : rides B l p -> rides (/ 100 * B + 302 / 10 ^ 15) (lane_step l) p.
Proof.
  destruct p as [[X o] t]. intros (b & W & V & E & F & G). pose proof W as (Sl & C & O & (b' & E' & F' & V' & Bt) & T). cbn [rides lane_step sight]. exists b. split; [exact W|]. split; [exact V|]. split; [exact E|]. split; [exact F|]. subst t. apply step_good; assumption.
Qed.
Lemma rides_small B l p : B <= 9 / 10 ^ 13 -> rides B l p -> lane_small64 l = true.
Proof. destruct p as [[X o] t]. intros HB (b & _ & _ & _ & _ & G). exact (small_good _ _ _ _ _ _ HB G). Qed.
Lemma rides_final B l p : B <= 1000 -> rides B l p -> lane_small64 l = true -> seen_right p (lane_vector l, lane_time l).
Proof.
  destruct p as [[X o] t]. intros HB (b & W & V & E & F & G) S. pose proof W as (Sl & C & O & (b' & E' & F' & V' & Bt) & T). subst t. apply (final_good (sight l) X o b Sl C O T B l HB G S).
Qed.
Lemma all_small B ls ps : B <= 9 / 10 ^ 13 -> Forall2 (rides B) ls ps -> forallb lane_small64 ls = true.
Proof. intros HB H. induction H; [reflexivity|]. cbn [forallb]. rewrite (rides_small B _ _ HB H), IHForall2. reflexivity. Qed.
Lemma all_final B ls ps : B <= 1000 -> Forall2 (rides B) ls ps -> forallb lane_small64 ls = true -> Forall2 seen_right ps (map (fun l => (lane_vector l, lane_time l)) ls).
Proof.
  intros HB H. induction H; intros S; [constructor|]. cbn [forallb] in S. apply andb_prop in S as [S1 S2]. cbn [map]. constructor; [exact (rides_final B _ _ HB H S1)|exact (IHForall2 S2)].
Qed.
Lemma all_step B ls ps : Forall2 (rides B) ls ps -> Forall2 (rides (/ 100 * B + 302 / 10 ^ 15)) (map lane_step ls) ps.
Proof. intros H. induction H; cbn [map]; constructor; [apply rides_step; assumption|assumption]. Qed.
Lemma loop_converges n : forall B ls ps, B <= 1000 -> B <= 5 / 10 ^ 13 * 100 ^ n + 31 / 10 ^ 14 -> Forall2 (rides B) ls ps ->
  exists r, light_loop64 (S n) ls = Some r /\ Forall2 seen_right ps (map (fun l => (lane_vector l, lane_time l)) r).
Proof.
  induction n as [|n IH]; intros B ls ps HB HN H.
  - cbn [light_loop64]. assert (S : forallb lane_small64 ls = true) by (apply (all_small B ls ps); [cbn [pow] in HN; lra|exact H]). rewrite S. exists ls. split; [reflexivity|]. exact (all_final B ls ps HB H S).
  - change (light_loop64 (S (S n)) ls) with (if forallb lane_small64 ls then Some ls else light_loop64 (S n) (map lane_step ls)). destruct (forallb lane_small64 ls) eqn:S; [exists ls; split; [reflexivity|exact (all_final B ls ps HB H S)]|].
    apply (IH (/ 100 * B + 302 / 10 ^ 15) _ ps); [lra| |exact (all_step B ls ps H)]. cbn [pow] in HN. set (h := 100 ^ n) in *. lra.
Qed.
Lemma converges obs paths : Forall2 watched obs paths -> exists r, light_times64 obs = Some r /\ Forall2 seen_right paths r.
Proof.
  intros H. assert (H1 : Forall2 (rides 102) (map lane_first obs) paths) by (induction H; cbn [map]; constructor; [apply rides_first; assumption|assumption]).
  destruct (loop_converges 9 102 _ _ ltac:(lra) ltac:(lra) H1) as (r & E & F). unfold light_times64. rewrite E. exists (map (fun l => (lane_vector l, lane_time l)) r). split; [reflexivity|exact F].
Qed.

(** ** Lanes of which nothing is known *)
Lemma undefined_small x s q : undefined x -> lane_small64 (Lane x s q) = false.
Proof.
  intros U. unfold lane_small64, lane_time, lane_vector. cbn [sight placed64 before64].
  assert (N : length64 (fminus (target64 x s) (observer64 x)) = S754_nan).
  { unfold length64, fminus. cbn [fx fy fz]. rewrite (U s). reflexivity. }
  rewrite N. reflexivity.
Qed.
Lemma loop_undefined x n : forall ls, undefined x -> Exists (fun l => sight l = x) ls -> light_loop64 n ls = None.
Proof.
  induction n as [|n IH]; intros ls U H; [reflexivity|]. cbn [light_loop64]. assert (S : forallb lane_small64 ls = false). { clear IH. induction H as [l ls E|l ls H IH]; cbn [forallb]; [|rewrite IH; apply andb_false_r]. destruct l as [sg s q]. cbn [sight] in E. subst sg. rewrite undefined_small by exact U. reflexivity. }
  rewrite S. apply IH; [exact U|]. clear IH S. induction H as [l ls E|l ls H IH]; cbn [map]; [left; exact E|right; exact IH].
Qed.
Lemma undefined_fails x obs : In x obs -> undefined x -> light_times64 obs = None.
Proof.
  intros H U. unfold light_times64. rewrite (loop_undefined x 10); [reflexivity|exact U|]. induction obs as [|y obs IH]; [destruct H|]. destruct H as [->|H]; cbn [map]; [left; reflexivity|right; exact (IH H)].
Qed.

(** ** One element among others *)
Lemma loop_member n : forall ls r i l B p, B <= 1000 -> light_loop64 n ls = Some r -> nth_error ls i = Some l -> rides B l p ->
  exists l', nth_error r i = Some l' /\ seen_right p (lane_vector l', lane_time l').
Proof.
  induction n as [|n IH]; intros ls r i l B p HB E N H; [discriminate|]. cbn [light_loop64] in E. destruct (forallb lane_small64 ls) eqn:S.
  - injection E as <-. exists l. split; [exact N|]. apply (rides_final B); [exact HB|exact H|]. rewrite forallb_forall in S. apply S. exact (nth_error_In _ _ N).
  - apply (IH (map lane_step ls) r i (lane_step l) (/ 100 * B + 302 / 10 ^ 15) p); [lra|exact E| |apply rides_step; exact H]. rewrite nth_error_map, N. reflexivity.
Qed.
Lemma member_right obs r i x p : light_times64 obs = Some r -> nth_error obs i = Some x -> watched x p -> exists a, nth_error r i = Some a /\ seen_right p a.
Proof.
  unfold light_times64. intros E N W. destruct (light_loop64 10 (map lane_first obs)) as [ls|] eqn:L; [|discriminate]. injection E as <-.
  destruct (loop_member 10 _ _ i (lane_first x) 102 p ltac:(lra) L) as (l & Nl & Sl); [rewrite nth_error_map, N; reflexivity|apply rides_first; exact W|]. exists (lane_vector l, lane_time l). split; [rewrite nth_error_map, Nl; reflexivity|exact Sl].
Qed.

(** ** A sight to show the hypotheses are met *)
(** A body moving along the first axis by one unit a day, seen from a place off the axis, and one without a position. *)
Definition mover : sight64 := Sight (fun s => F3 s (of_Z 0) (of_Z 0)) (F3 (of_Z 0) (of_Z 1) (of_Z 0)) (of_Z 1).
Definition mover_path : (R -> vec) * vec * R := (fun s => V3 s 0 0, V3 0 1 0, 1).
Definition lost : sight64 := Sight (fun _ => F3 S754_nan S754_nan S754_nan) (F3 (of_Z 0) (of_Z 1) (of_Z 0)) (of_Z 1).
Lemma mover_watched : watched mover mover_path.
Proof.
  pose proof speed_range as C. destruct (of_Z_bf 0) as (z & Ez & Fz & Vz); [unfold fits; lia|]. destruct (of_Z_bf 1) as (u & Eu & Fu & Vu); [unfold fits; lia|].
  split; [|split; [|split; [|split]]].
  - intros a b. cbn [fst]. unfold vlength, vsub. cbn [vx vy vz]. replace ((a - b) * (a - b) + (0 - 0) * (0 - 0) + (0 - 0) * (0 - 0)) with (Rsqr (a - b)) by (unfold Rsqr; ring). rewrite sqrt_Rsqr_abs. pose proof (Rabs_pos (a - b)). nra.
  - unfold vlength, vsub. cbn [vx vy vz]. apply Rle_trans with (sqrt (2 * 2)); [apply sqrt_le_1_alt; lra|]. rewrite sqrt_square by lra. lra.
  - cbn [observer64 mover]. exists z, u, z. rewrite Ez, Eu, Vz, Vu. repeat split; assumption.
  - exists u. cbn [fraction64 mover]. split; [exact Eu|]. split; [exact Fu|]. split; [exact Vu|]. rewrite Rabs_R1. lra.
  - intros s Fs _. exists (V3 (B2R s) 0 0). split.
    + exists s, z, z. cbn [target64 mover]. rewrite Ez, Vz. repeat split; assumption.
    + unfold vlength, vsub. cbn [vx vy vz]. replace ((B2R s - B2R s) * (B2R s - B2R s) + (0 - 0) * (0 - 0) + (0 - 0) * (0 - 0)) with 0 by ring. rewrite sqrt_0. lra.
Qed.
Lemma lost_undefined : undefined lost. Proof. intros s. reflexivity. Qed.
Lemma spoiled : ~ (forall obs x p, In x obs -> watched x p -> (forall y, In y obs -> undefined y \/ exists q, watched y q) -> light_times64 obs <> None).
Proof.
  intros H. apply (H [mover; lost] mover mover_path); [left; reflexivity|exact mover_watched| |].
  - intros y [<-|[<-|[]]]; [right; exists mover_path; exact mover_watched|left; exact lost_undefined].
  - apply (undefined_fails lost); [right; left; reflexivity|exact lost_undefined].
Qed.
