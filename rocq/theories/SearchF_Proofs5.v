(** Searches with other arguments: one change reported as three, and a search that
    never ends. *)
From Coq Require Import ZArith Reals Lia Lra List Bool.
From Coq.Floats Require Import SpecFloat.
From Flocq Require Import Core BinarySingleNaN.
From Verif Require Import Float64 Float64_Proofs Float_Time_Proofs Float_Time_Proofs4 Wrap_Proofs2 Search_Model SearchF_Model SearchF_Spec SearchF_Proofs SearchF_Proofs4.
Import ListNotations.
Open Scope R_scope.

Lemma day_J2000 : day_number J2000 /\ val J2000 = 2451545.
Proof. destruct (day_fl 2451545 0) as [H V]; [split; lia|unfold F2R; cbn; apply Rabs_le; lra|]. split; [exact H|]. unfold J2000, of_Z. rewrite V. unfold F2R; cbn; lra. Qed.
Lemma day_at m v : (Z.abs m <= 2 ^ 53)%Z -> IZR m / 2147483648 = v -> Rabs v <= 2883000 -> exists b : bf, fl m (-31) = B2SF b /\ is_finite b = true /\ B2R b = v /\ day_number (fl m (-31)).
Proof. intros S E H. destruct (fl_bf m (-31)) as (b & Eb & F & V); [split; lia|]. rewrite F2R_neg in V. change (IZR (Z.pow_pos 2 31)) with 2147483648 in V. rewrite E in V. exists b. split; [exact Eb|]. split; [exact F|]. split; [exact V|]. rewrite Eb. exists b. rewrite V. repeat split; assumption. Qed.
Lemma step_whole n : (1 <= n <= 65536)%Z -> usual_step (of_Z n).
Proof. intros H. destruct (of_Z_bf n) as (b & -> & F & V); [unfold fits; lia|]. exists b. rewrite V. split; [reflexivity|]. split; [exact F|]. assert (1 <= IZR n <= 65536) by (split; apply IZR_le; lia). lra. Qed.

(** Fifty samples a round. *)
Definition T_fifty : b64 := fl 5264653074849105 (-31).
Definition end_fifty : b64 := fl 5264660316028928 (-31).
Definition three (k : Z) (l : Z) : list (b64 * Z) := [(fl k (-31), 1%Z); (fl (k - 1) (-31), 0%Z); (fl l (-31), 1%Z)].
Lemma fifty_run : find_discrete64 7 J2000 end_fifty (from T_fifty) (of_Z 4) EPSILON64 50 = Found (three 5264653074849105 5264653074849106).
Proof. vm_compute. reflexivity. Qed.
(** Epsilon 1e-9 days, a tenth of a millisecond. *)
Definition T_nano : b64 := fl 5264654364507419 (-31).
Definition nano : b64 := fl 4835703278458517 (-82).
Definition end_nano : b64 := fl 5264654947319808 (-31).
Lemma nano_run : find_discrete64 10 J2000 end_nano (from T_nano) (of_Z 1) nano 12 = Found (three 5264654364507419 5264654364507419).
Proof. vm_compute. reflexivity. Qed.

Lemma three_spoiled jd0 jd1 c k l : (Z.abs k <= 2 ^ 53 - 2)%Z -> spoiled jd0 jd1 c (three k l).
Proof.
  intros H. split; [reflexivity|]. split; [intros F; inversion F as [|? ? ? ? _ F2]; inversion F2|]. apply out_of_order. cbn [fst].
  destruct (fl_bf k (-31)) as (b & -> & _ & V); [split; lia|]. destruct (fl_bf (k - 1) (-31)) as (b' & -> & _ & V'); [split; lia|]. rewrite !val_b, V, V', !F2R_neg. apply Rmult_le_compat_r; [left; apply Rinv_0_lt_compat; apply IZR_lt; reflexivity|]. apply IZR_le. lia.
Qed.
Lemma fifty_samples : exists num f jd0 jd1 step c evs, (3 <= num)%nat /\ time_function64 f /\ day_number jd0 /\ day_number jd1 /\ usual_step step /\ val jd0 < val jd1 /\
  goes_through f (val step + / 2 ^ 28) jd0 jd1 [(c, 1%Z)] /\ find_discrete64 7 jd0 jd1 f step EPSILON64 num = Found evs /\ spoiled jd0 jd1 c evs.
Proof.
  destruct (day_at 5264653074849105 (5264653074849105 / 2147483648)) as (T & ET & FT & VT & DT); [lia|reflexivity|apply Rabs_le; lra|]. destruct (day_at 5264660316028928 2451548.5) as (E & EE & FE & VE & DE); [lia|lra|apply Rabs_le; lra|]. destruct day_J2000 as [DJ VJ].
  assert (Vend : val end_fifty = 2451548.5) by (unfold end_fifty; rewrite EE, val_b; exact VE).
  exists 50%nat, (from T_fifty), J2000, end_fifty, (of_Z 4), (5264653074849105 / 2147483648), (three 5264653074849105 5264653074849106). split; [lia|]. split; [unfold T_fifty; rewrite ET; apply from_fun; exact FT|]. split; [exact DJ|]. split; [exact DE|]. split; [apply step_whole; lia|]. split; [rewrite VJ, Vend; lra|]. split.
  - unfold T_fifty. rewrite ET, <- VT. apply from_history; try assumption. rewrite VJ, Vend, VT. lra.
  - split; [exact fifty_run|apply three_spoiled; lia].
Qed.
Lemma nano_epsilon : exists epsilon f jd0 jd1 step c evs, fltb (of_Z 0) epsilon = true /\ time_function64 f /\ day_number jd0 /\ day_number jd1 /\ usual_step step /\ val jd0 < val jd1 /\
  goes_through f (val step + / 2 ^ 28) jd0 jd1 [(c, 1%Z)] /\ find_discrete64 10 jd0 jd1 f step epsilon NUM = Found evs /\ spoiled jd0 jd1 c evs.
Proof.
  destruct (day_at 5264654364507419 (5264654364507419 / 2147483648)) as (T & ET & FT & VT & DT); [lia|reflexivity|apply Rabs_le; lra|]. destruct (day_at 5264654947319808 2451546) as (E & EE & FE & VE & DE); [lia|lra|apply Rabs_le; lra|]. destruct day_J2000 as [DJ VJ].
  assert (Vend : val end_nano = 2451546) by (unfold end_nano; rewrite EE, val_b; exact VE).
  exists nano, (from T_nano), J2000, end_nano, (of_Z 1), (5264654364507419 / 2147483648), (three 5264654364507419 5264654364507419). split; [reflexivity|]. split; [unfold T_nano; rewrite ET; apply from_fun; exact FT|]. split; [exact DJ|]. split; [exact DE|]. split; [apply step_whole; lia|]. split; [rewrite VJ, Vend; lra|]. split.
  - unfold T_nano. rewrite ET, <- VT. apply from_history; try assumption. rewrite VJ, Vend, VT. lra.
  - split; [exact nano_run|apply three_spoiled; lia].
Qed.

(** ** A search without an end *)
Section Rounds.
Variables (f : b64 -> Z) (eps : b64) (num : nat).
Fixpoint rounds (k : nat) (jd : list b64) : option (list b64) :=
  match k with
  | O => Some jd
  | S k => match changes64 f jd with
           | [] => None
           | ch => if forallb (fun p => fleb (fsub (snd p) (fst p)) eps) ch then None else rounds k (flat_map (block64 num) ch)
           end
  end.
Lemma rounds_loop jd' : (forall n, find_loop64 n f eps num jd' = None) -> forall k jd, rounds k jd = Some jd' -> forall n, find_loop64 n f eps num jd = None.
Proof.
  intros H. induction k as [|k IH]; intros jd E n; cbn [rounds] in E; [injection E as ->; apply H|]. destruct n as [|n]; [reflexivity|]. cbn [find_loop64]. destruct (changes64 f jd) as [|p ch]; [discriminate|]. destruct (forallb _ _); [discriminate|]. apply IH. exact E.
Qed.
Lemma rounds_cycle jd : rounds 1 jd = Some jd -> forall n, find_loop64 n f eps num jd = None.
Proof.
  intros E. induction n as [|n IH]; [reflexivity|]. cbn [rounds] in E. cbn [find_loop64]. destruct (changes64 f jd) as [|p ch]; [discriminate|]. destruct (forallb _ _); [discriminate|]. injection E as E. change (block64 num p ++ flat_map (block64 num) ch) with (flat_map (block64 num) (p :: ch)) in E. rewrite E. exact IH.
Qed.
End Rounds.
Definition T_pico : b64 := fl 5264653690769651 (-31).
Definition pico : b64 := fl 7737125245533627 (-86).
Definition last_round : list b64 := block64 12 (fl 5264653690769650 (-31), fl 5264653690769651 (-31)).
Lemma pico_rounds : rounds (from T_pico) pico 12 10 (linspace64 J2000 end_nano (Z.to_nat (sample_count64 J2000 end_nano (of_Z 1)))) = Some last_round.
Proof. vm_compute. reflexivity. Qed.
Lemma pico_cycle : rounds (from T_pico) pico 12 1 last_round = Some last_round.
Proof. vm_compute. reflexivity. Qed.
Lemma never_ends : exists epsilon f jd0 jd1 step c, fltb (of_Z 0) epsilon = true /\ time_function64 f /\ day_number jd0 /\ day_number jd1 /\ usual_step step /\ val jd0 < val jd1 /\
  goes_through f (val step + / 2 ^ 28) jd0 jd1 [(c, 1%Z)] /\ forall fuel, find_discrete64 fuel jd0 jd1 f step epsilon NUM = Running.
Proof.
  destruct (day_at 5264653690769651 (5264653690769651 / 2147483648)) as (T & ET & FT & VT & DT); [lia|reflexivity|apply Rabs_le; lra|]. destruct (day_at 5264654947319808 2451546) as (E & EE & FE & VE & DE); [lia|lra|apply Rabs_le; lra|]. destruct day_J2000 as [DJ VJ].
  assert (Vend : val end_nano = 2451546) by (unfold end_nano; rewrite EE, val_b; exact VE).
  exists pico, (from T_pico), J2000, end_nano, (of_Z 1), (5264653690769651 / 2147483648). split; [reflexivity|]. split; [unfold T_pico; rewrite ET; apply from_fun; exact FT|]. split; [exact DJ|]. split; [exact DE|]. split; [apply step_whole; lia|]. split; [rewrite VJ, Vend; lra|]. split.
  - unfold T_pico. rewrite ET, <- VT. apply from_history; try assumption. rewrite VJ, Vend, VT. lra.
  - intros fuel. unfold find_discrete64. change (fleb end_nano J2000) with false. change (sample_count64 J2000 end_nano (of_Z 1) <? 0)%Z with false. unfold NUM. rewrite (rounds_loop _ _ _ last_round (rounds_cycle _ _ _ _ pico_cycle) 10 _ pico_rounds). reflexivity.
Qed.

(** The default search of the same day. *)
Lemma nano_default : find_discrete64 15 J2000 end_nano (from T_nano) (of_Z 1) EPSILON64 NUM = Found [(fl 5264654364507423 (-31), 1%Z)].
Proof. vm_compute. reflexivity. Qed.
Lemma nano_case : exists c, time_function64 (from T_nano) /\ day_number J2000 /\ day_number end_nano /\ usual_step (of_Z 1) /\ val J2000 < val end_nano /\ goes_through (from T_nano) (val (of_Z 1) + / 2 ^ 28) J2000 end_nano [(c, 1%Z)].
Proof.
  destruct (day_at 5264654364507419 (5264654364507419 / 2147483648)) as (T & ET & FT & VT & DT); [lia|reflexivity|apply Rabs_le; lra|]. destruct (day_at 5264654947319808 2451546) as (E & EE & FE & VE & DE); [lia|lra|apply Rabs_le; lra|]. destruct day_J2000 as [DJ VJ].
  assert (Vend : val end_nano = 2451546) by (unfold end_nano; rewrite EE, val_b; exact VE).
  exists (B2R T). split; [unfold T_nano; rewrite ET; apply from_fun; exact FT|]. split; [exact DJ|]. split; [exact DE|]. split; [apply step_whole; lia|]. split; [rewrite VJ, Vend; lra|]. unfold T_nano. rewrite ET. apply from_history; try assumption. rewrite VJ, Vend, VT. lra.
Qed.
(** Times in the wrong order. *)
Lemma not_before fuel jd0 jd1 f step epsilon num : day_number jd0 -> day_number jd1 -> val jd1 <= val jd0 -> find_discrete64 fuel jd0 jd1 f step epsilon num = ValueError.
Proof.
  intros (a & -> & Fa & _) (b & -> & Fb & _) L. rewrite !val_b in L. unfold find_discrete64, fleb. change (SFleb (B2SF b) (B2SF a)) with (Bleb b a). rewrite Bleb_correct by assumption. rewrite Rle_bool_true by exact L. reflexivity.
Qed.
