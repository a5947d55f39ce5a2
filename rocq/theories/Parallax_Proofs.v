From Coq Require Import ZArith List Bool.
From Coq Require Import Floats.SpecFloat.
From Verif Require Import Float64 Parallax_Model.
Import ListNotations.
Lemma scalar_not_nan p : p <> S754_nan -> clean_array [p] = [clean_scalar p].
Proof. intros H. unfold clean_array, clean_scalar. cbn [map]. destruct p; try reflexivity. contradiction. Qed.
Lemma array_elements ps : clean_array ps = concat (map (fun p => clean_array [p]) ps).
Proof. induction ps as [|p ps IH]; [reflexivity|]. cbn [map concat]. rewrite <- IH. reflexivity. Qed.
Lemma array_positive ps p : In p (clean_array ps) -> fltb (of_Z 0) p = true.
Proof.
  unfold clean_array. rewrite map_map. intros H. apply in_map_iff in H. destruct H as [q [E _]]. subst p.
  destruct q as [s|[]| |[] m e]; try reflexivity; vm_compute; reflexivity.
Qed.
Lemma positive_kept p : fltb (of_Z 0) p = true -> clean_scalar p = p /\ clean_array [p] = [p].
Proof. destruct p as [[]|[]| |[] m e]; cbn; intros H; try discriminate; split; reflexivity. Qed.
Lemma scalar_nan : clean_scalar S754_nan = S754_nan. Proof. reflexivity. Qed.
Lemma scalar_positive p : p <> S754_nan -> fltb (of_Z 0) (clean_scalar p) = true.
Proof. intros H. apply (array_positive [p]). rewrite (scalar_not_nan p H). left. reflexivity. Qed.
Lemma same_ok p : p <> S754_nan -> clean_array [p] = [clean_scalar p] /\ fltb (of_Z 0) (clean_scalar p) = true.
Proof. intros H. split; [apply scalar_not_nan|apply scalar_positive]; exact H. Qed.
Lemma nan_differs : clean_scalar S754_nan = S754_nan /\ clean_array [S754_nan] = [one_millionth].
Proof. split; reflexivity. Qed.
