(** Properties of arrays of times. *)
From Coq Require Import ZArith QArith Bool List Lia.
From Verif Require Import PyNum Time_Model Array_Model Array_Spec Array_Proofs Array_Proofs2 Array_Proofs3.
Import ListNotations.
Open Scope Q_scope.

(** Arrays for the examples: two numbers, and two by two numbers. *)
Definition two (ty : dtype) (x y : Q) : arr :=
  {| dt := ty; shape := [2%nat]; item := fun idx => match idx with [O] => x | _ => y end |}.
Definition square (x : Q) : arr := {| dt := Float64; shape := [2; 2]%nat; item := fun _ => x |}.

(** * C128 *)
Theorem C128_every_time_is_the_sum_partial : forall h jd f s h' t,
  exists_in h jd -> exists_in h f -> fit h jd f s -> no_loss h jd f -> tt_jd h jd (Some f) = (h', t) ->
  exists h'' v, tt_of h' t = Ok (h'', v) /\ holds h'' v s (fun idx => said h jd idx + said h f idx).
Proof. exact tt_total. Qed.
Print Assumptions C128_every_time_is_the_sum_partial.
Theorem C128_dimensions_partial : forall h jd f h' t h'' v,
  exists_in h jd -> exists_in h f -> no_loss h jd f -> tt_jd h jd (Some f) = (h', t) -> tt_of h' t = Ok (h'', v) ->
  length (shape_of h'' v) = Nat.max (dims h jd) (dims h f) /\
  forall idx, within idx (shape_of h'' v) -> read h'' v idx == said h jd idx + said h f idx.
Proof. exact tt_value. Qed.
Print Assumptions C128_dimensions_partial.
Theorem C128_without_fraction : forall h jd h' t, exists_in h jd -> tt_jd h jd None = (h', t) ->
  exists h'' v, tt_of h' t = Ok (h'', v) /\ length (shape_of h'' v) = dims h jd /\
  forall idx, within idx (shape_of h'' v) -> read h'' v idx == said h jd idx.
Proof. exact tt_value_split. Qed.
Print Assumptions C128_without_fraction.
Theorem C128_tai_partial : forall h jd f h' t h'' v,
  exists_in h jd -> exists_in h f -> no_loss h jd f -> tai_jd h jd (Some f) = Ok (h', t) ->
  (part_of h' t (t_tai t) = Ok (h'', v) ->
   length (shape_of h'' v) = Nat.max (dims h jd) (dims h f) /\
   forall idx, within idx (shape_of h'' v) -> read h'' v idx == said h jd idx + said h f idx) /\
  (tt_of h' t = Ok (h'', v) ->
   length (shape_of h'' v) = Nat.max (dims h jd) (dims h f) /\
   forall idx, within idx (shape_of h'' v) -> read h'' v idx == said h jd idx + said h f idx + tt_minus_tai).
Proof. exact tai_value. Qed.
Print Assumptions C128_tai_partial.
Theorem C128_ut1_partial : forall h jd c, exists_in h jd ->
  exists h' t, ut1_jd (constant_delta_t Float64 c) h jd = Ok (h', t) /\ untouched h h' /\
  (exists h1 v, tt_of h' t = Ok (h1, v) /\ length (shape_of h1 v) = dims h jd /\
     forall idx, within idx (shape_of h1 v) -> read h1 v idx == said h jd idx + c / 86400) /\
  (exists h1 v, part_of h' t (t_ut1 t) = Ok (h1, v) /\ length (shape_of h1 v) = dims h jd /\
     forall idx, within idx (shape_of h1 v) -> read h1 v idx == said h jd idx).
Proof. exact ut1_constant. Qed.
Print Assumptions C128_ut1_partial.
Theorem C128_integers_refuted : forall h a x h' t h'' v,
  dt a = Int64 -> shape a <> [] -> tt_jd h (GList a) (Some (GNum x)) = (h', t) -> tt_of h' t = Ok (h'', v) ->
  forall idx, within idx (shape a) -> shape_of h'' v = shape a /\ read h'' v idx == item a idx + inject_Z (qtrunc x).
Proof. exact tt_int_loss. Qed.
Print Assumptions C128_integers_refuted.
Theorem C128_integer_delta_t_refuted : forall h jd c, exists_in h jd -> given_arr h jd <> None ->
  ut1_jd (constant_delta_t Int64 c) h jd = TypeError.
Proof. exact ut1_integer. Qed.
Print Assumptions C128_integer_delta_t_refuted.
Example C128_ex :
  let a := two Float64 2451545 2451546 in
  let i := two Int64 2451545 2451546 in
  exists_in [] (GList a) /\ fit [] (GList a) (GNum (1 # 2)) [2%nat] /\ no_loss [] (GList a) (GNum (1 # 2)) /\
  said [] (GList a) [1%nat] + said [] (GNum (1 # 2)) [1%nat] == 2451546 + (1 # 2) /\
  (let '(h, t) := tt_jd [] (GList a) (Some (GNum (1 # 2))) in
   match tt_of h t with Ok (h, v) => read h v [1%nat] == 2451546 + (1 # 2) | _ => False end) /\
  (let '(h, t) := tt_jd [] (GList i) (Some (GNum (1 # 2))) in
   match tt_of h t with Ok (h, v) => read h v [1%nat] == 2451546 | _ => False end) /\
  (let '(h, t) := tt_jd [] (GList i) None in
   match tt_of h t with Ok (h, v) => read h v [0%nat] == 2451545 | _ => False end).
Proof.
  cbv zeta. split; [discriminate|]. split; [reflexivity|]. split; [split; [left; reflexivity|exact I]|].
  split; [reflexivity|]. repeat split; vm_compute; reflexivity.
Qed.

(** * C129 *)
Theorem C129_arguments_untouched_partial : forall h jd f h' t,
  exists_in h jd -> match f with Some f => exists_in h f | None => True end -> ~ differ_in_dims h jd f ->
  (tt_jd h jd f = (h', t) -> untouched h h') /\ (tai_jd h jd f = Ok (h', t) -> untouched h h').
Proof. intros h jd f h' t Xj Xf D. exact (conj (tt_untouched h jd f h' t Xj Xf D) (tai_untouched h jd f h' t Xj Xf D)). Qed.
Print Assumptions C129_arguments_untouched_partial.
Theorem C129_julian_years : forall h y h' t, exists_in h y -> from_J h y = Ok (h', t) -> untouched h h' /\ fresh h t.
Proof. exact J_untouched. Qed.
Print Assumptions C129_julian_years.
Theorem C129_later_changes_do_not_matter_partial : forall h jd f h' t h2,
  exists_in h jd -> match f with Some f => exists_in h f /\ forall a, f <> GArray a | None => True end ->
  (f = None \/ forall a, jd <> GArray a) -> tt_jd h jd f = (h', t) -> caller_changes h h' h2 ->
  same_reading (tt_of h' t) (tt_of h2 t).
Proof. intros h jd f h' t h2 Xj Xf N H. exact (fresh_keeps h h' h2 t (tt_fresh h jd f h' t Xj Xf N H)). Qed.
Print Assumptions C129_later_changes_do_not_matter_partial.
Theorem C129_shape_refuted : forall h k l n s h' t, k <> l -> (k < length h)%nat -> (l < length h)%nat ->
  shape (fetch h k) = [n] -> shape (fetch h l) = n :: s -> s <> [] -> tt_jd h (GArray k) (Some (GArray l)) = (h', t) ->
  shape (fetch h' k) = n :: repeat 1%nat (length s).
Proof. exact tt_dims_changed. Qed.
Print Assumptions C129_shape_refuted.
Theorem C129_kept_array_refuted : forall h k x h' t,
  (k < length h)%nat -> shape (fetch h k) <> [] -> tt_jd h (GArray k) (Some (GNum x)) = (h', t) ->
  exists h1 v h2 h3 w, tt_of h' t = Ok (h1, v) /\ caller_changes h h' h2 /\ tt_of h2 t = Ok (h3, w) /\
    shape_of h3 w = shape_of h1 v /\ forall idx, within idx (shape_of h1 v) -> read h3 w idx == read h1 v idx + 1.
Proof. exact tt_alias. Qed.
Print Assumptions C129_kept_array_refuted.
Theorem C129_ut1_kept_array_refuted : forall h k c h' t,
  (k < length h)%nat -> shape (fetch h k) <> [] -> ut1_jd (constant_delta_t Float64 c) h (GArray k) = Ok (h', t) ->
  exists h1 v h2 h3 w, tt_of h' t = Ok (h1, v) /\ caller_changes h h' h2 /\ tt_of h2 t = Ok (h3, w) /\
    shape_of h3 w = shape_of h1 v /\ forall idx, within idx (shape_of h1 v) -> read h3 w idx == read h1 v idx + 1.
Proof. exact ut1_alias. Qed.
Print Assumptions C129_ut1_kept_array_refuted.
Theorem C129_delta_t_array_refuted : forall h k n x h' t,
  (k < length h)%nat -> dt (fetch h k) = Float64 -> shape (fetch h k) = [n] ->
  ut1_jd (fun h _ => (h, Ref k)) h (GNum x) = Ok (h', t) ->
  forall idx, item (fetch h' k) idx == item (fetch h k) idx / 86400.
Proof. exact delta_t_divided. Qed.
Print Assumptions C129_delta_t_array_refuted.
Example C129_ex :
  let h := [two Float64 2451545 2451546; square (1 # 2)] in
  exists_in h (GArray 0) /\ exists_in h (GArray 1) /\ ~ differ_in_dims h (GArray 0) None /\
  ~ differ_in_dims h (GArray 0) (Some (GNum (1 # 2))) /\ differ_in_dims h (GArray 0) (Some (GArray 1)) /\
  (let '(h', t) := tt_jd h (GArray 0) (Some (GArray 1)) in shape (fetch h' 0) = [2; 1]%nat) /\
  (let '(h', t) := tt_jd h (GArray 0) None in length h' = 4%nat) /\
  (match ut1_jd (constant_delta_t Float64 64) h (GArray 0) with Ok (_, t) => t_whole t = Ref 0 | _ => False end).
Proof.
  cbv zeta. split; [split; [cbn; lia|discriminate]|]. split; [split; [cbn; lia|discriminate]|].
  split; [intros (f & E & _); discriminate|]. split; [intros (f & E & _ & _ & G); injection E as <-; apply G; reflexivity|].
  split; [exists (GArray 1); split; [reflexivity|]; split; [cbn; discriminate|split; discriminate]|].
  repeat split.
Qed.

(** * C130 *)
Theorem C130_indexing_commutes_with_tt : forall h t n s i, uniform h t (n :: s) -> (i < n)%nat ->
  exists h' t' h1 v1 h2 v2, time_at h t i = Ok (h', t') /\ untouched h h' /\ tt_of h' t' = Ok (h1, v1) /\
    tt_of h t = Ok (h2, v2) /\ shape_of h2 v2 = n :: s /\ holds h1 v1 s (fun idx => read h2 v2 (i :: idx)).
Proof. exact index_commutes. Qed.
Print Assumptions C130_indexing_commutes_with_tt.
Theorem C130_indexing_keeps_the_fractions : forall h t n s i, uniform h t (n :: s) -> (i < n)%nat ->
  exists h' t', time_at h t i = Ok (h', t') /\ untouched h h' /\ uniform h' t' s /\
  (forall idx, length idx = length s -> read h' (t_whole t') idx = read h (t_whole t) (i :: idx) /\
                                        read h' (t_fraction t') idx = read h (t_fraction t) (i :: idx)) /\
  match t_tai t, t_tai t' with
  | Some v, Some v' => forall idx, length idx = length s -> read h' v' idx = read h v (i :: idx)
  | None, None => True | _, _ => False end /\
  match t_ut1 t, t_ut1 t' with
  | Some v, Some v' => forall idx, length idx = length s -> read h' v' idx = read h v (i :: idx)
  | None, None => True | _, _ => False end.
Proof. exact index_uniform. Qed.
Print Assumptions C130_indexing_keeps_the_fractions.
Theorem C130_length_is_where_indexing_stops : forall h t n s, uniform h t (n :: s) ->
  time_len h t = Ok n /\ forall i, (exists h' t', time_at h t i = Ok (h', t')) <-> (i < n)%nat.
Proof. exact index_stops. Qed.
Print Assumptions C130_length_is_where_indexing_stops.
Theorem C130_constructors_are_uniform_partial : forall h jd f s h' t, exists_in h jd -> exists_in h f -> fit h jd f s ->
  (tt_jd h jd (Some f) = (h', t) -> uniform h' t s) /\ (tai_jd h jd (Some f) = Ok (h', t) -> uniform h' t s).
Proof. intros h jd f s h' t Xj Xf F. exact (conj (tt_uniform h jd f s h' t Xj Xf F) (tai_uniform h jd f s h' t Xj Xf F)). Qed.
Print Assumptions C130_constructors_are_uniform_partial.
Theorem C130_constructors_without_fraction_are_uniform : forall h jd h' t c, exists_in h jd ->
  let s := match given_arr h jd with Some a => shape a | None => [] end in
  (tt_jd h jd None = (h', t) -> uniform h' t s) /\ (tai_jd h jd None = Ok (h', t) -> uniform h' t s) /\
  (ut1_jd (constant_delta_t Float64 c) h jd = Ok (h', t) -> uniform h' t s).
Proof. intros h jd h' t c X. exact (conj (tt_uniform_split h jd h' t X) (conj (tai_split_uniform h jd h' t X) (ut1_uniform h jd c h' t X))). Qed.
Print Assumptions C130_constructors_without_fraction_are_uniform.
Theorem C130_julian_years_refuted : forall h y a n s, exists_in h y -> given_arr h y = Some a -> shape a = n :: s ->
  exists h' t, from_J h y = Ok (h', t) /\ time_len h' t = Ok n /\ forall i, (i < n)%nat -> time_at h' t i = TypeError.
Proof. exact J_not_indexed. Qed.
Print Assumptions C130_julian_years_refuted.
Example C130_ex :
  let h := [two Float64 2451545 (2451546 + (1 # 4)); square (1 # 2)] in
  fit h (GArray 0) (GNum (1 # 2)) [2%nat] /\ fit h (GArray 1) (GNum 7) [2; 2]%nat /\
  (let '(h', t) := tt_jd h (GArray 0) None in
   match time_at h' t 1 with Ok (_, t) => (t_whole t, t_fraction t) = (Num 2451546, Num (qmod (2451546 + (1 # 4)) 1)) | _ => False end) /\
  qmod (2451546 + (1 # 4)) 1 == 1 # 4 /\
  (let '(h', t) := tt_jd h (GArray 1) (Some (GNum 7)) in
   match time_at h' t 1 with Ok (h'', t) => shape_of h'' (t_whole t) = [2%nat] | _ => False end).
Proof. cbv zeta. repeat split; vm_compute; reflexivity. Qed.
