(** Properties of angles given by the caller. *)
From Coq Require Import ZArith QArith Qreals Reals Bool String Ascii List.
From Verif Require Import Real_Math Units_Model Download_Model Data_Model Data_Spec Input_Model Input_Spec Input_Proofs.
Import ListNotations.

(** * C125 *)
Theorem C125_star_angles : forall ra dec rh dd pr pd plx rad ep s, star_init ra dec rh dd pr pd plx rad ep = Ok s <->
  star_says hours ra rh (s_ra s) /\ star_says degrees dec dd (s_dec s) /\
  (s_ra_mas s, s_dec_mas s, s_parallax s, s_radial s, s_epoch s) = (pr, pd, plx, rad, ep).
Proof. exact star_ok. Qed.
Print Assumptions C125_star_angles.
Theorem C125_altaz_angles : forall alt az ad zd a z, altaz_angles alt az ad zd = Ok (a, z) <-> altaz_says alt ad a /\ altaz_says az zd z.
Proof. exact altaz_ok. Qed.
Print Assumptions C125_altaz_angles.
Theorem C125_topos_angles : forall lat lon latd lond a o, (forall s, lat <> AStr s) -> (forall s, lon <> AStr s) ->
  topos lat lon latd lond = Ok (a, o) <-> topos_says lat latd a /\ topos_says lon lond o.
Proof. exact topos_ok. Qed.
Print Assumptions C125_topos_angles.
Theorem C125_radec_partial : forall rh dd x y, (forall l, rh <> ATuple l) -> (forall l, dd <> ATuple l) -> means rh x -> means dd y ->
  radec_angles rh dd = Ok (each degrees y, each hours x).
Proof. exact radec_ok. Qed.
Print Assumptions C125_radec_partial.
Theorem C125_radec_tuple_refuted : forall u m s dd y, means dd y -> (forall l, dd <> ATuple l) ->
  exists r, radec_angles (ATuple [u; m; s]) dd = Ok (each degrees y, Many r) /\ length r = 3%nat.
Proof. exact radec_tuple. Qed.
Print Assumptions C125_radec_tuple_refuted.
Theorem C125_what_is_refused :
  (forall az zd, altaz_angles ANone az ANone zd = ValueError) /\
  (forall alt az ad zd, alt <> ANone -> (forall r, alt <> AAngle r) -> altaz_angles alt az ad zd = ValueError) /\
  (forall az zd, altaz_angles ANone az (ATuple []) zd = StopIteration) /\
  (forall ra dec dd pr pd plx rad ep, star_init ra dec (ATuple []) dd pr pd plx rad ep = StopIteration) /\
  (forall lat lon lond, topos lat lon (ATuple []) lond = StopIteration) /\
  (forall ra dec dd pr pd plx rad ep, (forall r, ra <> AAngle r) -> star_init ra dec ANone dd pr pd plx rad ep = TypeError).
Proof. exact refused. Qed.
Print Assumptions C125_what_is_refused.
Theorem C125_topos_integer_refuted : forall z lon latd lond, latd = ANone -> topos (AInt z) lon latd lond = TypeError.
Proof. exact topos_int. Qed.
Print Assumptions C125_topos_integer_refuted.
Theorem C125_altaz_list_refuted : forall l az ad zd, altaz_angles ANone az (AList l) zd = TypeError /\
  (ad = AList l -> forall dec rh pr pd plx rad ep, exists s,
   star_init ANone dec (AFloat rh) (AList l) pr pd plx rad ep = Ok s /\ s_dec s = Many (map degrees (map real l))).
Proof. exact altaz_list. Qed.
Print Assumptions C125_altaz_list_refuted.
Example C125_ex :
  let t := ATuple [S_ true 0; S_ false 30; S_ false 0] in
  means t (One (sexagesimal (S_ true 0) [S_ false 30; S_ false 0])) /\ sexagesimal (S_ true 0) [S_ false 30; S_ false 0] = (- (1 / 2))%R /\
  star_says degrees ANone t (One (degrees (- (1 / 2)))) /\ topos_says t ANone (One (degrees (- (1 / 2)))) /\
  altaz_says ANone t (One (degrees (- (1 / 2)))) /\ (forall s, t <> AStr s).
Proof.
  cbv zeta. assert (E : sexagesimal (S_ true 0) [S_ false 30; S_ false 0] = (- (1 / 2))%R) by (unfold sexagesimal, Q2R; cbn; Lra.lra).
  assert (M : means (ATuple [S_ true 0; S_ false 30; S_ false 0]) (One (- (1 / 2)))) by (rewrite <- E; constructor).
  split; [constructor|]. split; [exact E|]. split; [left; eexists; split; [exact M|reflexivity]|].
  split; [right; split; [reflexivity|right; eexists; split; [exact M|split; [discriminate|reflexivity]]]|].
  split; [right; split; [reflexivity|eexists; split; [exact M|split; [discriminate|reflexivity]]]|discriminate].
Qed.

(** * C126 *)
Theorem C126_place_text : forall s x c p n, capital p -> capital n -> p <> n -> place_text s x c ->
  (letter p c -> exists y, ltude (AStr s) p n = Ok (AFloat y) /\ (value_of y == x)%Q) /\
  (letter n c -> exists y, ltude (AStr s) p n = Ok (AFloat y) /\ (value_of y == - x)%Q).
Proof. exact ltude_reads. Qed.
Print Assumptions C126_place_text.
Theorem C126_no_direction_is_refused : forall s p n, capital p -> capital n ->
  (blanks s -> ltude (AStr s) p n = ValueError) /\
  (forall c, ends_in s c -> ~ letter p c -> ~ letter n c -> ltude (AStr s) p n = ValueError).
Proof. exact ltude_refuses. Qed.
Print Assumptions C126_no_direction_is_refused.
Theorem C126_topos_text : forall lat lon x y a o, place_says "N" "S" lat x -> place_says "E" "W" lon y ->
  topos (AStr lat) (AStr lon) ANone ANone = Ok (a, o) <-> a = One (degrees (Q2R x)) /\ o = One (degrees (Q2R y)).
Proof. exact topos_text. Qed.
Print Assumptions C126_topos_text.
Example C126_ex :
  let c := list_ascii_of_string in
  place_says "N" "S" (c "33.89 s "%string) (-(3389 # 100)) /\ place_says "E" "W" (c " 151E"%string) 151 /\
  ends_in (c "33.89 "%string) "9" /\ ~ letter "N" "9" /\ ~ letter "S" "9".
Proof.
  cbv zeta. assert (B : blanks [" "%char]) by (constructor; [left; reflexivity|constructor]). split; [|split].
  - exists "s"%char, (3389 # 100)%Q. split; [|right; split; [right; reflexivity|reflexivity]].
    exists [], (fixed_text 2 3389), [" "%char], [" "%char]. split; [constructor|]. split; [exact B|]. split; [exact B|]. split; [|reflexivity].
    left. exists 2%nat, 3389%Z. repeat split; auto with arith.
  - exists "E"%char, 151%Q. split; [|left; split; [left; reflexivity|reflexivity]].
    exists [" "%char], (decimal 151), [], []. split; [exact B|]. split; [constructor|]. split; [constructor|]. split; [|reflexivity].
    right. exists 151%nat. split; reflexivity.
  - split; [exists (list_ascii_of_string "33.8"), [" "%char]; repeat split; [|constructor; [left; reflexivity|constructor]]|].
    + cbn. intuition discriminate.
    + split; intros [H|H]; discriminate H.
Qed.

(** * C127 *)
Theorem C127_star_of_columns : forall df s, from_dataframe df = Ok s -> exists years rh dd,
  df "epoch_year"%string = Some years /\ df "ra_hours"%string = Some rh /\ df "dec_degrees"%string = Some dd /\
  epoch_of years = Ok (s_epoch s) /\ star_says hours ANone rh (s_ra s) /\ star_says degrees ANone dd (s_dec s) /\
  (forall a, df "ra_mas_per_year"%string = Some a -> s_ra_mas s = a) /\ (forall a, df "dec_mas_per_year"%string = Some a -> s_dec_mas s = a) /\
  (forall a, df "parallax_mas"%string = Some a -> s_parallax s = a) /\ s_radial s = AFloat zero /\
  (df "ra_mas_per_year"%string = None -> s_ra_mas s = AInt 0) /\ (df "dec_mas_per_year"%string = None -> s_dec_mas s = AInt 0) /\
  (df "parallax_mas"%string = None -> s_parallax s = AInt 0).
Proof. exact frame_columns. Qed.
Print Assumptions C127_star_of_columns.
Theorem C127_hipparcos : forall l hip mag ra dec plx pmra pmdec, Forall no_bar l -> l <> [] -> row_of l hip mag ra dec plx pmra pmdec ->
  exists r s, load_hip (with_bars l) = Some r /\ from_dataframe (hip_frame r) = Ok s /\
  s_ra s = One (degrees (Q2R ra)) /\ s_dec s = One (degrees (Q2R dec)) /\
  floats (s_ra_mas s) pmra /\ floats (s_dec_mas s) pmdec /\ floats (s_parallax s) plx /\ floats (s_epoch s) (24483490625 # 10000) /\ s_radial s = AFloat zero.
Proof. exact hip_star. Qed.
Print Assumptions C127_hipparcos.
Theorem C127_radial_velocity_refuted : forall df s radial,
  from_dataframe (fun name => if String.eqb name "radial_km_per_s" then radial else df name) = Ok s ->
  from_dataframe (fun name => if String.eqb name "radial_km_per_s" then None else df name) = Ok s.
Proof. exact radial_ignored. Qed.
Print Assumptions C127_radial_velocity_refuted.
Example C127_ex :
  let c := list_ascii_of_string in
  let l := map c ["H"; "        439"; " "; "00 05 24.43"; "-37 21 26.5"; " 8.56"; " "; "3"; "  1.35"; "-37.36"; " "; " 229.33"; " 635.02"; "-337.21"]%string in
  Forall no_bar l /\ l <> [] /\ row_of l 439 (856 # 100) (135 # 100) (-(3736 # 100)) (22933 # 100) (63502 # 100) (-(33721 # 100)) /\
  with_bars l = c "H|        439| |00 05 24.43|-37 21 26.5| 8.56| |3|  1.35|-37.36| | 229.33| 635.02|-337.21"%string.
Proof.
  cbv zeta. assert (B : forall n, blanks (repeat " "%char n)) by (induction n; constructor; [left; reflexivity|assumption]).
  assert (F : forall z d x, (1 <= d)%nat -> (x == inject_Z z / inject_Z (10 ^ Z.of_nat d))%Q -> number_text (fixed_text d z) x) by (intros z d x Hd E; left; exists d, z; auto).
  split; [|split; [discriminate|split; [|reflexivity]]].
  - cbn [map]. repeat (apply Forall_cons; [intros X; cbn in X; repeat (destruct X as [X|X]; [discriminate X|]); exact X|]). constructor.
  - split; [exists (repeat " "%char 8), (decimal 439); split; [apply B|split; [reflexivity|right; exists 439%nat; split; reflexivity]]|].
    split; [exists (repeat " "%char 1), (fixed_text 2 856); split; [apply B|split; [reflexivity|apply F; [auto with arith|reflexivity]]]|].
    split; [exists (repeat " "%char 2), (fixed_text 2 135); split; [apply B|split; [reflexivity|apply F; [auto with arith|reflexivity]]]|].
    split; [exists [], (fixed_text 2 (-3736)); split; [apply (B 0%nat)|split; [reflexivity|apply F; [auto with arith|reflexivity]]]|].
    split; [exists (repeat " "%char 1), (fixed_text 2 22933); split; [apply B|split; [reflexivity|apply F; [auto with arith|reflexivity]]]|].
    split; [exists (repeat " "%char 1), (fixed_text 2 63502); split; [apply B|split; [reflexivity|apply F; [auto with arith|reflexivity]]]|].
    exists [], (fixed_text 2 (-33721)); split; [apply (B 0%nat)|split; [reflexivity|apply F; [auto with arith|reflexivity]]].
Qed.
