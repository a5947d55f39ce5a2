(** Properties of readers of data files. *)
From Coq Require Import ZArith QArith Qround Bool String Ascii List.
From Verif Require Import PyNum Cal_Model Cal_Spec Time_Model Time_Spec Download_Model Data_Model Data_Spec
  Data_Proofs Data_Proofs2 Data_Proofs3.
Import ListNotations.
Open Scope Z_scope.

(** * C120 *)
Theorem C120_packed_epoch_is_its_date : forall y m d rest, 0 <= y < 3600 -> exists_under None (y, m, d) ->
  exists jd, mpc_epoch (packed_date y m d ++ rest) = Some jd /\ (jd == inject_Z (civil_day_number None (y, m, d)) - (1 # 2))%Q.
Proof. exact packed_epoch_civil. Qed.
Print Assumptions C120_packed_epoch_is_its_date.
Theorem C120_unpack_partial : forall d, designation_ok d -> order d < 100 -> mpc_unpack (packed d) = Some (written d).
Proof. exact unpack_packed. Qed.
Print Assumptions C120_unpack_partial.
Theorem C120_unpack_hundred_refuted : forall d, designation_ok d -> 100 <= order d -> mpc_unpack (packed d) = None.
Proof. exact unpack_hundred. Qed.
Print Assumptions C120_unpack_hundred_refuted.
Theorem C120_unpack_keeps_written_ones : forall c s, mpc_unpack (c :: "/"%char :: s) = Some (c :: "/"%char :: s).
Proof. exact unpack_slash. Qed.
Print Assumptions C120_unpack_keeps_written_ones.
Example C120_ex :
  let c := list_ascii_of_string in
  let d := {| kind := "C"; d_year := 1995; half_month := "O"; order := 1; fragment := None |} in
  let e := {| kind := "D"; d_year := 2088; half_month := "A"; order := 103; fragment := Some "b"%char |} in
  designation_ok d /\ packed d = c "CJ95O010"%string /\ mpc_unpack (c "CJ95O010"%string) = Some (c "C/1995 O1"%string) /\
  designation_ok e /\ packed e = c "DK88AA3b"%string /\
  exists_under None (2020, 12, 17) /\ packed_date 2020 12 17 = c "K20CH"%string /\
  mpc_epoch (c "K20CH"%string) = Some (inject_Z 2459201 - (1 # 2))%Q.
Proof. cbv zeta. unfold designation_ok. cbn [d_year order fragment]. repeat split; try discriminate; vm_compute; reflexivity. Qed.

(** * C121 *)
Theorem C121_constellations_read_back : forall ls lines, Forall2 outline_line ls lines ->
  parse_constellations lines = Some (concat ls).
Proof. exact outlines_read. Qed.
Print Assumptions C121_constellations_read_back.
Theorem C121_odd_count_of_stars_is_an_error : forall ws s l n, word (hd [] ws) -> hd "x"%char (hd [] ws) <> "#"%char -> ws <> [] ->
  (exists name count, ws = name :: count :: star_words l ++ [decimal n]) -> spaced ws s ->
  forall before after, parse_constellations (before ++ s :: after) = None.
Proof. exact outlines_odd. Qed.
Print Assumptions C121_odd_count_of_stars_is_an_error.
Theorem C121_star_names_partial : forall ls lines, Forall2 name_line ls lines -> Forall (fun p => word (snd p)) (concat ls) ->
  parse_star_names lines = Some (concat ls).
Proof. exact star_names_read. Qed.
Print Assumptions C121_star_names_partial.
Theorem C121_names_are_cut_at_a_space_refuted : forall b n a c t refs rest r, blanks b -> Forall plain_char (a ++ c :: t) -> word a -> blank c ->
  parse_star_names rest = Some r ->
  name_line [(Z.of_nat n, a ++ c :: t)] (b ++ decimal n ++ "|"%char :: quoted (a ++ c :: t) ++ (" "%char :: refs)) /\
  parse_star_names ((b ++ decimal n ++ "|"%char :: quoted (a ++ c :: t) ++ (" "%char :: refs)) :: rest) = Some ((Z.of_nat n, a) :: r).
Proof. exact star_names_cut. Qed.
Print Assumptions C121_names_are_cut_at_a_space_refuted.
Example C121_ex :
  let c := list_ascii_of_string in
  parse_constellations [c "# comment"%string; []; c " Ari 3  13209 9884  9884 8903 8903 8832"%string] =
    Some [(c "Ari"%string, [(13209, 9884); (9884, 8903); (8903, 8832)])] /\
  parse_star_names [c "677|_(""Alpheratz"") 1,2,5"%string; c "87937|_(""Barnard's Star"") 1"%string] =
    Some [(677, c "Alpheratz"%string); (87937, c "Barnard's"%string)] /\
  outline_line [(c "Ari"%string, [(5, 7)])] (c "Ari 1 5 7"%string) /\
  name_line [(7, c "Barnard's Star"%string)] (c "7|_(""Barnard's Star"") 1"%string).
Proof.
  cbv zeta. split; [vm_compute; reflexivity|]. split; [vm_compute; reflexivity|].
  assert (B : forall l, existsb isspace l = false -> l <> [] -> word l).
  { intros l H Hl. split; [exact Hl|]. apply Forall_forall. intros x Hx Bx. apply isspace_blank in Bx.
    assert (E : existsb isspace l = true) by (apply existsb_exists; eauto). congruence. }
  split.
  - apply (ol_outline (list_ascii_of_string "Ari"%string) ["1"%char] [(5%nat, 7%nat)]);
      [apply B; [reflexivity|discriminate]|discriminate|].
    apply (sp_cons [] (list_ascii_of_string "Ari"%string) " "%char _ (list_ascii_of_string "1 5 7"%string));
      [constructor|apply B; [reflexivity|discriminate]|left; reflexivity|].
    apply (sp_cons [] ["1"%char] " "%char _ (list_ascii_of_string "5 7"%string));
      [constructor|apply B; [reflexivity|discriminate]|left; reflexivity|].
    apply (sp_cons [] ["5"%char] " "%char _ ["7"%char]); [constructor|apply B; [reflexivity|discriminate]|left; reflexivity|].
    apply (sp_last [] ["7"%char]); [constructor|apply B; [reflexivity|discriminate]].
  - refine (nl_name [] 7 (list_ascii_of_string "Barnard's Star"%string) (list_ascii_of_string " 1"%string) _ _ _ _).
    + constructor.
    + repeat constructor; intros H; cbn in H; intuition discriminate.
    + discriminate.
    + right. exists " "%char, ["1"%char]. split; [reflexivity|left; reflexivity].
Qed.

(** * C122 *)
Theorem C122_joined_delta_t : forall data last preds, ascending (data ++ [last]) -> ascending preds ->
  exists l, legacy_delta_t (data ++ [last]) preds = Some l /\ ascending l /\
    forall p, In p l <-> In p data \/ p = last \/ (In p preds /\ fst last < fst p)%Q.
Proof. exact legacy_joined. Qed.
Print Assumptions C122_joined_delta_t.
Theorem C122_dates_of_data : forall y m d h mi s, exists_under None (y, m, d) ->
  (julian_date y m d h mi s == inject_Z (civil_day_number None (y, m, d)) - (1 # 2) + inject_Z (h * 3600 + mi * 60 + s) / 86400)%Q.
Proof. exact julian_date_civil. Qed.
Print Assumptions C122_dates_of_data.
Theorem C122_dates_of_predictions : forall yf, (0 <= yf)%Q -> exists y m, 1 <= m <= 12 /\ exists_under None (y, m, 1%Z) /\
  (inject_Z y + inject_Z (m - 1) / 12 <= yf)%Q /\ (yf < inject_Z y + inject_Z m / 12)%Q /\
  (preds_date yf == inject_Z (civil_day_number None (y, m, 1%Z)) - (1 # 2))%Q.
Proof. exact preds_month. Qed.
Print Assumptions C122_dates_of_predictions.
Example C122_ex :
  (preds_date (201575 # 100) == 2457297 - (1 # 2))%Q /\ civil_day_number None (2015, 10, 1) = 2457297 /\
  ascending [(1, 10); (2, 11)]%Q /\
  legacy_delta_t [(1, 10); (2, 11)]%Q [(1, 70); (2, 71); (3, 72)]%Q = Some [(1, 10); (2, 11); (3, 72)]%Q.
Proof. repeat split; try (vm_compute; reflexivity). repeat constructor. Qed.

(** * C123 *)
Theorem C123_polar_motion_dates : forall ns base cut ts rows, timescale_for ns base cut ts ->
  (forall r, In r rows -> match cut with Some c => c <= 2400001 + fst (fst r) | None => True end) ->
  Forall2 (fun r t => (fst (fst t) == tt_of_midnight ns base (fst (fst r)))%Q /\ snd (fst t) = snd (fst r) /\ snd t = snd r)
    rows (install_polar_motion ts rows).
Proof. exact polar_table. Qed.
Print Assumptions C123_polar_motion_dates.
Theorem C123_polar_motion_dates_go_up : forall ns base a b, a < b -> (tt_of_midnight ns base a < tt_of_midnight ns base b)%Q.
Proof. exact midnight_mono. Qed.
Print Assumptions C123_polar_motion_dates_go_up.
Theorem C123_finals_read_back : forall l lines, finals_says l lines -> parse_finals lines = Some l.
Proof. exact finals_read. Qed.
Print Assumptions C123_finals_read_back.

Example C123_ex :
  let r := {| f_date := list_ascii_of_string "73 1 2"%string; f_mjd := 68400; f_flag := "I"; f_x := 120733; f_sx := 9786;
              f_y := 136966; f_sy := 15902; f_flag2 := "I"; f_dut1 := 8084178; f_rest := list_ascii_of_string " 0.0002710"%string |} in
  finals_ok r /\
  finals_line r = list_ascii_of_string "73 1 2   684.00 I  0.120733 0.009786  0.136966 0.015902  I 0.8084178 0.0002710"%string /\
  valueless (list_ascii_of_string "22 6 4 59734.00"%string) /\
  (tt_of_midnight [2441500%Z; 2441684%Z] 10%Z 41684%Z == 2441684 + (1 # 2) + (44184 # 1000) / 86400)%Q.
Proof.
  cbv zeta. split; [|split; [vm_compute; reflexivity|split; [left; cbn; repeat constructor|vm_compute; reflexivity]]].
  unfold finals_ok, not_lf. cbn [f_date f_mjd f_flag f_x f_sx f_y f_sy f_flag2 f_dut1].
  repeat split; try discriminate; repeat constructor; discriminate.
Qed.

(** * C124 *)
Theorem C124_plain_name : forall n, no_paren n -> n <> [] -> tle_names (Some n) = Some [n].
Proof. exact tle_names_plain. Qed.
Print Assumptions C124_plain_name.
Theorem C124_alias_partial : forall a b, no_paren a -> no_paren (b ++ [")"%char]) -> last b "x"%char <> ")"%char ->
  let n := a ++ " "%char :: "("%char :: b ++ [")"%char] in tle_names (Some n) = Some [n; a; b].
Proof. exact tle_names_alias. Qed.
Print Assumptions C124_alias_partial.
Theorem C124_two_brackets_refuted : forall a b c, no_paren a -> no_paren b ->
  tle_names (Some (a ++ " "%char :: "("%char :: b ++ " "%char :: "("%char :: c)) = None.
Proof. exact tle_names_two. Qed.
Print Assumptions C124_two_brackets_refuted.
Theorem C124_lookups_find_the_last : forall A (sats : list (Z * option txt * A)) d k, tle_dict sats [] = Some d ->
  tle_get d k = match find (fun s => carries (fst s) k) (rev sats) with Some s => Some (snd s) | None => None end.
Proof. intros A sats d k H. exact (tle_dict_get sats [] d k H). Qed.
Print Assumptions C124_lookups_find_the_last.
Theorem C124_dictionary_is_built : forall A (sats : list (Z * option txt * A)),
  (forall s, In s sats -> tle_names (snd (fst s)) <> None) -> exists d, tle_dict sats [] = Some d.
Proof. intros A sats H. exact (tle_dict_total sats [] H). Qed.
Print Assumptions C124_dictionary_is_built.
Example C124_ex :
  let c := list_ascii_of_string in
  no_paren (c "HTV-6"%string) /\ no_paren (c "KOUNOTORI 6)"%string) /\
  tle_names (Some (c "HTV-6 (KOUNOTORI 6)"%string)) = Some [c "HTV-6 (KOUNOTORI 6)"%string; c "HTV-6"%string; c "KOUNOTORI 6"%string] /\
  tle_names (Some (c "A (B) (C)"%string)) = None /\
  exists d, tle_dict [(25544, Some (c "ISS (ZARYA)"%string), 1); (41875, None, 2); (99, Some (c "ZARYA"%string), 3)] [] = Some d /\
    tle_get d (NameKey (c "ZARYA"%string)) = Some 3 /\ tle_get d (Number 25544) = Some 1 /\ tle_get d (NameKey (c "ISS"%string)) = Some 1.
Proof.
  assert (N : forall s, forallb (fun x => negb (Ascii.eqb x "(")) s = true -> no_paren s).
  { intros s H [a [b ->]]. rewrite forallb_app in H. apply andb_prop in H. destruct H as [_ H]. cbn in H. discriminate. }
  cbv zeta. split; [apply N; reflexivity|]. split; [apply N; reflexivity|]. split; [reflexivity|]. split; [reflexivity|].
  eexists. split; [reflexivity|]. repeat split; reflexivity.
Qed.
