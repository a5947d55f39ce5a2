(** Properties of formatted times. *)
From Coq Require Import ZArith QArith Qround Qabs Bool String Ascii List.
From Verif Require Import PyNum Cal_Model Cal_Spec Time_Model Time_Spec Format_Model Format_Spec
  Format_Proofs Format_Proofs2 Format_Proofs3.
Import ListNotations.
Open Scope Q_scope.

(** A C library for the examples. *)
Definition lib (t : tm) (fl : text) (c : ascii) : text :=
  if Ascii.eqb c "%" then ["%"%char] else if Ascii.eqb c "Z" then tm_zone t
  else if Ascii.eqb c "H" then [digit (tm_hour t / 10); digit (tm_hour t mod 10)]
  else if Ascii.eqb c "M" then [digit (tm_min t / 10); digit (tm_min t mod 10)]
  else if Ascii.eqb c "S" then [digit (tm_sec t / 10); digit (tm_sec t mod 10)]
  else if Ascii.eqb c "U" then [digit (week_of_year t / 10); digit (week_of_year t mod 10)]
  else if Ascii.eqb c "r" then [digit (tm_sec t / 10); digit (tm_sec t mod 10)]
  else [].
Example lib_standard : standard lib /\ prints_weeks lib.
Proof.
  split; [split; [|split]|intros t; reflexivity]; intros; try reflexivity. unfold lib.
  destruct (Ascii.eqb c "%"); [reflexivity|]. destruct (Ascii.eqb_spec c "Z"); [contradiction|]. reflexivity.
Qed.

(** * C113 *)
Theorem C113_utc_text_partial : forall show ns base cut ts t ps,
  standard show -> timescale_for ns base cut ts -> good_cutoff cut -> built ts t -> covered ps ->
  exists f usec, utc_strftime show ts t (write ps) = expected show f usec ps /\ day_fields cut f /\
    forall u, smallest_unit ps u -> utc_rounding ns base cut u f usec (tai_instant t).
Proof. exact utc_text. Qed.
Print Assumptions C113_utc_text_partial.
Theorem C113_formats_are_read_as_written : forall ps, Forall proper ps -> parse None (write ps) = ps.
Proof. exact parse_write. Qed.
Print Assumptions C113_formats_are_read_as_written.
Theorem C113_an_unfinished_directive_stands_for_itself : forall ps fl, Forall proper ps ->
  Forall (fun f => strftime_flag f = true) fl ->
  parse None (write ps ++ "%"%char :: fl) = ps ++ map Lit ("%"%char :: fl).
Proof. exact parse_write_open. Qed.
Print Assumptions C113_an_unfinished_directive_stands_for_itself.
Theorem C113_searches_find_directives : forall l ps, Forall proper ps -> ~ In "%"%char (letters ps) ->
  (search (one_of l) (write ps) <> None <-> shows_one_of l ps).
Proof. exact search_iff. Qed.
Print Assumptions C113_searches_find_directives.
Theorem C113_microseconds_have_six_digits : forall u, (0 <= u < 1000000)%Z ->
  length (six_digits u) = 6%nat /\ value_of (six_digits u) = u.
Proof. exact six_digits_ok. Qed.
Print Assumptions C113_microseconds_have_six_digits.
Theorem C113_percent_signs_refuted : exists ps, Forall proper ps /\
  forall show ts t f usec, standard show ->
    utc_strftime show ts t (write ps) <> expected show f usec ps.
Proof. exact percent_misread. Qed.
Print Assumptions C113_percent_signs_refuted.
Theorem C113_second_f_refuted : exists ps, Forall proper ps /\ ~ In "%"%char (letters ps) /\
  forall show ts t f usec, standard show -> (forall t, show t [] "f"%char = ["%"; "f"]%char) ->
    utc_strftime show ts t (write ps) <> expected show f usec ps.
Proof. exact second_f_lost. Qed.
Print Assumptions C113_second_f_refuted.
Theorem C113_r_is_not_rounded_refuted : exists ps f, Forall proper ps /\ smallest_unit ps Second /\
  built (ts72 None) t_r /\ utc_rounding ns72 10 None Second f 0 (tai_instant t_r) /\ day_fields None f /\
  forall show, prints_r show -> utc_strftime show (ts72 None) t_r (write ps) <> expected show f 0 ps.
Proof. exact r_not_rounded. Qed.
Print Assumptions C113_r_is_not_rounded_refuted.
Example C113_ex :
  let ps := [Dir [] "H"; Lit ":"; Dir ["0"] "M"; Lit ":"; Dir [] "S"; Lit "."; Dir [] "f"]%char in
  covered ps /\ smallest_unit ps Microsecond /\
  utc_strftime lib (ts72 None) (utc (ts72 None) 1972 6 30 23 59 (60 + (123456 # 1000000))) (write ps) = of_string "23:59:60.123456" /\
  utc_strftime lib (ts72 None) (utc (ts72 None) 1972 6 30 23 59 (605 # 10)) (of_string "%H:%M:%S") = of_string "00:00:00".
Proof.
  cbv zeta. split; [|split; [|split; vm_compute; reflexivity]].
  - split; [|split; [|split; [|split; [|split]]]]; try (intros H; cbn in H; intuition discriminate).
    + repeat (constructor; [cbn; try discriminate; try (split; [repeat constructor|reflexivity])|]). constructor.
    + cbn. apply le_n.
  - exists "f"%char. split; [left; reflexivity|]. do 3 right. left. reflexivity.
Qed.

(** * C114 *)
Theorem C114_nearest_minute_partial : forall ns base cut t usec instant,
  utc_rounding ns base cut Minute t usec instant ->
  exists J m b, shown_minute cut t J m /\ minute_begins ns base J m b /\
    (ends_in_leap ns J && (m =? 1439)%Z = false ->
     forall J' m' b', minute_begins ns base J' m' b' -> Qabs (instant - b) <= Qabs (instant - b')).
Proof. exact nearest_minute. Qed.
Print Assumptions C114_nearest_minute_partial.
Theorem C114_long_minutes_refuted : exists f usec, built (ts72 None) t_61 /\
  (forall show, standard show -> utc_strftime show (ts72 None) t_61 (of_string "%H:%M") =
     expected show f usec [Dir [] "H"; Lit ":"; Dir [] "M"]%char) /\
  exists J m b J' m' b', shown_minute None f J m /\ minute_begins ns72 10 J m b /\
    minute_begins ns72 10 J' m' b' /\ Qabs (tai_instant t_61 - b') < Qabs (tai_instant t_61 - b).
Proof. exact long_minute. Qed.
Print Assumptions C114_long_minutes_refuted.
Example C114_ex :
  utc_strftime lib (ts72 None) t_61 (of_string "%H:%M") = of_string "23:59" /\
  utc_strftime lib (ts72 None) (utc (ts72 None) 1972 6 30 22 59 30) (of_string "%H:%M") = of_string "23:00".
Proof. split; vm_compute; reflexivity. Qed.

(** * C115 *)
Theorem C115_scale_text_partial : forall show cut ps jd fraction,
  standard show -> good_cutoff cut -> covered ps ->
  exists f usec, scale_strftime show cut (write ps) jd fraction = expected show f usec ps /\
    clock_in_range f /\ exists_under cut (tm_year f, tm_mon f, tm_mday f) /\
    (forall u, smallest_unit ps u -> scale_rounding cut u f usec ((jd + fraction) * 86400)) /\
    (0 <= jd + fraction + (1 # 2) ->
     tm_wday f = (civil_day_number cut (tm_year f, tm_mon f, tm_mday f) mod 7)%Z) /\
    (In "j"%char (letters ps) -> exists_under cut (tm_year f, 1%Z, 1%Z) ->
     tm_yday f = (civil_day_number cut (tm_year f, tm_mon f, tm_mday f)
                  - civil_day_number cut (tm_year f, 1%Z, 1%Z) + 1)%Z).
Proof. exact scale_text. Qed.
Print Assumptions C115_scale_text_partial.
Theorem C115_tai_and_tt_text_partial : forall show ns base cut ts ps t,
  standard show -> timescale_for ns base cut ts -> good_cutoff cut -> built ts t -> covered ps ->
  text_says show cut ps (tai_strftime show ts t (write ps)) (tai_instant t) /\
  text_says show cut ps (tt_strftime show ts t (write ps)) (tai_instant t + (32184 # 1000)).
Proof. exact tai_tt_text. Qed.
Print Assumptions C115_tai_and_tt_text_partial.
Theorem C115_weeks_refuted : exists jd fraction f,
  exists_under None (tm_year f, tm_mon f, tm_mday f) /\ clock_in_range f /\ day_fields None f /\
  inject_Z (scale_second None f) == (jd + fraction) * 86400 /\
  forall show, prints_weeks show ->
    scale_strftime show None (of_string "%U") jd fraction = ["0"; "0"]%char /\
    expected show f 0 [Dir [] "U"%char] = ["2"; "6"]%char.
Proof. exact weeks_wrong. Qed.
Print Assumptions C115_weeks_refuted.
Example C115_ex :
  scale_strftime lib None (of_string "%H:%M:%S") 2451545 (1 # 4) = of_string "18:00:00" /\
  scale_strftime lib None (of_string "%H:%M:%S") 2451545 ((1 # 2) - (1 # 864000)) = of_string "00:00:00" /\
  scale_strftime lib None (of_string "%H:%M") 2451545 (29 # 86400) = of_string "12:00".
Proof. repeat split; vm_compute; reflexivity. Qed.

(** * C116 *)
Theorem C116_calendar_denotes_the_time : forall jd fraction cut, good_cutoff cut ->
  let '(y, m, d, h, mi, s) := calendar_tuple jd fraction cut in
  exists_under cut (y, m, d) /\ (0 <= h <= 23)%Z /\ (0 <= mi <= 59)%Z /\ 0 <= s < 60 /\
  jd + fraction == inject_Z (civil_day_number cut (y, m, d)) - (1 # 2)
                   + (inject_Z h * 3600 + inject_Z mi * 60 + s) / 86400.
Proof. exact calendar_tuple_denotes. Qed.
Print Assumptions C116_calendar_denotes_the_time.
Theorem C116_tai_and_tt_calendars : forall ns base cut ts t,
  timescale_for ns base cut ts -> good_cutoff cut -> built ts t ->
  tuple_says cut (tai_calendar ts t) (tai_instant t) /\
  tuple_says cut (tt_calendar ts t) (tai_instant t + (32184 # 1000)).
Proof. exact tai_tt_calendar. Qed.
Print Assumptions C116_tai_and_tt_calendars.
Theorem C116_calendar_roundtrip : forall cut y m d h mi s, good_cutoff cut ->
  exists_under cut (y, m, d) -> (0 <= h <= 23)%Z -> (0 <= mi <= 59)%Z -> 0 <= s < 60 ->
  let '(w, f) := jd_parts cut y m d (inject_Z h) (inject_Z mi) s in
  let '(y', m', d', h', mi', s') := calendar_tuple w f cut in
  (y', m', d', h', mi') = (y, m, d, h, mi) /\ s' == s.
Proof. exact calendar_tuple_roundtrip. Qed.
Print Assumptions C116_calendar_roundtrip.
Example C116_ex :
  let '(y, m, d, h, mi, s) := calendar_tuple (2451545 - (1 # 2)) ((3600 + 120 + (1 # 2)) / 86400) None in
  (y, m, d, h, mi) = (2000, 1, 1, 1, 2)%Z /\ s == 1 # 2 /\ exists_under (Some GREGORIAN_START) (1582, 10, 15)%Z.
Proof. vm_compute. repeat split. right. split; [reflexivity|discriminate]. Qed.
