(** Formats for which the text is not what it should be. *)
From Coq Require Import ZArith QArith Qround Bool String Ascii List Lia Lqa.
From Verif Require Import PyNum Cal_Model Cal_Spec Time_Model Time_Spec Format_Model Format_Spec Format_Proofs Format_Proofs2.
Import ListNotations.
Open Scope Q_scope.

Definition ns72 : list Z := [2441500; 2441684]%Z.
Definition ts72 (cut : option Z) : timescale :=
  build_tables (map fin (leap_dates_of ns72)) (leap_offsets_of ns72 10) cut.
Lemma ts72_for cut : timescale_for ns72 10 cut (ts72 cut).
Proof. split; [cbn; repeat split|reflexivity]. Qed.

Lemma percent_misread : exists ps, Forall proper ps /\
  forall show ts t f usec, standard show ->
    utc_strftime show ts t (write ps) <> expected show f usec ps.
Proof.
  exists [Dir [] "%"%char; Lit "f"%char]. split.
  - constructor; [split; [constructor|reflexivity]|]. constructor; [discriminate|constructor].
  - intros show ts t f usec (S1 & _). unfold utc_strftime.
    change (strftime_offset_seconds (write [Dir [] "%"%char; Lit "f"%char])) with (1 # 10000000000000000, Some (1, 3)%nat).
    cbv beta iota. unfold strftime. cbv beta iota zeta.
    change (put_zone _ _) with ["%"; "%"; "Z"]%char. unfold c_strftime.
    change (parse None ["%"; "%"; "Z"]%char) with [Dir [] "%"%char; Lit "Z"%char].
    cbn [flat_map]. rewrite S1. cbn. discriminate.
Qed.

Lemma second_f_lost : exists ps, Forall proper ps /\ ~ In "%"%char (letters ps) /\
  forall show ts t f usec, standard show -> (forall t, show t [] "f"%char = ["%"; "f"]%char) ->
    utc_strftime show ts t (write ps) <> expected show f usec ps.
Proof.
  exists [Dir [] "f"%char; Dir [] "f"%char]. split; [|split].
  - repeat (constructor; [split; [constructor|reflexivity]|]). constructor.
  - intros [H|[H|[]]]; discriminate.
  - intros show ts t f usec (_ & S2 & _) Hf. unfold utc_strftime.
    change (strftime_offset_seconds (write _)) with (1 # 10000000000000000, Some (0, 2)%nat).
    cbv beta iota. unfold strftime. cbv beta iota zeta.
    change (put_zone _ _) with ["%"; "Z"; "%"; "f"]%char. unfold c_strftime.
    change (parse None _) with [Dir [] "Z"%char; Dir [] "f"%char].
    unfold expected. cbn [flat_map Ascii.eqb Bool.eqb]. rewrite S2, Hf. cbn [tm_zone].
    intros E. apply (f_equal (@length ascii)) in E. rewrite !app_length in E. cbn in E. discriminate.
Qed.

(** [%r] shows seconds but does not round them. *)
Definition t_r : time := utc (ts72 None) 1973 1 1 12 0 (9 # 10).
Definition f_r : tm := {| tm_year := 1973; tm_mon := 1; tm_mday := 1; tm_hour := 12; tm_min := 0; tm_sec := 1;
                          tm_wday := 0; tm_yday := 1; tm_zone := [] |}.
Lemma r_not_rounded : exists ps f, Forall proper ps /\ smallest_unit ps Second /\
  built (ts72 None) t_r /\ utc_rounding ns72 10 None Second f 0 (tai_instant t_r) /\ day_fields None f /\
  forall show, prints_r show -> utc_strftime show (ts72 None) t_r (write ps) <> expected show f 0 ps.
Proof.
  exists [Dir [] "r"%char], f_r. split; [|split; [|split; [|split; [|split]]]].
  - constructor; [split; [constructor|reflexivity]|constructor].
  - split; [intros (c & Hc & Hi); destruct Hc as [<-|[]]; destruct Hi as [E|[]]; discriminate|].
    exists "r"%char. split; [do 4 right; left; reflexivity|left; reflexivity].
  - apply built_utc.
  - exists (inject_Z (tai_second ns72 10 2441684 43201)). split.
    + exists 2441684%Z, 43201%Z. vm_compute. repeat split; try discriminate; reflexivity.
    + split; [exists (tai_second ns72 10 2441684 43201); vm_compute; reflexivity|]. vm_compute. split; [discriminate|reflexivity].
  - vm_compute. split; [reflexivity|]. intros _. reflexivity.
  - intros show Hr. unfold utc_strftime.
    change (strftime_offset_seconds (write _)) with (0, @None (nat * nat)).
    cbv beta iota. unfold strftime, c_strftime.
    change (parse None (write [Dir [] "r"%char])) with [Dir [] "r"%char].
    unfold expected. cbn [flat_map Ascii.eqb Bool.eqb]. rewrite !app_nil_r. intros E. apply Hr in E.
    vm_compute in E. discriminate.
Qed.

(** In a minute of 61 seconds the minute shown is not always the nearest. *)
Definition t_61 : time := utc (ts72 None) 1972 6 30 23 59 (307 # 10).
Lemma long_minute : exists f usec, built (ts72 None) t_61 /\
  (forall show, standard show -> utc_strftime show (ts72 None) t_61 (of_string "%H:%M") =
     expected show f usec [Dir [] "H"; Lit ":"; Dir [] "M"]%char) /\
  exists J m b J' m' b', shown_minute None f J m /\ minute_begins ns72 10 J m b /\
    minute_begins ns72 10 J' m' b' /\
    Qabs.Qabs (tai_instant t_61 - b') < Qabs.Qabs (tai_instant t_61 - b).
Proof.
  exists {| tm_year := 1972; tm_mon := 6; tm_mday := 30; tm_hour := 23; tm_min := 59; tm_sec := 60;
            tm_wday := 4; tm_yday := 182; tm_zone := [] |}, 0%Z.
  split; [apply built_utc|]. split.
  - intros show _. unfold utc_strftime.
    change (strftime_offset_seconds (of_string "%H:%M")) with (30, @None (nat * nat)).
    cbv beta iota. unfold strftime, c_strftime.
    change (parse None (of_string "%H:%M")) with [Dir [] "H"; Lit ":"; Dir [] "M"]%char.
    unfold expected. cbn [flat_map Ascii.eqb Bool.eqb].
    match goal with |- context [{| tm_year := ?a; tm_mon := ?b; tm_mday := ?c; tm_hour := ?d; tm_min := ?e; tm_sec := ?g;
       tm_wday := ?h; tm_yday := ?i; tm_zone := ?j |}] =>
      replace {| tm_year := a; tm_mon := b; tm_mday := c; tm_hour := d; tm_min := e; tm_sec := g;
       tm_wday := h; tm_yday := i; tm_zone := j |} with
       {| tm_year := 1972; tm_mon := 6; tm_mday := 30; tm_hour := 23; tm_min := 59; tm_sec := 60;
            tm_wday := 4; tm_yday := 182; tm_zone := [] |} by (vm_compute; reflexivity) end.
    reflexivity.
  - exists 2441499%Z, 1439%Z, (inject_Z (tai_second ns72 10 2441499 (60 * 1439))), 2441500%Z, 0%Z,
      (inject_Z (tai_second ns72 10 2441500 (60 * 0))).
    vm_compute. repeat split; try discriminate; reflexivity.
Qed.

(** The week of the year in scales other than UTC. *)
Lemma weeks_wrong : exists jd fraction f,
  exists_under None (tm_year f, tm_mon f, tm_mday f) /\ clock_in_range f /\ day_fields None f /\
  inject_Z (scale_second None f) == (jd + fraction) * 86400 /\
  forall show, prints_weeks show ->
    scale_strftime show None (of_string "%U") jd fraction = ["0"; "0"]%char /\
    expected show f 0 [Dir [] "U"%char] = ["2"; "6"]%char.
Proof.
  exists 2451727, 0, {| tm_year := 2000; tm_mon := 7; tm_mday := 1; tm_hour := 12; tm_min := 0; tm_sec := 0;
            tm_wday := 5; tm_yday := 183; tm_zone := [] |}.
  split; [reflexivity|]. split; [vm_compute; repeat split; discriminate||reflexivity|].
  split; [vm_compute; repeat split; reflexivity|]. split; [vm_compute; reflexivity|].
  intros show Hw. split.
  - unfold scale_strftime.
    change (strftime_offset_seconds (of_string "%U")) with (0, @None (nat * nat)).
    change (format_uses_day_of_year (of_string "%U")) with (@None (nat * nat)).
    cbv beta iota zeta.
    destruct (calendar_tuple 2451727 (0 + 0 / DAY_S) None) as [[[[[y m] d] h] mi] s] eqn:E.
    vm_compute in E. injection E as <- <- <- <- <- <-.
    unfold strftime, c_strftime. change (parse None (of_string "%U")) with [Dir [] "U"%char].
    cbn [flat_map]. rewrite Hw. vm_compute. reflexivity.
  - unfold expected. cbn [flat_map Ascii.eqb Bool.eqb]. rewrite Hw. vm_compute. reflexivity.
Qed.
