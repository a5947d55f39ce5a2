(** Properties of names, reports and date ranges of kernels. *)
From Coq Require Import ZArith QArith Qround Bool String Ascii List.
From Verif Require Import PyNum Cal_Model Cal_Spec Time_Model Time_Spec Kernel_Model Kernel_Spec Kernel_Proofs.
Import ListNotations.
Open Scope Z_scope.

Definition some_pairs : pairs :=
  [(0, list_ascii_of_string "SSB"); (4, list_ascii_of_string "MARS_BARYCENTER"); (4, list_ascii_of_string "MARS BARYCENTER");
   (499, list_ascii_of_string "MARS")].

(** * C117 *)
Theorem C117_membership_is_decoding : forall ps segs a,
  contains ps segs a = true <-> exists c, decode ps segs a = Found c.
Proof. exact contains_decode. Qed.
Print Assumptions C117_membership_is_decoding.
Theorem C117_decode_finds_what_is_there : forall ps segs a c, decode ps segs a = Found c ->
  present segs c /\ match a with Code k => k = c | Name n => In (c, upper n) ps end.
Proof. exact decode_found. Qed.
Print Assumptions C117_decode_finds_what_is_there.
Theorem C117_decode_rejects_only_unknown_names : forall ps segs a, decode ps segs a = UnknownName <->
  match a with Code _ => False | Name n => forall c, ~ In (c, upper n) ps end.
Proof. exact decode_unknown. Qed.
Print Assumptions C117_decode_rejects_only_unknown_names.
Theorem C117_case_does_not_matter : forall ps segs m n, upper m = upper n ->
  decode ps segs (Name m) = decode ps segs (Name n).
Proof. exact decode_case. Qed.
Print Assumptions C117_case_does_not_matter.
Theorem C117_names_lists_the_table : forall ps segs c n,
  (exists l, dict_get (names ps segs) c = Some l /\ In n l) <-> (present segs c /\ In (c, n) ps).
Proof. exact names_iff. Qed.
Print Assumptions C117_names_lists_the_table.
Theorem C117_names_has_each_body_once : forall ps segs, NoDup (map fst (names ps segs)).
Proof. exact names_keys. Qed.
Print Assumptions C117_names_has_each_body_once.
Theorem C117_listed_names_decode : forall ps segs c n l, unambiguous ps ->
  dict_get (names ps segs) c = Some l -> In n l -> upper n = n -> decode ps segs (Name n) = Found c.
Proof. exact names_decode. Qed.
Print Assumptions C117_listed_names_decode.
Theorem C117_decoded_names_are_listed : forall ps segs n c, decode ps segs (Name n) = Found c ->
  exists l, dict_get (names ps segs) c = Some l /\ In (upper n) l.
Proof. exact decode_names. Qed.
Print Assumptions C117_decoded_names_are_listed.
Theorem C117_last_name_is_displayed : forall ps segs c l, dict_get (names ps segs) c = Some l ->
  code_name ps c = Some (last l []) /\ l <> [].
Proof. exact names_last. Qed.
Print Assumptions C117_last_name_is_displayed.
Theorem C117_closed_kernels_are_empty : forall ps segs a c, decode ps (close segs) a <> Found c /\
  contains ps (close segs) a = false /\ names ps (close segs) = [] /\ kernel_str (close segs) = [].
Proof. exact closed_empty. Qed.
Print Assumptions C117_closed_kernels_are_empty.
Example C117_ex :
  unambiguous some_pairs /\
  decode some_pairs [de421] (Name (list_ascii_of_string "Mars Barycenter")) = Found 4 /\
  decode some_pairs [de421] (Name (list_ascii_of_string "mars")) = MissingTarget /\
  decode some_pairs [de421] (Name (list_ascii_of_string "marz")) = UnknownName /\
  decode some_pairs [de421] (Code 0) = Found 0 /\
  dict_get (names some_pairs [de421]) 4 = Some [list_ascii_of_string "MARS_BARYCENTER"; list_ascii_of_string "MARS BARYCENTER"].
Proof.
  split; [|repeat split; vm_compute; reflexivity].
  intros c c' n H H'. cbn in H, H'.
  repeat match goal with H : _ \/ _ |- _ => destruct H as [H|H] | H : False |- _ => destruct H end; congruence.
Qed.

(** * C118 *)
Theorem C118_report_reads_back : forall segs,
  Forall2 (read_ok printed_date) segs (read_report (kernel_str segs) None None).
Proof. exact kernel_str_read. Qed.
Print Assumptions C118_report_reads_back.
Theorem C118_report_dates_partial : forall jd, (0 <= jd)%Q -> (jd - inject_Z (Qfloor jd) < 1 # 2)%Q ->
  printed_date jd = tdb_date None jd.
Proof. exact printed_date_ok. Qed.
Print Assumptions C118_report_dates_partial.
Theorem C118_report_is_a_day_early_refuted : forall jd, (0 <= jd)%Q -> (1 # 2 <= jd - inject_Z (Qfloor jd))%Q ->
  exists J, printed_date jd = compute_calendar_date J None /\ tdb_date None jd = compute_calendar_date (J + 1) None.
Proof. exact printed_date_late. Qed.
Print Assumptions C118_report_is_a_day_early_refuted.
Theorem C118_de421_refuted : exists r, kernel_str [de421] = [FileLine true 0; r; SegLine 0 4] /\
  r = RangeLine (4829729 # 2) (4942369 # 2) (1899, 7, 28) (2053, 10, 8) /\
  tdb_date None (4829729 # 2) = (1899, 7, 29) /\ tdb_date None (4942369 # 2) = (2053, 10, 9).
Proof. exact de421_report. Qed.
Print Assumptions C118_de421_refuted.
Example C118_ex :
  let s := {| k_center := 0; k_target := 3; k_start := 2414864; k_end := 4942369 # 2; k_type := 2; k_file := 1 |} in
  (0 <= 2414864)%Q /\ (2414864 - inject_Z (Qfloor 2414864) < 1 # 2)%Q /\ printed_date 2414864 = (1899, 7, 28) /\
  kernel_str [de421; de421; s] = kernel_str [de421] ++ [SegLine 0 4; FileLine false 1;
    RangeLine 2414864 (4942369 # 2) (1899, 7, 28) (2053, 10, 8); SegLine 0 3].
Proof. repeat split; vm_compute; (reflexivity || discriminate). Qed.

(** * C119 *)
Theorem C119_range_error_dates_partial : forall cut (s : kseg) (A : Type), good_cutoff cut -> k_type s = 2 ->
  exists a b, @seg_at A cut s OutOfRange = Some (EphemerisRangeError a b (k_start s) (k_end s)) /\
    forall d jd, In (d, jd) [(a, k_start s); (b, k_end s)] -> exists_under cut d /\
      (inject_Z (civil_day_number cut d) - (1 # 2) <= jd /\ jd < inject_Z (civil_day_number cut d) + (1 # 2))%Q.
Proof. exact range_error. Qed.
Print Assumptions C119_range_error_dates_partial.
Theorem C119_type3_refuted : exists s : kseg, k_type s = 3 /\
  forall cut A, @seg_at A cut s OutOfRange = Some RawOutOfRangeError.
Proof. exact type3_range. Qed.
Print Assumptions C119_type3_refuted.
Example C119_ex : good_cutoff None /\ k_type de421 = 2 /\
  @seg_at Z None de421 OutOfRange = Some (EphemerisRangeError (1899, 7, 29) (2053, 10, 9) (4829729 # 2) (4942369 # 2)).
Proof. repeat split; vm_compute; reflexivity. Qed.
