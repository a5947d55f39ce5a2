(** C156-C158: the loader's methods, and the bundled Earth orientation arrays. *)
From Coq Require Import List Ascii String ZArith Reals Bool Lia Lra.
From Coq Require Import List.
From Flocq Require Import Core BinarySingleNaN.
From Verif Require Import Download_Model Files_Model Files_Spec Float64 Float64_Proofs SexaF_Spec SexaF_Proofs2 Loader_Model Loader_Spec Loader_Proofs Loader_Proofs2.
Import ListNotations.
Open Scope list_scope.

(** * C156 *)
Theorem C156_where_files_are : forall dir f u, build_url (new_loader dir) f = Some u <-> exists base, found_at f base /\ u = chars base ++ f.
Proof. exact sources. Qed.
Print Assumptions C156_where_files_are.
Example C156_ex : found_at (chars "de421.bsp") "https://ssd.jpl.nasa.gov/ftp/eph/planets/bsp/" /\ plain_name (chars "de421.bsp") /\ opened_with (chars "de421.bsp") OpenKernel.
Proof.
  assert (E : has_extension (chars ".bsp") (chars "de421.bsp")) by (exists [], (chars "de421"); split; [reflexivity|]; split; [left; reflexivity|]; split; [cbn; intros H; repeat (destruct H as [H|H]; [discriminate|]); exact H|]; exists "d"%char; split; [left; reflexivity|discriminate]).
  split; [apply at_jpl; [exact E|intros r; discriminate]|]. split; [|apply with_kernel; exact E].
  intros c Hc I. cbn [chars list_ascii_of_string In] in *. repeat (destruct Hc as [<-|Hc]; [repeat (destruct I as [I|I]; [discriminate|]); exact I|]). exact Hc.
Qed.
Theorem C156_what_is_done_with_a_file : forall dir ex f, contains (chars "://") f = false -> ex (path_to (new_loader dir) f) = true ->
  exists r, call_loader (new_loader dir) ex f false false = ([], r) /\
    (forall p q, r = ParsedWith p q <-> parsed_by f p /\ q = path_to (new_loader dir) f) /\
    (forall o q, r = BuiltWith o q <-> opened_with f o /\ q = path_to (new_loader dir) f) /\
    (r = Raised <-> (forall p, ~ parsed_by f p) /\ (forall o, ~ opened_with f o)).
Proof. exact call_existing. Qed.
Print Assumptions C156_what_is_done_with_a_file.
Theorem C156_every_way_asks_for_the_same_partial : forall dir ex f base, found_at f base -> plain_name f -> (exists p, parsed_by f p) \/ (exists o, opened_with f o) ->
  ex (path_to (new_loader dir) f) = false ->
  fst (call_loader (new_loader dir) ex f false false) = [(Some (chars base ++ f), path_to (new_loader dir) f)] /\
  fst (call_loader (new_loader dir) ex (chars base ++ f) false false) = [(Some (chars base ++ f), path_to (new_loader dir) f)] /\
  fst (open_loader (new_loader dir) ex (chars base ++ f) None false) = [(Some (chars base ++ f), path_to (new_loader dir) f)].
Proof. exact call_requests. Qed.
Print Assumptions C156_every_way_asks_for_the_same_partial.
Theorem C156_download_partial : forall dir f base, found_at f base -> plain_name f ->
  download_file (new_loader dir) f None = ([(chars base ++ f, path_to (new_loader dir) f)], Some (path_to (new_loader dir) f)).
Proof. exact download_plain. Qed.
Print Assumptions C156_download_partial.
Theorem C156_download_of_a_url : forall dir url filename, contains (chars "://") url = true ->
  let path := path_to (new_loader dir) (match filename with Some f => f | None => url_filename url end) in
  download_file (new_loader dir) url filename = ([(url, path)], Some path).
Proof. exact download_url. Qed.
Print Assumptions C156_download_of_a_url.
Example C156_download_url_ex : contains (chars "://") (chars "https://h/x.bsp") = true.
Proof. reflexivity. Qed.
Theorem C156_unknown_names_cause_no_request : forall dir f filename, contains (chars "://") f = false -> (forall base, ~ found_at f base) ->
  download_file (new_loader dir) f filename = ([], None).
Proof. exact download_unknown. Qed.
Print Assumptions C156_unknown_names_cause_no_request.
Example C156_unknown_ex : forall base, ~ found_at (chars "stations.txt") base.
Proof.
  intros base H. assert (E : build_url (new_loader []) (chars "stations.txt") = Some (chars base ++ chars "stations.txt")) by (apply C156_where_files_are; exists base; split; [exact H|reflexivity]).
  vm_compute in E. discriminate.
Qed.
Theorem C156_load_file : forall path, (has_extension (chars ".bsp") path -> load_file path = Some path) /\ (~ has_extension (chars ".bsp") path -> load_file path = None).
Proof. exact load_file_ok. Qed.
Print Assumptions C156_load_file.
Theorem C156_name_with_a_directory_refuted : exists dir f base, found_at f base /\ ~ plain_name f /\
  snd (download_file (new_loader dir) f None) <> Some (path_to (new_loader dir) f).
Proof. exact directories_differ. Qed.
Print Assumptions C156_name_with_a_directory_refuted.

(** * C157 *)
Theorem C157_builtin_reads_and_asks_for_nothing : forall dir ex delta_t,
  load_timescale (new_loader dir) ex delta_t true = ([], Some (Timescale (match delta_t with Some c => Constant c | None => TableOf Bundled end) Bundled)).
Proof. exact timescale_builtin. Qed.
Print Assumptions C157_builtin_reads_and_asks_for_nothing.
Theorem C157_old_files_are_used_without_a_download : forall dir ex delta_t, legacy_present dir ex ->
  let p f := path_to (new_loader dir) (chars f) in
  let s := LegacyFiles (p "deltat.data"%string) (p "deltat.preds"%string) (p "Leap_Second.dat"%string) in
  load_timescale (new_loader dir) ex delta_t false = ([], Some (Timescale (match delta_t with Some c => Constant c | None => TableOf s end) s)).
Proof. exact timescale_legacy. Qed.
Print Assumptions C157_old_files_are_used_without_a_download.
Example C157_ex : legacy_present (chars "d") (fun _ => true) /\ ~ legacy_present (chars "d") (fun _ => false).
Proof. split; [intros f _; reflexivity|]. intros H. discriminate (H "deltat.data"%string (or_introl eq_refl)). Qed.
Theorem C157_otherwise_finals2000A : forall dir ex delta_t, ~ legacy_present dir ex ->
  let path := path_to (new_loader dir) (chars "finals2000A.all") in
  let url := chars "https://datacenter.iers.org/products/eop/rapid/standard/finals2000A.all" in
  load_timescale (new_loader dir) ex delta_t false =
    (if ex path then [] else [(Some url, path)], Some (Timescale (match delta_t with Some c => Constant c | None => TableOf (FinalsFile path) end) (FinalsFile path))).
Proof. exact timescale_finals. Qed.
Print Assumptions C157_otherwise_finals2000A.

(** * C158 *)
Theorem C158_delta_t_is_restored : forall l, Forall seven_digits l -> bundled_delta_t (stored_delta_t l) = l.
Proof. exact delta_t_restored. Qed.
Print Assumptions C158_delta_t_is_restored.
Theorem C158_rounded_values_have_seven_digits : forall n x a, (0 < n < 2 ^ 50)%Z -> reads false x a -> (Rabs (x * 10000000 - IZR n) < 1 / 4)%R -> seven_digits (round7 a).
Proof. exact round7_seven. Qed.
Print Assumptions C158_rounded_values_have_seven_digits.
(** The rounding is to the nearest whole number, and halves go to the even one. *)
Theorem C158_rint : forall a : bf, is_finite a = true -> (Rabs (B2R a) <= 2 ^ 47)%R -> exists b : bf, frint (B2SF a) = B2SF b /\ is_finite b = true /\ B2R b = IZR (ZnearestE (B2R a)).
Proof. exact frint_even. Qed.
Print Assumptions C158_rint.
Example C158_rint_ex : exists a : bf, is_finite a = true /\ (Rabs (B2R a) <= 2 ^ 47)%R /\ B2R a = (-(1 / 2))%R. Proof. exact minus_half. Qed.
Theorem C158_dates_are_restored : forall l, Forall modern_date l -> (Z.of_nat (List.length l) <= 2 ^ 22)%Z -> bundled_tt (stored_tt l) = l.
Proof. exact tt_restored. Qed.
Print Assumptions C158_dates_are_restored.
Example C158_ex : Forall modern_date [of_Z 2441684; of_Z 2441685] /\ seven_digits (round7 (of_Z 43)).
Proof.
  split.
  - repeat constructor; eexists; (split; [apply of_Z_reads; lia|lra]).
  - apply (C158_rounded_values_have_seven_digits 430000000 43%R); [lia|apply of_Z_reads; lia|]. replace (43 * 10000000 - 430000000)%R with 0%R by ring. rewrite Rabs_R0. lra.
Qed.
