(** Property theorems C35-C40: downloads, the loader, TLE files, text kernels. *)
From Coq Require Import List Ascii String Arith Bool Lia.
From Verif Require Import Download_Model Download_Spec Download_Proofs Files_Model Files_Spec Files_Proofs.
Import ListNotations.
Open Scope list_scope.

(** * C35 *)
(** The statement is for all failures. The theorem takes a connection that
    delivers the whole body or raises; the refutation has the other case. *)
Theorem C35_no_partial_file_partial : forall path c fs0 fs s,
  sane fs0 -> backup c = false -> alone true path c (fs0, Start) (fs, s) ->
  (content_of fs path = content_of fs0 path \/ content_of fs path = Some (body c)) /\
  (s = Done -> content_of fs path = Some (body c)).
Proof. exact one_download. Qed.
Print Assumptions C35_no_partial_file_partial.
Example C35_ex : sane demo_fs /\ exists fs, alone true demo_path {| body := chars "new"; backup := false |} (demo_fs, Start) (fs, Done) /\
  content_of demo_fs demo_path = Some (chars "old") /\ content_of fs demo_path = Some (chars "new").
Proof.
  split; [exact demo_sane|]. eexists. split.
  - eapply alone_cons; [apply s_connect|]. eapply alone_cons; [apply s_claim; reflexivity|].
    eapply alone_cons; [apply (s_read true _ _ _ _ _ (chars "n") (chars "ew")); discriminate|].
    eapply alone_cons; [apply (s_read true _ _ _ _ _ (chars "ew") []); discriminate|].
    eapply alone_cons; [apply s_eof; reflexivity|]. eapply alone_cons; [apply s_no_backup; reflexivity|].
    eapply alone_cons; [apply s_replace; reflexivity|]. constructor.
  - split; reflexivity.
Qed.
(** A connection that ends early without an error: the length is never checked. *)
Theorem C35_truncated_file_is_installed_refuted : exists path c fs0 fs,
  sane fs0 /\ backup c = false /\ alone false path c (fs0, Start) (fs, Done) /\
  content_of fs path <> content_of fs0 path /\ content_of fs path <> Some (body c).
Proof. exact truncated. Qed.
Print Assumptions C35_truncated_file_is_installed_refuted.

(** * C36 *)
Theorem C36_each_process_owns_its_temporary_file : forall path calls fs0 fs s,
  sane fs0 -> run true path calls (fs0, idle) (fs, s) ->
  (content_of fs path = content_of fs0 path \/ (exists i, s i = Done /\ content_of fs path = Some (body (calls i))) \/
   (content_of fs path = None /\ exists i, backup (calls i) = true)) /\
  (forall i j t u, i <> j -> held (s i) = Some t -> held (s j) = Some u -> t <> u) /\
  (forall i t, held (s i) = Some t ->
    t <> path /\ exists done left, content_of fs t = Some done /\ done ++ left = body (calls i)) /\
  ((forall i, backup (calls i) = false) -> forall i, s i = Done ->
    exists j, s j = Done /\ content_of fs path = Some (body (calls j))).
Proof. exact many_downloads. Qed.
Print Assumptions C36_each_process_owns_its_temporary_file.
(** The statement does not exclude backups; with one there is an instant without
    any file, see the refutation. *)
Theorem C36_destination_is_whole_partial : forall path calls fs0 fs s,
  sane fs0 -> (forall i, backup (calls i) = false) -> run true path calls (fs0, idle) (fs, s) ->
  content_of fs path = content_of fs0 path \/ exists i, s i = Done /\ content_of fs path = Some (body (calls i)).
Proof. exact many_downloads_no_backup. Qed.
Print Assumptions C36_destination_is_whole_partial.
Theorem C36_a_temporary_name_is_found : forall fs path (names : list name),
  (forall n, dir fs n <> None -> In n names) ->
  exists i, 1 <= i <= S (List.length names) /\ exists_ fs (temp_name path i) = false.
Proof. exact some_temp_free. Qed.
Print Assumptions C36_a_temporary_name_is_found.
Example C36_ex : sane demo_fs /\ exists fs s, run true demo_path race_calls (demo_fs, idle) (fs, s) /\
  held (s 0) = Some (chars "a.b.download") /\ held (s 1) = Some (chars "a.b.download2").
Proof.
  split; [exact demo_sane|]. eexists. eexists. split.
  - eapply (run_cons _ _ _ _ _ 0); [apply s_connect|]. eapply (run_cons _ _ _ _ _ 0); [apply s_claim; reflexivity|].
    eapply (run_cons _ _ _ _ _ 1); [apply s_connect|]. eapply (run_cons _ _ _ _ _ 1); [apply s_claim_taken; reflexivity|].
    eapply (run_cons _ _ _ _ _ 1); [apply s_claim; reflexivity|]. constructor.
  - split; reflexivity.
Qed.
Theorem C36_backup_leaves_a_moment_without_a_file_refuted : exists path c fs0 fs s,
  sane fs0 /\ backup c = true /\ content_of fs0 path <> None /\
  alone true path c (fs0, Start) (fs, s) /\ content_of fs path = None.
Proof. exact window. Qed.
Print Assumptions C36_backup_leaves_a_moment_without_a_file_refuted.

(** * C37 *)
(** The statement is for all schedules. The theorems are for downloads that do
    not overlap, each stopped anywhere. *)
Theorem C37_backup_keeps_the_previous_file_partial : forall honest path c fs0 fs s,
  sane fs0 -> backup c = true -> alone honest path c (fs0, Start) (fs, s) ->
  (forall v, content_of fs0 path = Some v -> available fs path v) /\
  (forall m v, m <> path -> content_of fs0 m = Some v -> content_of fs m = Some v) /\
  (s = Done -> forall v, content_of fs0 path = Some v ->
    exists n b, backup_name path n = Some b /\ content_of fs b = Some v).
Proof. exact backup_alone. Qed.
Print Assumptions C37_backup_keeps_the_previous_file_partial.
Theorem C37_every_version_survives_partial : forall honest path fs0 cs fs,
  sane fs0 -> (forall c, In c cs -> backup c = true) -> in_turn honest path fs0 cs fs ->
  sane fs /\ (forall v, available fs0 path v -> available fs path v).
Proof. exact backup_in_turn. Qed.
Print Assumptions C37_every_version_survives_partial.
Example C37_ex : sane demo_fs /\ exists fs s, alone true demo_path {| body := chars "n"; backup := true |} (demo_fs, Start) (fs, s) /\
  content_of fs demo_path = None /\ content_of fs (chars "a.old1.b") = Some (chars "old").
Proof.
  split; [exact demo_sane|]. eexists. eexists. split.
  - eapply alone_cons; [apply s_connect|]. eapply alone_cons; [apply s_claim; reflexivity|].
    eapply alone_cons; [apply (s_read true _ _ _ _ _ (chars "n") []); discriminate|].
    eapply alone_cons; [apply s_eof; reflexivity|]. eapply alone_cons; [apply s_backup; reflexivity|].
    eapply alone_cons; [eapply s_backup_free; reflexivity|]. eapply alone_cons; [apply s_move; reflexivity|]. constructor.
  - split; reflexivity.
Qed.
Theorem C37_two_backups_race_refuted : exists path calls fs0 fs s v,
  sane fs0 /\ (forall i, backup (calls i) = true) /\ content_of fs0 path = Some v /\
  run true path calls (fs0, idle) (fs, s) /\ s 0 = Done /\ s 1 = Done /\ forall n, content_of fs n <> Some v.
Proof. exact race. Qed.
Print Assumptions C37_two_backups_race_refuted.

(** * C38 *)
(** The statement is for all names. The theorem leaves out names that are
    themselves keys of a pattern list, such as ".bsp"; see the refutation. *)
Theorem C38_loader_decisions_partial : forall (P O : Type) (L : loader P O) exists_path f reload net r,
  contains (chars "://") f = false -> ordinary L f ->
  call_loader L exists_path f reload false = (net, r) ->
  (net <> [] <-> known L f /\ search (urls L) f <> None /\ (exists_path (path_to L f) = false \/ reload = true)) /\
  (forall u p, In (u, p) net -> net = [(u, p)] /\ p = path_to L f /\ u <> None) /\
  (known L f -> exists_path (path_to L f) = true -> reload = false -> net = [] /\ r <> Raised) /\
  (known L f -> net <> [] -> r <> Raised) /\
  (~ known L f -> net = [] /\ r = Raised) /\
  (search (urls L) f = None -> exists_path (path_to L f) = false \/ reload = true -> net = [] /\ r = Raised).
Proof. exact @call_ok. Qed.
Print Assumptions C38_loader_decisions_partial.
Example C38_ex : let L := standard (chars "d") in
  ordinary L (chars "de421.bsp") /\ known L (chars "de421.bsp") /\ search (urls L) (chars "de421.bsp") <> None /\
  call_loader L (fun _ => false) (chars "de421.bsp") false false =
    ([(Some (chars "https://ssd.jpl.nasa.gov/de421.bsp"), chars "d/de421.bsp")], BuiltWith (chars "SpiceKernel") (chars "d/de421.bsp")) /\
  call_loader L (fun _ => true) (chars "de421.bsp") false false = ([], BuiltWith (chars "SpiceKernel") (chars "d/de421.bsp")).
Proof.
  cbn zeta. split; [split; [|split]; intros l E; vm_compute in E; discriminate|].
  split; [right; vm_compute; discriminate|]. split; [vm_compute; discriminate|]. split; reflexivity.
Qed.
Theorem C38_urls : forall (P O : Type) (L : loader P O) exists_path url reload net r,
  contains (chars "://") url = true -> known L (url_filename url) -> ordinary L (url_filename url) ->
  call_loader L exists_path url reload false = (net, r) ->
  let path := path_to L (url_filename url) in
  r <> Raised /\ (net <> [] <-> exists_path path = false \/ reload = true) /\ (net <> [] -> net = [(Some url, path)]).
Proof. exact @call_url. Qed.
Print Assumptions C38_urls.
Theorem C38_unknown_url : forall (P O : Type) (L : loader P O) exists_path url reload builtin,
  contains (chars "://") url = true -> ~ known L (url_filename url) ->
  call_loader L exists_path url reload builtin = ([], Raised).
Proof. exact @call_url_unknown. Qed.
Print Assumptions C38_unknown_url.
Theorem C38_builtin_needs_no_network : forall (P O : Type) (L : loader P O) exists_path f reload net r,
  call_loader L exists_path f reload true = (net, r) -> net = [].
Proof. exact @call_builtin. Qed.
Print Assumptions C38_builtin_needs_no_network.
Theorem C38_open : forall (P O : Type) (L : loader P O) exists_path url reload net r filename,
  contains (chars "://") url = true -> open_loader L exists_path url filename reload = (net, r) ->
  let path := path_to L (match filename with Some f => f | None => url_filename url end) in
  r = Opened path /\
  (net <> [] <-> exists_path path = false \/ reload = true) /\ (net <> [] -> net = [(Some url, path)]).
Proof. exact @open_ok. Qed.
Print Assumptions C38_open.
Theorem C38_open_local_needs_no_network : forall (P O : Type) (L : loader P O) exists_path url reload filename net r,
  contains (chars "://") url = false -> open_loader L exists_path url filename reload = (net, r) -> net = [].
Proof. exact @open_local. Qed.
Print Assumptions C38_open_local_needs_no_network.
Theorem C38_last_component_of_the_path : forall scheme host dirs last params query,
  plain_part ":" scheme -> plain_part "/?#" host -> plain_part "?#" dirs -> (dirs = [] \/ exists d, dirs = slash :: d) ->
  plain_part "/?#;" last ->
  (params = [] \/ exists p, params = ";"%char :: p /\ plain_part "/?#" p) ->
  (query = [] \/ exists c q, query = c :: q /\ (c = "?" \/ c = "#")%char) ->
  url_filename (scheme ++ chars "://" ++ host ++ dirs ++ chars "/" ++ last ++ params ++ query) = last.
Proof. exact url_last. Qed.
Print Assumptions C38_last_component_of_the_path.
Example C38_url_ex : url_filename (chars "https://h.org/a/b/gp.php?F=x/y#z") = chars "gp.php".
Proof.
  apply (C38_last_component_of_the_path (chars "https") (chars "h.org") (chars "/a/b") (chars "gp.php") [] (chars "?F=x/y#z"));
  try (intros c H; cbn in H; cbn; intuition (subst; discriminate)).
  - right. exists (chars "a/b"). reflexivity.
  - left. reflexivity.
  - right. exists "?"%char, (chars "F=x/y#z"). split; [reflexivity|left; reflexivity].
Qed.
Theorem C38_extension_as_name_refuted : exists f net,
  contains (chars "://") f = false /\
  call_loader (standard (chars "d")) (fun _ => false) f false false = (net, Raised) /\ net <> [].
Proof. exact extension_name. Qed.
Print Assumptions C38_extension_as_name_refuted.

(** * C39 *)
Theorem C39_element_sets : forall skip_names lines, parse_tle_file lines skip_names = element_sets skip_names lines.
Proof. exact tle_ok. Qed.
Print Assumptions C39_element_sets.
Example C39_ex : let l1 := chars "1 " ++ repeat "x"%char 67 in let l2 := chars "2 " ++ repeat "y"%char 67 in
  element_sets false [chars "noise"; chars "0 ISS  "; l1; l2; l1; l2; l2; chars "B"; l1] = [(Some (chars "ISS"), l1, l2); (None, l1, l2)].
Proof. reflexivity. Qed.

(** * C40 *)
(** The statement is for all sequences of assignments. The theorems leave out an
    append to a variable that holds a single value; see the refutation. *)
Theorem C40_last_assignment_then_appends_partial : forall V (pre : list (name * equals * list V)) n vs post vars,
  no_assign n post -> (List.length vs <> 1 \/ ~ In n (map names post)) ->
  as_list (load vars (pre ++ (n, Assign, vs) :: post) n) = vs ++ appended n post.
Proof. exact load_assigned. Qed.
Print Assumptions C40_last_assignment_then_appends_partial.
Theorem C40_only_appends_partial : forall V (l : list (name * equals * list V)) vars n,
  no_assign n l -> (~ is_scalar (vars n) \/ ~ In n (map names l)) ->
  as_list (load vars l n) = as_list (vars n) ++ appended n l.
Proof. exact load_appends. Qed.
Print Assumptions C40_only_appends_partial.
Theorem C40_others_untouched : forall V (l : list (name * equals * list V)) vars n,
  (forall a, In a l -> names a <> n) -> load vars l n = vars n.
Proof. exact load_other. Qed.
Print Assumptions C40_others_untouched.
Theorem C40_append_to_a_single_value_refuted : forall V (x y : V), exists (vars : variables V) l n,
  no_assign n l /\ as_list (load vars l n) <> as_list (vars n) ++ appended n l.
Proof. exact scalar_append_lost. Qed.
Print Assumptions C40_append_to_a_single_value_refuted.
Theorem C40_tokens_read_back : forall ts, (forall t, In t ts -> clean_token t) -> tokens_of (spaced_line ts) = ts.
Proof. exact tokens_spaced. Qed.
Print Assumptions C40_tokens_read_back.
Theorem C40_kernel_text_partial : forall V (evaluate : name -> V) (l : list (name * equals * list name)) vars,
  (forall t, In t (flat_map show l) -> clean_token t) ->
  (forall n e vs v, In (n, e, vs) l -> In v vs -> plain_value v) ->
  exists as_, parse_assignments evaluate (List.length l) (tokens_of (spaced_line (flat_map show l))) = Some as_ /\
    as_ = map (fun a => (fst a, map evaluate (snd a))) l /\
    forall pre n vs post, l = pre ++ (n, Assign, vs) :: post -> no_assign n post ->
      (List.length vs <> 1 \/ ~ In n (map names post)) ->
      as_list (load vars as_ n) = map evaluate (vs ++ appended n post).
Proof. exact @kernel_text. Qed.
Print Assumptions C40_kernel_text_partial.
Example C40_ex :
  tokens_of (chars "BODY_RADII = ( 6378.1 6378.1 ) BODY_RADII += 6356.7 ") =
    flat_map show [(chars "BODY_RADII", Assign, [chars "6378.1"; chars "6378.1"]); (chars "BODY_RADII", Append, [chars "6356.7"])] /\
  (forall t, In t [chars "BODY_RADII"; chars "+="; chars "6356.7"] -> clean_token t).
Proof.
  split; [reflexivity|]. intros t [<-|[<-|[<-|[]]]].
  - apply clean_name_token; [apply letters_in; reflexivity|intros x Hx; apply in_all with (2 := Hx); reflexivity].
  - apply (clean_equals Append).
  - apply clean_number; [apply letters_in; reflexivity|intros x Hx; apply out_all with (2 := Hx); reflexivity].
Qed.
Theorem C40_single_letter_name_refuted : exists n v,
  In n letters /\ clean_token v /\ tokens_of ([n] ++ chars "=" ++ v) <> [[n]; chars "="; v].
Proof. exact single_letter_glued. Qed.
Print Assumptions C40_single_letter_name_refuted.
