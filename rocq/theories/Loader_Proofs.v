From Coq Require Import List Ascii String ZArith Reals Bool Lia Lra.
From Coq Require Import List.
From Verif Require Import Download_Model Download_Proofs Files_Model Files_Spec Files_Proofs Loader_Model Loader_Spec.
Import ListNotations.
Open Scope list_scope.

(** * Extensions and patterns *)
Lemma last_dot : forall a b c d : name, ~ In dot b -> ~ In dot d -> a ++ dot :: b = c ++ dot :: d -> a = c /\ b = d.
Proof.
  induction a as [|x a IH]; intros b [|y c] d Hb Hd E; cbn in E.
  - injection E as ->. split; reflexivity.
  - injection E as E1 E. exfalso. apply Hb. rewrite E. apply in_or_app. right. left. reflexivity.
  - injection E as E1 E. exfalso. apply Hd. rewrite <- E. apply in_or_app. right. left. reflexivity.
  - injection E as -> E. destruct (IH b c d Hb Hd E) as [-> ->]. split; reflexivity.
Qed.
Lemma rsplit_at p s : ~ In dot s -> rsplit (p ++ dot :: s) = Some (p, s).
Proof.
  intros H. pose proof (rsplit_spec (p ++ dot :: s)) as R. destruct (rsplit (p ++ dot :: s)) as [[a b]|].
  - destruct R as [E N]. destruct (last_dot _ _ _ _ H N E) as [-> ->]. reflexivity.
  - exfalso. apply R. apply in_or_app. right. left. reflexivity.
Qed.
Lemma after_last_split s : exists d, s = d ++ after_last (Ascii.eqb slash) s /\ (d = [] \/ exists e, d = e ++ [slash]) /\ ~ In slash (after_last (Ascii.eqb slash) s).
Proof.
  induction s as [|c s (d & E & D & N)]; [exists []; repeat split; auto|]. cbn [after_last].
  destruct (existsb (Ascii.eqb slash) s) eqn:X.
  - exists (c :: d). split; [cbn; f_equal; exact E|]. split; [|exact N]. right. destruct D as [->|(e & ->)]; [|exists (c :: e); reflexivity].
    exfalso. cbn in E. apply N. rewrite <- E. apply existsb_exists in X as (y & Y & Z). apply Ascii.eqb_eq in Z. subst y. exact Y.
  - assert (Ns : ~ In slash s) by (intros I; assert (existsb (Ascii.eqb slash) s = true) by (apply existsb_exists; exists slash; split; [exact I|apply Ascii.eqb_refl]); congruence).
    destruct (Ascii.eqb slash c) eqn:Q.
    + apply Ascii.eqb_eq in Q. subst c. exists [slash]. split; [reflexivity|]. split; [right; exists []; reflexivity|exact Ns].
    + exists []. split; [reflexivity|]. split; [left; reflexivity|]. intros [I|I]; [subst c; rewrite Ascii.eqb_refl in Q; discriminate|exact (Ns I)].
Qed.
Lemma after_last_stem d stem : (d = [] \/ exists e, d = e ++ [slash]) -> ~ In slash stem -> after_last (Ascii.eqb slash) (d ++ stem) = stem.
Proof.
  intros D N. assert (X : existsb (Ascii.eqb slash) stem = false).
  { destruct (existsb _ stem) eqn:Q; [|reflexivity]. apply existsb_exists in Q as (y & Y & Z). apply Ascii.eqb_eq in Z. subst y. contradiction. }
  destruct D as [->|(e & ->)].
  - destruct stem as [|c s]; [reflexivity|]. cbn [app after_last existsb] in *. apply orb_false_iff in X as [X1 X2]. rewrite X2, X1. reflexivity.
  - rewrite <- app_assoc. cbn [app]. apply after_last_app; [apply Ascii.eqb_refl|exact X].
Qed.
Lemma all_dots s : forallb (Ascii.eqb ".") s = false <-> exists c, In c s /\ c <> "."%char.
Proof.
  induction s as [|x s IH]; cbn [forallb]; [split; [discriminate|intros (c & [] & _)]|]. destruct (Ascii.eqb "." x) eqn:E; cbn [andb].
  - apply Ascii.eqb_eq in E. subst x. rewrite IH. split; intros (c & I & N); exists c; (split; [|exact N]); [right; exact I|]. destruct I as [<-|I]; [congruence|exact I].
  - split; [|reflexivity]. intros _. exists x. split; [left; reflexivity|]. intros ->. discriminate.
Qed.
Lemma splitext_iff e f : ~ In dot e -> ~ In slash e -> splitext f = dot :: e <-> has_extension (dot :: e) f.
Proof.
  intros Nd Ns. unfold splitext. split.
  - pose proof (rsplit_spec f) as R. destruct (rsplit f) as [[p s]|]; [|discriminate]. destruct R as [-> R].
    destruct (is_in slash s) eqn:I; [discriminate|]. destruct (forallb _ _) eqn:D; [discriminate|]. intros X. injection X as <-.
    destruct (after_last_split p) as (d & E & Hd & N). exists d, (after_last (Ascii.eqb slash) p). split; [rewrite app_assoc, <- E; reflexivity|]. split; [exact Hd|]. split; [exact N|]. apply all_dots. exact D.
  - intros (d & stem & -> & Hd & N & C). rewrite app_assoc, rsplit_at by exact Nd.
    rewrite is_in_false by exact Ns. rewrite after_last_stem by assumption. apply all_dots in C. rewrite C. reflexivity.
Qed.
Lemma splitext_head f : splitext f = [] \/ exists e, splitext f = dot :: e.
Proof. unfold splitext. destruct (rsplit f) as [[p s]|]; [|left; reflexivity]. destruct (is_in slash s); [left; reflexivity|]. destruct (forallb _ _); [left; reflexivity|]. right. eexists. reflexivity. Qed.
Lemma glob_literal pat : ~ In "*"%char pat -> forall s, glob pat s = true <-> s = pat.
Proof.
  induction pat as [|p pat IH]; intros N s.
  - destruct s; cbn; split; intros; try discriminate; reflexivity.
  - cbn [glob]. replace (Ascii.eqb p "*") with false by (symmetry; apply Ascii.eqb_neq; intros ->; apply N; left; reflexivity).
    destruct s as [|c s]; [split; discriminate|]. split.
    + intros H. apply andb_prop in H as [H1 H2]. apply Ascii.eqb_eq in H1. subst c. apply IH in H2; [subst s; reflexivity|]. intros I. apply N. right. exact I.
    + intros [= -> ->]. rewrite Ascii.eqb_refl. apply IH; [|reflexivity]. intros I. apply N. right. exact I.
Qed.
Lemma glob_star_eq pat s : glob ("*"%char :: pat) s = (glob pat s || match s with [] => false | _ :: r => glob ("*"%char :: pat) r end)%bool.
Proof. destruct s; reflexivity. Qed.
Lemma glob_star pat s : glob ("*"%char :: pat) s = true <-> exists a b, s = a ++ b /\ glob pat b = true.
Proof.
  split.
  - induction s as [|c s IH]; rewrite glob_star_eq; intros H; apply orb_prop in H as [H|H].
    + exists [], []. split; [reflexivity|exact H].
    + discriminate.
    + exists [], (c :: s). split; [reflexivity|exact H].
    + destruct (IH H) as (a & b & -> & B). exists (c :: a), b. split; [reflexivity|exact B].
  - intros (a & b & -> & B). induction a as [|c a IH]; rewrite glob_star_eq; cbn [app].
    + rewrite B. reflexivity.
    + rewrite IH. apply orb_true_r.
Qed.
Lemma glob_prefix pre pat : ~ In "*"%char pre -> forall s, glob (pre ++ pat) s = true <-> exists r, s = pre ++ r /\ glob pat r = true.
Proof.
  induction pre as [|p pre IH]; intros N s; [cbn [app]; split; [intros H; exists s; split; [reflexivity|exact H]|intros (r & -> & H); exact H]|].
  cbn [app glob]. replace (Ascii.eqb p "*") with false by (symmetry; apply Ascii.eqb_neq; intros ->; apply N; left; reflexivity).
  assert (N' : ~ In "*"%char pre) by (intros I; apply N; right; exact I). destruct s as [|c s]; [split; [discriminate|intros (r & X & _); discriminate]|]. split.
  - intros H. apply andb_prop in H as [H1 H2]. apply Ascii.eqb_eq in H1. subst c. apply (IH N') in H2 as (r & -> & R). exists r. split; [reflexivity|exact R].
  - intros (r & [= -> ->] & R). rewrite Ascii.eqb_refl. apply (IH N'). exists r. split; [reflexivity|exact R].
Qed.
(** * The tables *)
Definition bsp : name := chars ".bsp".
Lemma ext_ok (e : name) f : In e [chars ".bsp"; chars ".bpc"; chars ".tpc"; chars ".tf"] -> splitext f = e <-> has_extension e f.
Proof. cbn [In]. intros [<-|[<-|[<-|[<-|[]]]]]; apply splitext_iff; cbn; intros H; repeat (destruct H as [H|H]; [discriminate|]); exact H. Qed.
Lemma ext_suffix e f : has_extension e f -> exists p, f = p ++ e /\ p <> [].
Proof. intros (d & s & -> & _ & _ & c & C & _). exists (d ++ s). split; [apply app_assoc|]. intros X. apply app_eq_nil in X as [_ ->]. destruct C. Qed.
Lemma jup_glob f : has_extension bsp f -> glob (chars "jup*.bsp") f = true <-> exists r, f = chars "jup" ++ r.
Proof.
  intros E. change (chars "jup*.bsp") with (chars "jup" ++ "*"%char :: bsp). rewrite glob_prefix by (cbn; intros H; repeat (destruct H as [H|H]; [discriminate|]); exact H). split.
  - intros (r & -> & _). exists r. reflexivity.
  - intros (r & F). exists r. split; [exact F|]. apply glob_star. destruct (ext_suffix _ _ E) as (p & P & _). rewrite F in P.
    destruct p as [|a [|b [|c p]]]; cbn in P.
    + injection P as X. discriminate X.
    + injection P as _ X. discriminate X.
    + injection P as _ _ X. discriminate X.
    + injection P as _ _ _ P. exists p, bsp. split; [exact P|]. apply glob_literal; [|reflexivity]. cbn. intros H; repeat (destruct H as [H|H]; [discriminate|]); exact H.
Qed.
Lemma bsp_glob f : has_extension bsp f -> glob (chars "*.bsp") f = true.
Proof. intros E. destruct (ext_suffix _ _ E) as (p & -> & _). change (chars "*.bsp") with ("*"%char :: bsp). apply glob_star. exists p, bsp. split; [reflexivity|]. apply glob_literal; [|reflexivity]. cbn. intros H; repeat (destruct H as [H|H]; [discriminate|]); exact H. Qed.
Lemma star_glob f : glob (chars "*") f = true.
Proof. change (chars "*") with ("*"%char :: []). apply glob_star. exists f, []. split; [symmetry; apply app_nil_r|reflexivity]. Qed.
Lemma bsp_not_ext : ~ has_extension bsp (chars ".bsp").
Proof. intros E. destruct (ext_suffix _ _ E) as (p & P & N). apply (f_equal (@List.length _)) in P. rewrite app_length in P. cbn in P. destruct p; [congruence|cbn in P; lia]. Qed.
Lemma get_skip {A} k (e : entry A) m f : f <> k -> get ((k, e) :: m) f = get m f.
Proof. intros N. unfold get. cbn [find fst]. rewrite name_eqb_neq by congruence. reflexivity. Qed.
Lemma get_hit {A} k (e : entry A) m : get ((k, e) :: m) k = Some e.
Proof. unfold get. cbn [find fst]. rewrite name_eqb_refl. reflexivity. Qed.
Lemma get_nil {A} f : get (@nil (name * entry A)) f = None. Proof. reflexivity. Qed.
Ltac nodot := let X := fresh in destruct (splitext_head _) as [X|(? & X)]; rewrite X; discriminate.
Lemma name_dec (a b : name) : a = b \/ a <> b.
Proof. destruct (list_eq_dec ascii_dec a b); auto. Qed.
Lemma special_ext : forall f, In f [chars "finals2000A.all"; chars "Leap_Second.dat"; chars "moon_080317.tf"; chars "moon_pa_de421_1900-2050.bpc"; chars "pck00008.tpc"] -> ~ has_extension bsp f.
Proof. intros f H E. apply (ext_ok bsp f (or_introl eq_refl)) in E. cbn [In] in H. destruct H as [<-|[<-|[<-|[<-|[<-|[]]]]]]; vm_compute in E; discriminate. Qed.
Definition as_string (n : name) : string := string_of_list_ascii n.
Lemma sources dir f u : build_url (new_loader dir) f = Some u <-> exists base, found_at f base /\ u = chars base ++ f.
Proof.
  unfold build_url, search. cbn [new_loader urls].
  match goal with |- context [get ?X f] => set (T := X) end.
  destruct (name_dec f (chars "finals2000A.all")) as [->|N1].
  { unfold T. rewrite get_hit. split; [intros [= <-]; eexists; split; [apply at_finals|reflexivity]|]. intros (base & B & ->). inversion B; subst; try reflexivity; exfalso; eapply (special_ext (chars "finals2000A.all")); eauto; cbn [In]; auto. }
  destruct (name_dec f (chars "Leap_Second.dat")) as [->|N2].
  { unfold T. rewrite get_skip, get_hit by discriminate. split; [intros [= <-]; eexists; split; [apply at_leaps|reflexivity]|]. intros (base & B & ->). inversion B; subst; try reflexivity; exfalso; eapply (special_ext (chars "Leap_Second.dat")); eauto; cbn [In]; auto. }
  destruct (name_dec f (chars "moon_080317.tf")) as [->|N3].
  { unfold T. rewrite 2 get_skip, get_hit by discriminate. split; [intros [= <-]; eexists; split; [apply at_moon|reflexivity]|]. intros (base & B & ->). inversion B; subst; try reflexivity; exfalso; eapply (special_ext (chars "moon_080317.tf")); eauto; cbn [In]; auto. }
  destruct (name_dec f (chars "moon_pa_de421_1900-2050.bpc")) as [->|N4].
  { unfold T. rewrite 3 get_skip, get_hit by discriminate. split; [intros [= <-]; eexists; split; [apply at_moon_pa|reflexivity]|]. intros (base & B & ->). inversion B; subst; try reflexivity; exfalso; eapply (special_ext (chars "moon_pa_de421_1900-2050.bpc")); eauto; cbn [In]; auto. }
  destruct (name_dec f (chars "pck00008.tpc")) as [->|N5].
  { unfold T. rewrite 4 get_skip, get_hit by discriminate. split; [intros [= <-]; eexists; split; [apply at_pck|reflexivity]|]. intros (base & B & ->). inversion B; subst; try reflexivity; exfalso; eapply (special_ext (chars "pck00008.tpc")); eauto; cbn [In]; auto 6. }
  destruct (name_dec f bsp) as [->|N6].
  { unfold T. rewrite 5 get_skip, get_hit by discriminate. split; [discriminate|]. intros (base & B & _). inversion B; subst; exfalso; eapply bsp_not_ext; eassumption. }
  assert (G : get T f = None) by (unfold T; rewrite 6 get_skip by assumption; apply get_nil). rewrite G.
  destruct (name_dec (splitext f) bsp) as [E|N].
  - rewrite E. assert (G2 : get T bsp = Some (Patterns [(chars "jup*.bsp", NAIF); (chars "*.bsp", JPL)])) by reflexivity. rewrite G2. apply (ext_ok bsp f (or_introl eq_refl)) in E. cbn [find fst].
    destruct (glob (chars "jup*.bsp") f) eqn:J.
    + cbn [option_map snd]. pose proof (proj1 (jup_glob f E) J) as (r & R). split.
      * intros [= <-]. eexists. split; [eapply at_jupiter; eassumption|reflexivity].
      * intros (base & B & ->). inversion B; subst; try congruence; try reflexivity; exfalso; match goal with H : forall r, _ <> _ |- _ => eapply H; reflexivity end.
    + rewrite (bsp_glob f E). cbn [option_map snd]. assert (NJ : forall r, f <> chars "jup" ++ r) by (intros r R; assert (glob (chars "jup*.bsp") f = true) by (apply (jup_glob f E); exists r; exact R); congruence). split.
      * intros [= <-]. eexists. split; [apply at_jpl; assumption|reflexivity].
      * intros (base & B & ->). inversion B; subst; try congruence; try reflexivity; exfalso; eapply NJ; reflexivity.
  - assert (G2 : get T (splitext f) = None).
    { unfold T. rewrite 6 get_skip; [apply get_nil|exact N|..]; destruct (splitext_head f) as [X|(e & X)]; rewrite X; discriminate. }
    rewrite G2. split; [discriminate|]. intros (base & B & _). assert (NE : ~ has_extension bsp f) by (intros X; apply N; apply (ext_ok bsp f (or_introl eq_refl)); exact X). inversion B; subst; first [congruence|exfalso; apply NE; assumption].
Qed.
(** * What is done with a file *)
Lemma search_parsers dir f : match search (parsers (new_loader dir)) f with Some (Direct p) => parsed_by f p | Some (Patterns _) => False | None => forall p, ~ parsed_by f p end.
Proof.
  unfold search. cbn [new_loader parsers]. match goal with |- context [get ?X f] => set (T := X) end.
  destruct (name_dec f (chars "deltat.data")) as [->|N1]; [constructor|]. destruct (name_dec f (chars "deltat.preds")) as [->|N2]; [constructor|]. destruct (name_dec f (chars "Leap_Second.dat")) as [->|N3]; [constructor|].
  assert (G : get T f = None) by (unfold T; rewrite 3 get_skip by assumption; apply get_nil). rewrite G.
  assert (G2 : get T (splitext f) = None) by (unfold T; rewrite 3 get_skip; [apply get_nil|..]; destruct (splitext_head f) as [X|(e & X)]; rewrite X; discriminate).
  rewrite G2. intros p B. inversion B; subst; congruence.
Qed.
Definition extensions : list name := [chars ".bsp"; chars ".bpc"; chars ".tpc"; chars ".tf"].
Lemma not_own_extension e f : In e extensions -> has_extension e f -> ~ In f extensions.
Proof.
  intros He E F. apply (ext_ok e f He) in E. unfold extensions in *. cbn [In] in He, F.
  destruct F as [<-|[<-|[<-|[<-|[]]]]]; destruct He as [<-|[<-|[<-|[<-|[]]]]]; vm_compute in E; discriminate.
Qed.
Lemma search_openers dir f : ~ In f extensions -> match search (openers (new_loader dir)) f with Some (Direct o) => opened_with f o | Some (Patterns _) => False | None => forall o, ~ opened_with f o end.
Proof.
  intros NF. unfold search. cbn [new_loader openers]. match goal with |- context [get ?X f] => set (T := X) end.
  assert (G : get T f = None) by (unfold T; rewrite 4 get_skip by (intros X; apply NF; rewrite X; unfold extensions; cbn [In]; auto 6); apply get_nil). rewrite G.
  destruct (name_dec (splitext f) (chars ".bsp")) as [E|N1].
  { rewrite E. change (get T (chars ".bsp")) with (Some (Patterns [(chars "*.bsp", OpenKernel)])). cbn [find fst]. apply (ext_ok (chars ".bsp") f (or_introl eq_refl)) in E. rewrite (bsp_glob f E). cbn. apply with_kernel. exact E. }
  destruct (name_dec (splitext f) (chars ".bpc")) as [E|N2].
  { rewrite E. change (get T (chars ".bpc")) with (Some (Patterns [(chars "*", OpenBinary)])). cbn [find fst]. apply (ext_ok (chars ".bpc") f) in E; [|cbn [In]; auto]. rewrite star_glob. cbn. eapply with_binary; [exact E|cbn [In]; auto]. }
  destruct (name_dec (splitext f) (chars ".tpc")) as [E|N3].
  { rewrite E. change (get T (chars ".tpc")) with (Some (Patterns [(chars "*", OpenBinary)])). cbn [find fst]. apply (ext_ok (chars ".tpc") f) in E; [|cbn [In]; auto]. rewrite star_glob. cbn. eapply with_binary; [exact E|cbn [In]; auto]. }
  destruct (name_dec (splitext f) (chars ".tf")) as [E|N4].
  { rewrite E. change (get T (chars ".tf")) with (Some (Patterns [(chars "*", OpenBinary)])). cbn [find fst]. apply (ext_ok (chars ".tf") f) in E; [|cbn [In]; auto 6]. rewrite star_glob. cbn. eapply with_binary; [exact E|cbn [In]; auto]. }
  assert (G2 : get T (splitext f) = None) by (unfold T; rewrite 4 get_skip by assumption; apply get_nil). rewrite G2.
  assert (X : forall e, In e extensions -> splitext f <> e -> ~ has_extension e f) by (intros e He N H; apply N; apply ext_ok; assumption).
  intros o B. inversion B as [g H|g ext H I]; subst; [eapply X; [|exact N1|exact H]; unfold extensions; cbn [In]; auto|].
  cbn [In] in I. destruct I as [<-|[<-|[<-|[]]]]; [eapply X; [|exact N2|exact H]|eapply X; [|exact N3|exact H]|eapply X; [|exact N4|exact H]]; unfold extensions; cbn [In]; auto 6.
Qed.
Lemma parsed_opened f p o : parsed_by f p -> opened_with f o -> False.
Proof.
  intros P O. inversion P; subst; inversion O as [g H|g ext H I]; subst.
  all: try (apply (ext_ok (chars ".bsp") _ (or_introl eq_refl)) in H; vm_compute in H; discriminate).
  all: cbn [In] in I; destruct I as [<-|[<-|[<-|[]]]]; (apply ext_ok in H; [|cbn [In]; auto 6]); vm_compute in H; discriminate.
Qed.
Lemma opened_not_bare f o : opened_with f o -> ~ In f extensions.
Proof. intros [g H|g ext H I]; [apply (not_own_extension (chars ".bsp")); [left; reflexivity|exact H]|apply (not_own_extension ext); [right; exact I|exact H]]. Qed.
Lemma call_existing dir ex f : contains (chars "://") f = false -> ex (path_to (new_loader dir) f) = true ->
  exists r, call_loader (new_loader dir) ex f false false = ([], r) /\
    (forall p q, r = ParsedWith p q <-> parsed_by f p /\ q = path_to (new_loader dir) f) /\
    (forall o q, r = BuiltWith o q <-> opened_with f o /\ q = path_to (new_loader dir) f) /\
    (r = Raised <-> (forall p, ~ parsed_by f p) /\ (forall o, ~ opened_with f o)).
Proof.
  intros C X. unfold call_loader. rewrite C. set (L := new_loader dir) in *. set (url := match search (urls L) f with Some _ => _ | None => _ end).
  assert (A : assure L ex url f false = ([], Some (path_to L f))) by (unfold assure; rewrite X; reflexivity).
  pose proof (search_parsers dir f) as SP. fold L in SP.
  assert (BareO : In f extensions -> search (openers L) f <> None /\ forall o, search (openers L) f <> Some (Direct o)).
  { unfold extensions. cbn [In]. intros [<-|[<-|[<-|[<-|[]]]]]; split; try discriminate; intros o; discriminate. }
  assert (BareP : In f extensions -> search (parsers L) f = None) by (unfold extensions; cbn [In]; intros [<-|[<-|[<-|[<-|[]]]]]; reflexivity).
  destruct (in_dec (list_eq_dec ascii_dec) f extensions) as [B|B].
  - rewrite (BareP B) in *. destruct (BareO B) as [B1 B2]. destruct (search (openers L) f) as [[o|l]|] eqn:SO; [exfalso; eapply B2; reflexivity| |congruence].
    rewrite A. eexists. split; [reflexivity|]. split; [|split].
    + intros p q. split; [discriminate|]. intros [H _]. exfalso. exact (SP p H).
    + intros o q. split; [discriminate|]. intros [H _]. exfalso. exact (opened_not_bare f o H B).
    + split; [|reflexivity]. intros _. split; [exact SP|]. intros o H. exact (opened_not_bare f o H B).
  - pose proof (search_openers dir f B) as SO. fold L in SO. destruct (search (parsers L) f) as [[p|l]|]; [|contradiction|]; destruct (search (openers L) f) as [[o|l']|]; try contradiction.
    + exfalso. exact (parsed_opened f p o SP SO).
    + rewrite A. eexists. split; [reflexivity|]. split; [|split].
      * intros p' q. split; [intros [= <- <-]; split; [exact SP|reflexivity]|]. intros [H ->]. f_equal. inversion SP; subst; inversion H; reflexivity.
      * intros o q. split; [discriminate|]. intros [H _]. exfalso. exact (SO o H).
      * split; [discriminate|]. intros [H _]. exfalso. exact (H p SP).
    + rewrite A. eexists. split; [reflexivity|]. split; [|split].
      * intros p' q. split; [discriminate|]. intros [H _]. exfalso. exact (SP p' H).
      * intros o' q. split; [intros [= <- <-]; split; [exact SO|reflexivity]|]. intros [H ->]. f_equal. inversion SO as [g H1|g e1 H1 I1]; subst; inversion H as [g2 H2|g2 e2 H2 I2]; subst; try reflexivity; exfalso.
        -- apply (ext_ok (chars ".bsp") _ (or_introl eq_refl)) in H1. apply (ext_ok e2) in H2; [|right; exact I2]. rewrite H1 in H2. subst e2. cbn [In] in I2. destruct I2 as [I2|[I2|[I2|[]]]]; discriminate.
        -- apply (ext_ok (chars ".bsp") _ (or_introl eq_refl)) in H2. apply (ext_ok e1) in H1; [|right; exact I1]. rewrite H2 in H1. subst e1. cbn [In] in I1. destruct I1 as [I1|[I1|[I1|[]]]]; discriminate.
      * split; [discriminate|]. intros [_ H]. exfalso. exact (H o SO).
    + eexists. split; [reflexivity|]. split; [|split].
      * intros p' q. split; [discriminate|]. intros [H _]. exfalso. exact (SP p' H).
      * intros o q. split; [discriminate|]. intros [H _]. exfalso. exact (SO o H).
      * split; [|reflexivity]. intros _. split; assumption.
Qed.
Lemma load_file_ok path : (has_extension (chars ".bsp") path -> load_file path = Some path) /\ (~ has_extension (chars ".bsp") path -> load_file path = None).
Proof.
  unfold load_file. pose proof (ext_ok (chars ".bsp") path (or_introl eq_refl)) as E. split; intros H.
  - apply E in H. rewrite H, name_eqb_refl. reflexivity.
  - rewrite name_eqb_neq; [reflexivity|]. intros X. apply H, E, X.
Qed.
(** * Four ways to the same file *)
Lemma plain_no_url f : plain_name f -> contains (chars "://") f = false.
Proof.
  intros H. induction f as [|c f IH]; [reflexivity|]. cbn [contains]. rewrite IH by (intros x Hx; apply H; right; exact Hx). rewrite orb_false_r. cbn [chars list_ascii_of_string starts_with].
  replace (Ascii.eqb ":" c) with false; [reflexivity|]. symmetry. apply Ascii.eqb_neq. intros E. subst c. apply (H ":"%char (or_introl eq_refl)). cbn [chars list_ascii_of_string In]. auto 6.
Qed.
Lemma contains_in a p s : contains p (a ++ p ++ s) = true.
Proof.
  assert (S : forall q r, starts_with q (q ++ r) = true) by (induction q as [|c q IH]; intros r; [reflexivity|]; cbn; rewrite Ascii.eqb_refl; apply IH).
  induction a as [|c a IH]; [|cbn [app contains]; rewrite IH; apply orb_true_r]. cbn [app]. destruct (p ++ s) as [|c r] eqn:E; [apply app_eq_nil in E as [-> ->]; reflexivity|]. cbn [contains]. rewrite <- E, S. reflexivity.
Qed.
Lemma base_shape f base : found_at f base -> exists scheme host dirs, chars base = scheme ++ chars "://" ++ host ++ dirs ++ chars "/" /\ plain_part ":" scheme /\ plain_part "/?#" host /\ plain_part "?#" dirs /\ (exists d, dirs = slash :: d).
Proof.
  assert (P : forall bad s, forallb (fun c => negb (is_in c (chars bad))) (chars s) = true -> plain_part bad (chars s)).
  { intros bad s H c Hc I. rewrite forallb_forall in H. specialize (H c Hc). assert (is_in c (chars bad) = true) by (apply existsb_exists; exists c; split; [exact I|apply Ascii.eqb_refl]). rewrite H0 in H. discriminate. }
  intros H. exists (chars "https"). destruct H.
  - exists (chars "datacenter.iers.org"), (chars "/products/eop/rapid/standard"). repeat split; try (apply P; reflexivity). eexists; reflexivity.
  - exists (chars "hpiers.obspm.fr"), (chars "/iers/bul/bulc"). repeat split; try (apply P; reflexivity). eexists; reflexivity.
  - exists (chars "naif.jpl.nasa.gov"), (chars "/pub/naif/generic_kernels/fk/satellites"). repeat split; try (apply P; reflexivity). eexists; reflexivity.
  - exists (chars "naif.jpl.nasa.gov"), (chars "/pub/naif/generic_kernels/pck"). repeat split; try (apply P; reflexivity). eexists; reflexivity.
  - exists (chars "naif.jpl.nasa.gov"), (chars "/pub/naif/generic_kernels/pck/a_old_versions"). repeat split; try (apply P; reflexivity). eexists; reflexivity.
  - exists (chars "naif.jpl.nasa.gov"), (chars "/pub/naif/generic_kernels/spk/satellites"). repeat split; try (apply P; reflexivity). eexists; reflexivity.
  - exists (chars "ssd.jpl.nasa.gov"), (chars "/ftp/eph/planets/bsp"). repeat split; try (apply P; reflexivity). eexists; reflexivity.
Qed.
Lemma url_of_source f base : found_at f base -> plain_name f -> contains (chars "://") (chars base ++ f) = true /\ url_filename (chars base ++ f) = f.
Proof.
  intros H N. destruct (base_shape f base H) as (scheme & host & dirs & E & P1 & P2 & P3 & (d & D)). rewrite E. rewrite <- !app_assoc. split; [apply contains_in|].
  replace f with (f ++ [] ++ []) at 1 by (rewrite !app_nil_r; reflexivity). apply (url_last scheme host dirs f [] []); auto; [right; eexists; exact D|].
  intros c Hc I. apply (N c Hc). cbn [chars list_ascii_of_string In] in *. intuition.
Qed.
Lemma download_plain dir f base : found_at f base -> plain_name f ->
  download_file (new_loader dir) f None = ([(chars base ++ f, path_to (new_loader dir) f)], Some (path_to (new_loader dir) f)).
Proof.
  intros H N. unfold download_file. rewrite (plain_no_url f N). rewrite (proj2 (sources dir f (chars base ++ f))) by (exists base; split; [exact H|reflexivity]).
  destruct (url_of_source f base H N) as [_ ->]. reflexivity.
Qed.
Lemma download_url dir url filename : contains (chars "://") url = true ->
  let path := path_to (new_loader dir) (match filename with Some f => f | None => url_filename url end) in
  download_file (new_loader dir) url filename = ([(url, path)], Some path).
Proof. intros C. unfold download_file. rewrite C. reflexivity. Qed.
Lemma download_unknown dir f filename : contains (chars "://") f = false -> (forall base, ~ found_at f base) -> download_file (new_loader dir) f filename = ([], None).
Proof.
  intros C H. unfold download_file. rewrite C. destruct (build_url (new_loader dir) f) as [u|] eqn:E; [|reflexivity]. apply sources in E as (base & B & _). exfalso. exact (H base B).
Qed.
Lemma call_requests dir ex f base : found_at f base -> plain_name f -> (exists p, parsed_by f p) \/ (exists o, opened_with f o) -> ex (path_to (new_loader dir) f) = false ->
  fst (call_loader (new_loader dir) ex f false false) = [(Some (chars base ++ f), path_to (new_loader dir) f)] /\
  fst (call_loader (new_loader dir) ex (chars base ++ f) false false) = [(Some (chars base ++ f), path_to (new_loader dir) f)] /\
  fst (open_loader (new_loader dir) ex (chars base ++ f) None false) = [(Some (chars base ++ f), path_to (new_loader dir) f)].
Proof.
  intros H N K X. destruct (url_of_source f base H N) as [C F]. set (L := new_loader dir) in *.
  assert (Hu : match search (urls L) f with Some (Direct []) => Some (Some []) | Some (Direct u) => Some (Some (u ++ f)) | Some (Patterns _) => Some None | None => None end = Some (Some (chars base ++ f))).
  { assert (B : build_url L f = Some (chars base ++ f)) by (apply sources; exists base; split; [exact H|reflexivity]). unfold build_url in B. destruct (search (urls L) f) as [[[|c u]|l]|]; try discriminate. congruence. }
  assert (Kn : match search (parsers L) f, search (openers L) f with None, None => False | Some (Patterns _), _ => False | _, _ => True end).
  { pose proof (search_parsers dir f) as SP. fold L in SP. destruct (search (parsers L) f) as [[p|l]|]; [exact I|exact SP|]. destruct K as [(p & P)|(o & O)]; [exfalso; exact (SP p P)|].
    pose proof (search_openers dir f (opened_not_bare f o O)) as SO. fold L in SO. destruct (search (openers L) f) as [[o'|l]|]; try exact I. exact (SO o O). }
  assert (A : assure L ex (Some (Some (chars base ++ f))) f false = ([(Some (chars base ++ f), path_to L f)], Some (path_to L f))) by (unfold assure; rewrite X; reflexivity).
  split; [|split].
  - unfold call_loader. rewrite (plain_no_url f N), Hu. destruct (search (parsers L) f) as [[p|l]|]; destruct (search (openers L) f) as [[o|l']|]; try contradiction; rewrite A; reflexivity.
  - unfold call_loader. rewrite C, F. destruct (search (parsers L) f) as [[p|l]|]; destruct (search (openers L) f) as [[o|l']|]; try contradiction;
    match goal with |- context [assure L ex ?u f false] => replace (assure L ex u f false) with ([(Some (chars base ++ f), path_to L f)], Some (path_to L f)) by (symmetry; exact A) end; reflexivity.
  - unfold open_loader. rewrite C, F. match goal with |- context [assure L ex ?u f false] => replace (assure L ex u f false) with ([(Some (chars base ++ f), path_to L f)], Some (path_to L f)) by (symmetry; exact A) end. reflexivity.
Qed.
Lemma directories_differ : exists dir f base, found_at f base /\ ~ plain_name f /\
  snd (download_file (new_loader dir) f None) <> Some (path_to (new_loader dir) f).
Proof.
  exists (chars "d"), (chars "sub/de421.bsp"), "https://ssd.jpl.nasa.gov/ftp/eph/planets/bsp/"%string. split; [|split].
  - apply at_jpl; [|intros r; discriminate]. exists (chars "sub/"), (chars "de421"). split; [reflexivity|]. split; [right; exists (chars "sub"); reflexivity|]. split; [cbn; intros H; repeat (destruct H as [H|H]; [discriminate|]); exact H|]. exists "d"%char. split; [left; reflexivity|discriminate].
  - intros H. apply (H "/"%char); cbn [chars list_ascii_of_string In]; auto.
  - vm_compute. discriminate.
Qed.
(** * Timescales *)
Definition delta_of (delta_t : option Z) (s : source) : delta_t_source := match delta_t with Some c => Constant c | None => TableOf s end.
Lemma timescale_builtin dir ex delta_t : load_timescale (new_loader dir) ex delta_t true = ([], Some (Timescale (delta_of delta_t Bundled) Bundled)).
Proof. reflexivity. Qed.
Lemma timescale_legacy dir ex delta_t : legacy_present dir ex ->
  let p f := path_to (new_loader dir) (chars f) in
  let s := LegacyFiles (p "deltat.data"%string) (p "deltat.preds"%string) (p "Leap_Second.dat"%string) in
  load_timescale (new_loader dir) ex delta_t false = ([], Some (Timescale (delta_of delta_t s) s)).
Proof.
  intros H p s. unfold load_timescale.
  pose proof (H "deltat.data"%string ltac:(cbn [In]; auto)) as H1. pose proof (H "deltat.preds"%string ltac:(cbn [In]; auto)) as H2. pose proof (H "Leap_Second.dat"%string ltac:(cbn [In]; auto)) as H3.
  rewrite H1, H2, H3. cbn [andb].
  destruct (call_existing dir ex (chars "deltat.data") eq_refl H1) as (r1 & -> & P1 & _). rewrite (proj2 (P1 ParseDeltatData _) (conj by_deltat_data eq_refl)).
  destruct (call_existing dir ex (chars "deltat.preds") eq_refl H2) as (r2 & -> & P2 & _). rewrite (proj2 (P2 ParseDeltatPreds _) (conj by_deltat_preds eq_refl)).
  destruct (call_existing dir ex (chars "Leap_Second.dat") eq_refl H3) as (r3 & -> & P3 & _). rewrite (proj2 (P3 ParseLeapSeconds _) (conj by_leap_seconds eq_refl)).
  reflexivity.
Qed.
Lemma plain_finals : plain_name (chars "finals2000A.all").
Proof. intros c Hc I. cbn [chars list_ascii_of_string In] in *. repeat (destruct Hc as [<-|Hc]; [repeat (destruct I as [I|I]; [discriminate|]); exact I|]). exact Hc. Qed.
Lemma timescale_finals dir ex delta_t : ~ legacy_present dir ex ->
  let path := path_to (new_loader dir) (chars "finals2000A.all") in
  let url := chars "https://datacenter.iers.org/products/eop/rapid/standard/finals2000A.all" in
  load_timescale (new_loader dir) ex delta_t false =
    (if ex path then [] else [(Some url, path)], Some (Timescale (delta_of delta_t (FinalsFile path)) (FinalsFile path))).
Proof.
  intros H path url. unfold load_timescale.
  assert (F : (ex (path_to (new_loader dir) (chars "deltat.data")) && ex (path_to (new_loader dir) (chars "deltat.preds")) && ex (path_to (new_loader dir) (chars "Leap_Second.dat")))%bool = false).
  { destruct (_ && _ && _)%bool eqn:E; [|reflexivity]. apply andb_prop in E as [E E3]. apply andb_prop in E as [E1 E2]. exfalso. apply H. intros f Hf. cbn [In] in Hf. destruct Hf as [<-|[<-|[<-|[]]]]; assumption. }
  rewrite F. change (build_url (new_loader dir) (chars "finals2000A.all")) with (Some url).
  unfold open_loader. change (contains (chars "://") url) with true. change (url_filename url) with (chars "finals2000A.all"). cbn match. unfold assure. fold path. destruct (ex path); reflexivity.
Qed.
