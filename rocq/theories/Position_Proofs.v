From Coq Require Import Reals ZArith List Bool Lra Lia.
From Verif Require Import Real_Math Real_Math_Proofs Vector_Model Vector_Proofs2 Geo_Model Geo_Spec Geo_Proofs Light_Model Position_Model Position_Spec.
Import ListNotations.
Open Scope R_scope.

Lemma body_eqb_ok a b : body_eqb a b = true <-> a = b.
Proof.
  destruct a as [x|x], b as [y|y]; cbn; split; intros H; try discriminate; try (injection H as ->).
  - apply Z.eqb_eq in H. subst. reflexivity.
  - apply Z.eqb_refl.
  - apply Nat.eqb_eq in H. subst. reflexivity.
  - apply Nat.eqb_refl.
Qed.
Lemma obody_eqb_ok a b : obody_eqb a b = true <-> a = b.
Proof.
  destruct a as [x|], b as [y|]; cbn; split; intros H; try discriminate; try reflexivity.
  - apply body_eqb_ok in H. subst. reflexivity.
  - injection H as ->. apply body_eqb_ok. reflexivity.
Qed.
Lemma obody_neq a b : a <> b -> obody_eqb a b = false.
Proof. intros H. destruct (obody_eqb a b) eqn:E; [apply obody_eqb_ok in E; contradiction|reflexivity]. Qed.
Lemma obody_refl a : obody_eqb a a = true.
Proof. apply obody_eqb_ok. reflexivity. Qed.

Lemma build_class x v t c b : class (build_position x v t c b) = class_for c.
Proof.
  unfold build_position, construct. cbn [class]. destruct c as [[z|n]|]; cbn; try reflexivity.
  destruct z as [|q|q]; cbn; try reflexivity.
  unfold class_for. repeat (destruct q as [q|q|]; try reflexivity).
Qed.
Lemma build_center x v t c b : center (build_position x v t c b) = c \/ c = None.
Proof. destruct c; [left; reflexivity|right; reflexivity]. Qed.
Lemma build_center_some x v t c b : center (build_position x v t (Some c) b) = Some c.
Proof. reflexivity. Qed.

Lemma map2_maps {A B D E} (f : A -> B -> D) (g : E -> A) (h : E -> B) l : map2 f (map g l) (map h l) = map (fun s => f (g s) (h s)) l.
Proof. induction l as [|x l IH]; cbn; [reflexivity|]. rewrite IH. reflexivity. Qed.
Lemma numpy_op_same {A B} (f : A -> A -> A) sp (g h : B -> A) t :
  numpy_op f sp (arr_map g t) (arr_map h t) = Ok (arr_map (fun s => f (g s) (h s)) t).
Proof.
  destruct t as [s|l]; cbn; [reflexivity|]. unfold bcast_lists. rewrite !map_length, Nat.eqb_refl, map2_maps.
  destruct l as [|x0 [|x1 [|x2 [|x3 l]]]]; reflexivity.
Qed.
Lemma arr_map_ext {A B} (f g : A -> B) a : (forall x, f x = g x) -> arr_map f a = arr_map g a.
Proof. intros H. destruct a; cbn; [rewrite H|rewrite (map_ext _ _ H)]; reflexivity. Qed.
Lemma arr_map_map {A B D} (f : A -> B) (g : B -> D) a : arr_map g (arr_map f a) = arr_map (fun x => g (f x)) a.
Proof. destruct a; cbn; [|rewrite map_map]; reflexivity. Qed.
Lemma vsub_vsub a b c : vsub (vsub a c) (vsub b c) = vsub a b.
Proof. unfold vsub. cbn. f_equal; ring. Qed.
Lemma vopp_vsub a b : vopp (vsub a b) = vsub b a.
Proof. unfold vsub, vopp. cbn. f_equal; ring. Qed.

(** Differences of truthful positions. *)
Lemma difference X V a b : tells X V a -> tells X V b -> when a = when b -> center a = center b ->
  exists r, sub_ a b = Ok r /\ tells X V r /\ center r = target b /\ target r = target a /\ when r = when a /\
    class r = class_for (target b).
Proof.
  intros (c & x & t & Ca & Ta & Wa & Pa & Va) (c' & y & t' & Cb & Tb & Wb & Pb & Vb) W Cc.
  assert (t' = t) as -> by congruence. assert (c' = c) as -> by congruence.
  unfold sub_. rewrite Cc, obody_refl. cbn [negb]. rewrite Pa, Pb, Va, Vb, !numpy_op_same. cbn [bind].
  eexists. split; [reflexivity|]. rewrite Tb, Ta, build_class. cbn [center target when build_position construct].
  split; [|repeat split].
  exists y, x, t. cbn [build_position construct center target when xyz velocity]. split; [reflexivity|]. split; [reflexivity|]. split; [exact Wa|].
  split; apply arr_map_ext; intros s; cbn [osub]; [|f_equal]; apply vsub_vsub.
Qed.
Lemma difference_refused a b : center a <> center b -> sub_ a b = Raise ValueError.
Proof. intros H. unfold sub_. rewrite (obody_neq _ _ H). reflexivity. Qed.
Lemma negative X V p : tells X V p -> tells X V (neg_ p) /\ center (neg_ p) = target p /\ target (neg_ p) = center p /\
  when (neg_ p) = when p /\ xyz (neg_ (neg_ p)) = xyz p /\ velocity (neg_ (neg_ p)) = velocity p.
Proof.
  intros (c & x & t & Cp & Tp & Wp & Pp & Vp). unfold neg_. cbn [construct center target when xyz velocity class].
  rewrite Cp, Tp. split; [|split; [reflexivity|split; [reflexivity|split; [reflexivity|]]]].
  - exists x, c, t. cbn [construct center target when xyz velocity]. split; [reflexivity|]. split; [reflexivity|]. split; [exact Wp|].
    rewrite Pp, Vp, !arr_map_map. split; apply arr_map_ext; intros s; cbn; [|f_equal]; apply vopp_vsub.
  - rewrite Pp, Vp, !arr_map_map. split; apply arr_map_ext; intros s; cbn; [|f_equal]; unfold vopp, vsub; cbn; f_equal; ring.
Qed.

(** Shapes. *)
Lemma numpy_op_mixed {A} f sp (a : A) l : length l <> 1%nat -> length l <> 3%nat ->
  numpy_op f sp (Single a) (Many l) = Raise ValueError /\ numpy_op f sp (Many l) (Single a) = Raise ValueError.
Proof. intros H1 H3. destruct l as [|x [|y [|z [|w l]]]]; cbn in *; try lia; split; reflexivity. Qed.
Lemma mixed_refused a b x l : xyz a = Single x -> xyz b = Many l -> length l <> 1%nat -> length l <> 3%nat ->
  sub_ a b = Raise ValueError /\ sub_ b a = Raise ValueError.
Proof.
  intros Ha Hb H1 H3. unfold sub_. rewrite Ha, Hb. destruct (numpy_op_mixed vsub spread x l H1 H3) as [E1 E2]. rewrite E1, E2.
  split; destruct (negb _); reflexivity.
Qed.
(** Three positions minus one, from the same center: what comes out. *)
Lemma three_minus_one a b x0 x1 x2 v0 v1 v2 y u : center a = center b -> xyz a = Many [x0; x1; x2] -> velocity a = Many [v0; v1; v2] ->
  xyz b = Single y -> velocity b = Single u ->
  exists r, sub_ a b = Ok r /\ xyz r = Many [vsub x0 (V3 (vx y) (vx y) (vx y)); vsub x1 (V3 (vy y) (vy y) (vy y)); vsub x2 (V3 (vz y) (vz y) (vz y))].
Proof.
  intros H Ha Va Hb Vb. unfold sub_. rewrite H, obody_refl, Ha, Va, Hb, Vb. cbn. eexists. split; [reflexivity|]. reflexivity.
Qed.

Definition demo_X (b : body) (s : R) : vec := match b with Code 499 => V3 1 2 3 | Code 599 => V3 4 5 6 | Code 10 => V3 s 0 0 | _ => vzero end.
Definition demo_at (b : Z) (t : arr R) : position :=
  at_ None (Some (Code 0)) (Some (Code b)) (arr_map (fun s => vsub (demo_X (Code b) s) (demo_X (Code 0) s)) t)
    (arr_map (fun _ => Some (vsub vzero vzero)) t) None t.
Lemma demo_tells b t : tells demo_X (fun _ _ => vzero) (demo_at b t).
Proof. exists (Code 0), (Code b), t. repeat split. Qed.

Lemma not_tells X V p c b s x : center p = Some c -> target p = Some b -> when p = Some (Single s) -> xyz p = Single x ->
  x <> vsub (X b s) (X c s) -> ~ tells X V p.
Proof.
  intros Hc Hb Hw Hx N (c' & b' & t' & Hc' & Hb' & Hw' & Hx' & _). rewrite Hc in Hc'. rewrite Hb in Hb'. rewrite Hw in Hw'. rewrite Hx in Hx'.
  injection Hc' as <-. injection Hb' as <-. injection Hw' as <-. cbn in Hx'. injection Hx' as Hx'. contradiction.
Qed.
Lemma times_ignored : exists X V a b r, tells X V a /\ tells X V b /\ center a = center b /\ when a <> when b /\ sub_ a b = Ok r /\ ~ tells X V r.
Proof.
  exists demo_X, (fun _ _ => vzero), (demo_at 499 (Single 0)), (demo_at 10 (Single 1)). eexists.
  split; [apply demo_tells|]. split; [apply demo_tells|]. split; [reflexivity|].
  split; [cbn; intros E; injection E; lra|]. split; [reflexivity|].
  eapply not_tells; [reflexivity|reflexivity|reflexivity|reflexivity|]. cbn. unfold vsub, vzero. cbn. intros E. injection E. intros. lra.
Qed.
Lemma three_garbled : exists X V a b r xs, tells X V a /\ tells X V b /\ center a = center b /\ when a = Some (Many [0; 0; 0]) /\ when b = Some (Single 0) /\
  sub_ a b = Ok r /\ xyz r = Many xs /\ (forall x, In x xs -> x <> vsub (X (Code 599) 0) (X (Code 499) 0)) /\
  target a = Some (Code 599) /\ target b = Some (Code 499).
Proof.
  exists demo_X, (fun _ _ => vzero), (demo_at 599 (Many [0; 0; 0])), (demo_at 499 (Single 0)). do 2 eexists.
  split; [apply demo_tells|]. split; [apply demo_tells|]. split; [reflexivity|]. split; [reflexivity|]. split; [reflexivity|].
  split; [reflexivity|]. split; [reflexivity|]. split; [|split; reflexivity].
  cbn. unfold vsub, vzero. cbn. intros x [<-|[<-|[<-|[]]]] E; injection E; intros; lra.
Qed.
(** A negated barycentric position still claims to be barycentric, and observes from there. *)
Lemma negation_class : exists X V p seen_by r, tells X V p /\ class p = Barycentric /\
  center (neg_ p) = Some (Code 499) /\ class (neg_ p) = Barycentric /\ class (neg_ p) <> class_for (center (neg_ p)) /\
  (forall o x, class o = Barycentric -> xyz o = Single x ->
     seen_by o = Ok {| s_vector := Single (vsub (X (Code 599) 0) x); s_velocity := Single None; s_time := Single 0; s_light := Single 0 |}) /\
  observe (neg_ p) (Some (Code 599)) seen_by = Ok r /\ center r = Some (Code 0) /\ target r = Some (Code 599) /\
  xyz r <> Single (vsub (X (Code 599) 0) (X (Code 0) 0)).
Proof.
  exists demo_X, (fun _ _ => vzero), (demo_at 499 (Single 0)).
  exists (fun o => match xyz o with Single x => Ok {| s_vector := Single (vsub (demo_X (Code 599) 0) x); s_velocity := Single None; s_time := Single 0; s_light := Single 0 |} | _ => Raise ValueError end).
  eexists. split; [apply demo_tells|]. split; [reflexivity|]. split; [reflexivity|]. split; [reflexivity|]. split; [discriminate|].
  split; [intros o x _ ->; reflexivity|]. split; [reflexivity|]. split; [reflexivity|]. split; [reflexivity|].
  cbn. unfold vsub, vopp, vzero. cbn. intros E. injection E. intros. lra.
Qed.
Lemma unknown_centers a b : center a = None -> center b = None -> xyz a = Single (V3 1 0 0) -> velocity a = Single None ->
  xyz b = Single vzero -> velocity b = Single None -> exists r, sub_ a b = Ok r.
Proof. intros Ha Hb Xa Va Xb Vb. unfold sub_. rewrite Ha, Hb, Xa, Va, Xb, Vb. cbn. eexists. reflexivity. Qed.

(** Indexing. *)
Lemma list_index_ok {A} (l : list A) i : (- Z.of_nat (length l) <= i < Z.of_nat (length l))%Z ->
  exists a, list_index l i = Ok a /\ nth_error l (place (length l) i) = Some a.
Proof.
  intros H. unfold list_index, place. set (j := if (i <? 0)%Z then _ else _). assert (J : (0 <= j < Z.of_nat (length l))%Z).
  { unfold j. destruct (Z.ltb_spec i 0); lia. }
  destruct (Z.ltb_spec j 0); [lia|]. destruct (nth_error l (Z.to_nat j)) as [a|] eqn:E; [exists a; split; reflexivity|].
  apply nth_error_None in E. lia.
Qed.
Lemma list_index_bad {A} (l : list A) i : (i < - Z.of_nat (length l) \/ Z.of_nat (length l) <= i)%Z -> list_index l i = Raise IndexError.
Proof.
  intros H. unfold list_index. set (j := if (i <? 0)%Z then _ else _). destruct (Z.ltb_spec j 0); [reflexivity|].
  destruct (nth_error l (Z.to_nat j)) eqn:E; [|reflexivity]. assert (Z.to_nat j < length l)%nat by (apply nth_error_Some; congruence).
  exfalso. unfold j in *. destruct (Z.ltb_spec i 0); lia.
Qed.
Lemma list_index_place {A} (l : list A) i a : list_index l i = Ok a ->
  (- Z.of_nat (length l) <= i < Z.of_nat (length l))%Z /\ nth_error l (place (length l) i) = Some a.
Proof.
  intros H. assert (Q : (- Z.of_nat (length l) <= i < Z.of_nat (length l))%Z).
  { destruct (Z_lt_le_dec i (- Z.of_nat (length l))); [rewrite list_index_bad in H by lia; discriminate|].
    destruct (Z_lt_le_dec i (Z.of_nat (length l))); [lia|]. rewrite list_index_bad in H by lia. discriminate. }
  split; [exact Q|]. destruct (list_index_ok l i Q) as (b & E & F). congruence.
Qed.
Lemma list_index_map {A B} (f : A -> B) l i : list_index (map f l) i = bind (list_index l i) (fun a => Ok (f a)).
Proof.
  unfold list_index. rewrite map_length. set (j := if (i <? 0)%Z then _ else _). destruct (j <? 0)%Z; [reflexivity|].
  rewrite nth_error_map. destruct (nth_error l (Z.to_nat j)); reflexivity.
Qed.
Lemma nth_error_map2 {A B D} (f : A -> B -> D) l m n : length l = length m ->
  nth_error (map2 f l m) n = match nth_error l n, nth_error m n with Some a, Some b => Some (f a b) | _, _ => None end.
Proof.
  revert m n. induction l as [|a l IH]; intros [|b m] [|n] H; cbn in *; try discriminate; try reflexivity.
  apply IH. congruence.
Qed.
Lemma map2_length {A B D} (f : A -> B -> D) l m : length l = length m -> length (map2 f l m) = length l.
Proof. revert m. induction l as [|a l IH]; intros [|b m] H; cbn in *; try discriminate; [reflexivity|]. rewrite IH; congruence. Qed.
Lemma list_index_map2 {A B D} (f : A -> B -> D) l m i : length l = length m ->
  list_index (map2 f l m) i = bind (list_index l i) (fun a => bind (list_index m i) (fun b => Ok (f a b))).
Proof.
  intros H. unfold list_index. rewrite map2_length, <- H by assumption. set (j := if (i <? 0)%Z then _ else _). destruct (j <? 0)%Z; [reflexivity|].
  rewrite nth_error_map2 by assumption. destruct (nth_error l _), (nth_error m _); reflexivity.
Qed.
Lemma element_bcast {A B D} (f : A -> B -> D) l m i a b : length l = length m -> list_index l i = Ok a -> list_index m i = Ok b ->
  element i (bcast f (Many l) (Many m)) = Ok (Single (f a b)).
Proof.
  intros H Ha Hb. unfold element, bcast, bcast_lists. rewrite H, Nat.eqb_refl. cbn [bind arr_index]. rewrite list_index_map2, Ha, Hb by assumption. reflexivity.
Qed.
Lemma element_map {A B} (f : A -> B) (x : outcome (arr A)) i : element i (bind x (fun a => Ok (arr_map f a))) = bind (element i x) (fun a => Ok (arr_map f a)).
Proof.
  unfold element. destruct x as [[a|l]| |]; cbn; try reflexivity. rewrite list_index_map. destruct (list_index l i); reflexivity.
Qed.

Lemma getitem_ok n p i : has_length n p -> (- Z.of_nat n <= i < Z.of_nat n)%Z ->
  exists xs vs ts x v t r, xyz p = Many xs /\ velocity p = Many vs /\ when p = Some (Many ts) /\
    nth_error xs (place n i) = Some x /\ nth_error vs (place n i) = Some v /\ nth_error ts (place n i) = Some t /\
    getitem p i = Ok r /\ class r = class p /\ xyz r = Single x /\ velocity r = Single v /\ when r = Some (Single t) /\
    (center p = None -> default_center (class p) = None -> center r = None) /\ (forall c, center p = Some c -> center r = Some c) /\ target r = target p.
Proof.
  intros (xs & vs & ts & Hx & Hv & Ht & Lx & Lv & Lt) H. unfold getitem. rewrite Hx, Hv, Ht. cbn [arr_index time_index].
  destruct (list_index_ok xs i) as (x & Ex & Nx); [lia|]. destruct (list_index_ok vs i) as (v & Ev & Nv); [lia|]. destruct (list_index_ok ts i) as (t & Et & Nt); [lia|].
  rewrite Lx in Nx. rewrite Lv in Nv. rewrite Lt in Nt.
  rewrite Ex, Ev, Et. cbn [bind]. exists xs, vs, ts, x, v, t. eexists. cbn [construct class xyz velocity when center target].
  repeat split; try assumption.
  - intros E1 E2. cbn. rewrite E1. exact E2.
  - intros c E1. cbn. rewrite E1. reflexivity.
Qed.
Lemma getitem_out n p i : has_length n p -> (i < - Z.of_nat n \/ Z.of_nat n <= i)%Z -> getitem p i = Raise IndexError.
Proof.
  intros (xs & vs & ts & Hx & Hv & Ht & Lx & Lv & Lt) H. unfold getitem. rewrite Hx. cbn [arr_index]. rewrite list_index_bad by lia. reflexivity.
Qed.
Lemma getitem_single p x i : xyz p = Single x -> getitem p i = Raise IndexError.
Proof. intros H. unfold getitem. rewrite H. reflexivity. Qed.

Lemma getitem_inv n p i r : has_length n p -> getitem p i = Ok r ->
  exists xs vs ts x v t, xyz p = Many xs /\ velocity p = Many vs /\ when p = Some (Many ts) /\ length xs = n /\ length vs = n /\ length ts = n /\
    list_index xs i = Ok x /\ list_index vs i = Ok v /\ list_index ts i = Ok t /\
    r = construct (class p) (Single x) (Some (Single v)) (Some (Single t)) (center p) (target p).
Proof.
  intros (xs & vs & ts & Hx & Hv & Ht & Lx & Lv & Lt) H. unfold getitem in H. rewrite Hx, Hv, Ht in H. cbn [arr_index time_index] in H.
  destruct (list_index xs i) as [x| |] eqn:Ex; cbn [bind] in H; try discriminate.
  destruct (list_index vs i) as [v| |] eqn:Ev; cbn [bind] in H; try discriminate.
  destruct (list_index ts i) as [t| |] eqn:Et; cbn [bind] in H; try discriminate.
  injection H as <-. exists xs, vs, ts, x, v, t. repeat (split; [assumption|]). reflexivity.
Qed.

Lemma radec_elements w n p i r e : has_length n p -> getitem p i = Ok r -> (forall t, e <> EpochTime (Many t)) ->
  radec w r e = element i (radec w p e).
Proof.
  intros L G He. destruct (getitem_inv n p i r L G) as (xs & vs & ts & x & v & t & Hx & Hv & Ht & Lx & Lv & Lt & Ex & Ev & Et & ->).
  unfold radec. destruct e as [|t0|jd| |]; cbn [construct xyz when arr_map]; rewrite ?Hx, ?Ht.
  - unfold element. cbn [arr_map bind arr_index]. rewrite list_index_map, Ex. reflexivity.
  - destruct t0 as [t0|l]; [|exfalso; apply (He l); reflexivity]. rewrite element_map. cbn [bcast]. unfold element. cbn [bind arr_index]. rewrite list_index_map, Ex. reflexivity.
  - rewrite element_map. cbn [bcast]. unfold element. cbn [bind arr_index]. rewrite list_index_map, Ex. reflexivity.
  - rewrite element_map. rewrite (element_bcast _ ts xs i t x) by (congruence || assumption). reflexivity.
  - reflexivity.
Qed.
Lemma separation_elements n p q i r s : has_length n p -> has_length n q -> getitem p i = Ok r -> getitem q i = Ok s ->
  separation_from r s = element i (separation_from p q).
Proof.
  intros Lp Lq Gp Gq. destruct (getitem_inv n p i r Lp Gp) as (xs & vs & ts & x & v & t & Hx & Hv & Ht & Lx & Lv & Lt & Ex & Ev & Et & ->).
  destruct (getitem_inv n q i s Lq Gq) as (xs' & vs' & ts' & x' & v' & t' & Hx' & Hv' & Ht' & Lx' & Lv' & Lt' & Ex' & Ev' & Et' & ->).
  unfold separation_from. rewrite Hx, Hx'. rewrite (element_bcast _ xs xs' i x x') by (congruence || assumption). reflexivity.
Qed.
Lemma separation_one n p q x i r : has_length n p -> xyz q = Single x -> getitem p i = Ok r ->
  separation_from r q = element i (separation_from p q) /\ separation_from q r = element i (separation_from q p).
Proof.
  intros Lp Hq Gp. destruct (getitem_inv n p i r Lp Gp) as (xs & vs & ts & y & v & t & Hx & Hv & Ht & Lx & Lv & Lt & Ex & Ev & Et & ->).
  unfold separation_from. rewrite Hx, Hq. cbn [bcast construct xyz]. unfold element. cbn [bind arr_index]. rewrite !list_index_map, Ex. split; reflexivity.
Qed.
Lemma hadec_elements w n p i r : has_length n p -> getitem p i = Ok r -> center p <> None -> hadec_ w r = element i (hadec_ w p).
Proof.
  intros L G Hc. destruct (getitem_inv n p i r L G) as (xs & vs & ts & x & v & t & Hx & Hv & Ht & Lx & Lv & Lt & Ex & Ev & Et & ->).
  unfold hadec_. cbn [construct when xyz center]. rewrite Ht, Hx. destruct (center p) as [c|] eqn:C0; [|contradiction].
  destruct (longitude w (Some c)) as [lon|].
  - rewrite element_map, (element_bcast _ ts xs i t x) by (congruence || assumption). reflexivity.
  - unfold bcast, bcast_lists. rewrite Lt, Lx, Nat.eqb_refl. reflexivity.
Qed.

(** Altitude and azimuth of an element: the observer is forgotten, but the center and
    the time are enough. *)
Lemma altaz_elements w n p cb f i r : has_length n p -> getitem p i = Ok r -> class p <> Astrometric ->
  (center_barycentric p = NoBary \/ center_barycentric p = Other cb /\ center p = target cb /\ when p = when cb) ->
  center p <> Some (Code 0) -> rotation_at w (center p) = Some f -> altaz_ w r = element i (altaz_ w p).
Proof.
  intros L G K B Nc F. destruct (getitem_inv n p i r L G) as (xs & vs & ts & x & v & t & Hx & Hv & Ht & Lx & Lv & Lt & Ex & Ev & Et & ->).
  assert (Cn : center p <> None) by (intros E; rewrite E in F; discriminate). destruct (center p) as [c|] eqn:Cp; [|contradiction].
  assert (Ep : altaz_ w p = bind (bcast mxv (arr_map f (Many ts)) (xyz p)) (fun x => Ok (arr_map (fun v => let '(r, alt, az) := to_spherical v in (alt, az, r)) x))).
  { unfold altaz_. destruct (class p); try contradiction; (destruct B as [B|(B & Bc & Bt)]; rewrite B; [rewrite Cp, F, Ht|unfold altaz_rotation; rewrite <- Bc, F, <- Bt, Ht]; reflexivity). }
  rewrite Ep, element_map, Hx. cbn [arr_map]. rewrite (element_bcast mxv (map f ts) xs i (f t) x).
  - assert (NB : center_barycentric (construct (class p) (Single x) (Some (Single v)) (Some (Single t)) (Some c) (target p)) = NoBary).
    { cbn [construct center_barycentric]. rewrite obody_neq by exact Nc. reflexivity. }
    unfold altaz_. rewrite NB. cbn [construct center class when xyz]. rewrite F. destruct (class p); try contradiction; reflexivity.
  - rewrite map_length. congruence.
  - rewrite list_index_map, Et. reflexivity.
  - exact Ex.
Qed.

(** What an element has lost. *)
Lemma element_forgets n p i r : has_length n p -> getitem p i = Ok r ->
  observer_gcrs r = None /\ ephemeris r = None /\ light r = None /\
  (center p <> Some (Code 0) -> center_barycentric r = NoBary) /\ (center p = Some (Code 0) -> center_barycentric r = Itself).
Proof.
  intros L G. destruct (getitem_inv n p i r L G) as (xs & vs & ts & x & v & t & _ & _ & _ & _ & _ & _ & _ & _ & _ & ->).
  cbn [construct observer_gcrs ephemeris light center_barycentric]. repeat split.
  - intros H. rewrite obody_neq by exact H. reflexivity.
  - intros ->. reflexivity.
Qed.
Lemma element_not_apparent n p i r codes : has_length n p -> class p = Astrometric -> center p <> Some (Code 0) -> getitem p i = Ok r ->
  apparent_ r codes = Raise AttributeError.
Proof.
  intros L K Nc G. destruct (element_forgets n p i r L G) as (_ & _ & _ & B & _). specialize (B Nc).
  assert (class r = Astrometric). { destruct (getitem_inv n p i r L G) as (xs & vs & ts & x & v & t & _ & _ & _ & _ & _ & _ & _ & _ & _ & ->). exact K. }
  unfold apparent_. rewrite H, B. reflexivity.
Qed.
Lemma element_not_sunlit n p i r sun : has_length n p -> center p <> None -> center p <> Some (Code 399) -> getitem p i = Ok r ->
  is_sunlit_ r sun = Raise ValueError /\ is_behind_earth_ r = Raise ValueError.
Proof.
  intros L C0 Nc G. destruct (element_forgets n p i r L G) as (Hg & _).
  destruct (getitem_inv n p i r L G) as (xs & vs & ts & x & v & t & _ & _ & _ & _ & _ & _ & _ & _ & _ & ->).
  unfold is_behind_earth_, is_sunlit_. rewrite Hg. cbn [construct when center]. destruct (center p) as [c|]; [|contradiction].
  rewrite obody_neq by exact Nc. split; reflexivity.
Qed.
Lemma element_no_phase n p i r sun : has_length n p -> center p <> Some (Code 0) -> getitem p i = Ok r -> phase_angle_ r sun = Raise AttributeError.
Proof.
  intros L Nc G. destruct (element_forgets n p i r L G) as (_ & _ & _ & B & _). specialize (B Nc).
  unfold phase_angle_. rewrite B. destruct (getitem_inv n p i r L G) as (xs & vs & ts & x & v & t & _ & _ & _ & _ & _ & _ & _ & _ & _ & ->). reflexivity.
Qed.
(** An element of an array of observers observes, but what it observes cannot be made
    apparent with the usual deflectors. *)
Lemma element_observer n p i r b sees a : has_length n p -> class p = Barycentric -> getitem p i = Ok r -> observe r b sees = Ok a ->
  (forall c codes, In c [10; 599; 699]%Z -> apparent_ a (c :: codes) = Raise TypeError) /\
  (forall q, apparent_ a [] = Ok q -> observer_gcrs q = None).
Proof.
  intros L K G O. destruct (element_forgets n p i r L G) as (Hg & He & _).
  unfold observe in O. destruct (class r); try discriminate. destruct (sees r) as [s| |]; cbn [bind] in O; try discriminate. injection O as <-.
  split.
  - intros c codes Hc. unfold apparent_. cbn [construct class center_barycentric when]. unfold apparent_xyz. cbn [ephemeris]. rewrite He.
    destruct Hc as [<-|[<-|[<-|[]]]]; reflexivity.
  - intros q. unfold apparent_. cbn [construct class center_barycentric when].
    match goal with |- bind ?m _ = _ -> _ => destruct m; cbn [bind]; try discriminate end. intros Q. injection Q as <-. cbn [observer_gcrs].
    unfold reshaped. rewrite Hg. cbn [xyz]. destruct (s_vector s), (xyz r); reflexivity.
Qed.
