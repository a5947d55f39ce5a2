(** Model of the position objects of skyfield/positionlib.py: how they are built,
    subtracted, negated and indexed, what they remember about the observer, and
    which questions they answer. *)
From Coq Require Import Reals ZArith List Bool.
From Verif Require Import Real_Math Vector_Model Geo_Model Light_Model.
Import ListNotations.
Open Scope R_scope.

(** A NumPy value: one item, or an array of them. Vectors are (3,) or (3,n) arrays. *)
Inductive arr (A : Type) := Single (a : A) | Many (l : list A).
Arguments Single {A} a.
Arguments Many {A} l.
Inductive error := ValueError | AttributeError | IndexError | TypeError | KeyError_.
Inductive outcome (A : Type) := Ok (a : A) | Raise (e : error) | NaNs.
Arguments Ok {A} a.
Arguments Raise {A} e.
Arguments NaNs {A}.
Definition bind {A B} (x : outcome A) (f : A -> outcome B) : outcome B :=
  match x with Ok a => f a | Raise e => Raise e | NaNs => NaNs end.

Definition arr_map {A B} (f : A -> B) (a : arr A) : arr B :=
  match a with Single x => Single (f x) | Many l => Many (map f l) end.
(** [a[i]] along the last axis; negative indices count from the end. *)
Definition list_index {A} (l : list A) (i : Z) : outcome A :=
  let n := Z.of_nat (length l) in
  let j := if (i <? 0)%Z then (i + n)%Z else i in
  if (j <? 0)%Z then Raise IndexError
  else match nth_error l (Z.to_nat j) with Some a => Ok a | None => Raise IndexError end.
Definition arr_index {A} (a : arr A) (i : Z) : outcome A :=
  match a with Single _ => Raise IndexError | Many l => list_index l i end.
(** [Time.__getitem__], timelib.py 447-457: a single time refuses. *)
Definition time_index {A} (a : arr A) (i : Z) : outcome A :=
  match a with Single _ => Raise TypeError | Many l => list_index l i end.

(** Broadcasting of two arrays along their last axes. *)
Fixpoint map2 {A B D} (f : A -> B -> D) (l : list A) (m : list B) : list D :=
  match l, m with a :: l, b :: m => f a b :: map2 f l m | _, _ => [] end.
Definition bcast_lists {A B D} (f : A -> B -> D) (l : list A) (m : list B) : outcome (arr D) :=
  if (length l =? length m)%nat then Ok (Many (map2 f l m))
  else match l, m with
       | [a], _ => Ok (Many (map (f a) m))
       | _, [b] => Ok (Many (map (fun a => f a b) l))
       | _, _ => Raise ValueError
       end.
Definition bcast {A B D} (f : A -> B -> D) (a : arr A) (b : arr B) : outcome (arr D) :=
  match a, b with
  | Single x, Single y => Ok (Single (f x y))
  | Single x, Many m => Ok (Many (map (f x) m))
  | Many l, Single y => Ok (Many (map (fun x => f x y) l))
  | Many l, Many m => bcast_lists f l m
  end.

(** Component [j] of a vector, three times. *)
Definition comp (v : vec) (j : nat) : R := match j with 0%nat => vx v | 1%nat => vy v | _ => vz v end.
Definition spread (v : vec) (j : nat) : vec := V3 (comp v j) (comp v j) (comp v j).
(** Arithmetic between a (3,) array and a (3,n) array, which lines up the components of
    the first with the last axis of the second: it fails unless [n] is 1 or 3. *)
Definition numpy_op {A} (sub_ : A -> A -> A) (spread_ : A -> nat -> A) (a b : arr A) : outcome (arr A) :=
  match a, b with
  | Single x, Single y => Ok (Single (sub_ x y))
  | Many l, Many m => bcast_lists sub_ l m
  | Many [x], Single y => Ok (Many (map (fun j => sub_ x (spread_ y j)) [0; 1; 2]%nat))
  | Many [x0; x1; x2], Single y => Ok (Many (map2 (fun x j => sub_ x (spread_ y j)) [x0; x1; x2] [0; 1; 2]%nat))
  | Single x, Many [y] => Ok (Many (map (fun j => sub_ (spread_ x j) y) [0; 1; 2]%nat))
  | Single x, Many [y0; y1; y2] => Ok (Many (map2 (fun y j => sub_ (spread_ x j) y) [y0; y1; y2] [0; 1; 2]%nat))
  | _, _ => Raise ValueError
  end.
(** Velocities are vectors or nan. *)
Definition osub (a b : option vec) : option vec :=
  match a, b with Some a, Some b => Some (vsub a b) | _, _ => None end.
Definition ospread (a : option vec) (j : nat) : option vec := option_map (fun v => spread v j) a.

(** Centers and targets: integer codes, or objects such as places and stars. Objects
    are equal when they are the same object. *)
Inductive body := Code (z : Z) | Thing (n : nat).
Definition body_eqb (a b : body) : bool :=
  match a, b with Code x, Code y => (x =? y)%Z | Thing x, Thing y => (x =? y)%nat | _, _ => false end.
Definition obody_eqb (a b : option body) : bool :=
  match a, b with Some x, Some y => body_eqb x y | None, None => true | _, _ => false end.
(** Attributes of objects: their rotation to their horizon, and their longitude; and
    the matrices that a time has: [M] (timelib.py 749-767), [C] (775-779) and the
    rotation of the ITRS. *)
Record world := {
  M_of : R -> mat;
  C_of : R -> mat;
  itrs_of : R -> mat;
  rotation_of : nat -> option (R -> mat);
  longitude_at : nat -> option R
}.
(** [getattr(body, 'rotation_at', None)]. *)
Definition rotation_at (w : world) (b : option body) : option (R -> mat) :=
  match b with Some (Thing n) => rotation_of w n | _ => None end.
Definition longitude (w : world) (b : option body) : option R :=
  match b with Some (Thing n) => longitude_at w n | _ => None end.

Inductive kind := ICRF | Barycentric | Geocentric | Astrometric | Apparent.
(** [center_barycentric]: nothing, the position itself, or another one. *)
Inductive bary (P : Type) := NoBary | Itself | Other (p : P).
Arguments NoBary {P}.
Arguments Itself {P}.
Arguments Other {P} p.
Definition kernel : Type := Z -> option (R -> vec).
(** positionlib.py 76-105 (attributes). [light] is [None] when it is computed on
    demand (lines 224-234). *)
Inductive position := Pos {
  class : kind;
  xyz : arr vec;
  velocity : arr (option vec);
  when : option (arr R);
  center : option body;
  target : option body;
  center_barycentric : bary position;
  observer_gcrs : option (arr vec);
  ephemeris : option kernel;
  light : option (arr R)
}.

(** positionlib.py 92, 675, 870: [_default_center]. *)
Definition default_center (k : kind) : option body :=
  match k with Barycentric => Some (Code 0) | Geocentric => Some (Code 399) | _ => None end.
(** positionlib.py 95-105, [ICRF.__init__]. Whether the center is the barycenter is
    decided by the argument, not by the default. *)
Definition construct (k : kind) (x : arr vec) (v : option (arr (option vec))) (t : option (arr R)) (c tg : option body) : position :=
  {| class := k; xyz := x;
     velocity := match v with Some v => v | None => arr_map (fun _ => None) x end;
     when := t;
     center := match c with None => default_center k | Some c => Some c end;
     target := tg;
     center_barycentric := if obody_eqb c (Some (Code 0)) then Itself else NoBary;
     observer_gcrs := None; ephemeris := None; light := None |}.
(** positionlib.py 24-32, [build_position]. *)
Definition build_position (x : arr vec) (v : option (arr (option vec))) (t : option (arr R)) (c tg : option body) : position :=
  let k := if obody_eqb c (Some (Code 0)) then Barycentric
           else if obody_eqb c (Some (Code 399)) then Geocentric else ICRF in
  construct k x v t c tg.
(** positionlib.py 34-58, [position_of_radec]; [epoch] is a time. *)
Definition position_of_radec (w : world) (ra_hours dec_degrees distance_au : R) (epoch : option R)
  (t : option (arr R)) (c tg : option body) : position :=
  let theta := dec_degrees / 360 * tau in
  let phi := ra_hours / 24 * tau in
  let p := from_spherical distance_au theta phi in
  let p := match epoch with None => p | Some e => mxv (transp (M_of w e)) p end in
  build_position (Single p) None t c tg.
(** positionlib.py 66-74, [SSB.at]. *)
Definition ssb_at (t : arr R) : position :=
  construct Barycentric (arr_map (fun _ => vzero) t) (Some (arr_map (fun _ => Some vzero) t)) (Some t) None None.
(** vectorlib.py 73-96, [VectorFunction.at], given what [_at] computed. *)
Definition at_ (eph : option kernel) (c tg : option body) (p : arr vec) (v : arr (option vec)) (g : option (arr vec)) (t : arr R) : position :=
  let q := build_position p (Some v) (Some t) c tg in
  {| class := class q; xyz := xyz q; velocity := velocity q; when := when q; center := center q; target := target q;
     center_barycentric := center_barycentric q; observer_gcrs := g; ephemeris := eph; light := light q |}.

(** positionlib.py 169-181, [__sub__]. No velocity is ever [None] (line 99-101). *)
Definition sub_ (a b : position) : outcome position :=
  if negb (obody_eqb (center a) (center b)) then Raise ValueError
  else bind (numpy_op vsub spread (xyz a) (xyz b)) (fun p =>
       bind (numpy_op osub ospread (velocity a) (velocity b)) (fun v =>
       Ok (build_position p (Some v) (when a) (target b) (target a)))).
(** positionlib.py 183-190, [__getitem__] with an integer. *)
Definition getitem (p : position) (i : Z) : outcome position :=
  bind (arr_index (xyz p) i) (fun x =>
  bind (arr_index (velocity p) i) (fun v =>
  bind (match when p with None => Raise TypeError | Some t => time_index t i end) (fun t =>
  Ok (construct (class p) (Single x) (Some (Single v)) (Some (Single t)) (center p) (target p))))).
(** positionlib.py 192-199, [__neg__]. *)
Definition neg_ (p : position) : position :=
  construct (class p) (arr_map vopp (xyz p)) (Some (arr_map (option_map vopp) (velocity p))) (when p) (target p) (center p).

(** positionlib.py 201-234: [distance] and [light_time], in au and days. *)
Definition distance_ (p : position) : arr R := arr_map vlength (xyz p).
Definition light_time (p : position) : arr R :=
  match light p with Some l => l | None => arr_map (fun d => d * AU_M / C / DAY_S) (distance_ p) end.

(** The [epoch] argument: absent, a time, a float, 'date', or anything else. *)
Inductive epoch := NoEpoch | EpochTime (t : arr R) | EpochFloat (jd : R) | EpochDate | EpochOther.
(** positionlib.py 236-278, [radec]: right ascension, declination (radians) and distance. *)
Definition spherical (v : vec) : R * R * R := let '(r, dec, ra) := to_spherical v in (ra, dec, r).
Definition radec (w : world) (p : position) (e : epoch) : outcome (arr (R * R * R)) :=
  let turned t := bind (bcast (fun t x => mxv (M_of w t) x) t (xyz p)) (fun x => Ok (arr_map spherical x)) in
  match e with
  | NoEpoch => Ok (arr_map spherical (xyz p))
  | EpochTime t => turned t
  | EpochFloat jd => turned (Single jd)
  | EpochDate => match when p with Some t => turned t | None => Raise AttributeError end
  | EpochOther => Raise ValueError
  end.
(** positionlib.py 376-396, [cirs_xyz]. A time built from a float has no timescale
    ([ts] is [None]), but [Time.C] asks its timescale for Delta T (timelib.py
    775-777, 838-844, 880). *)
Definition cirs_xyz (w : world) (p : position) (e : epoch) : outcome (arr vec) :=
  match e with
  | EpochTime t => bcast (fun t x => mxv (C_of w t) x) t (xyz p)
  | EpochFloat _ => Raise AttributeError
  | EpochDate => match when p with Some t => bcast (fun t x => mxv (C_of w t) x) t (xyz p) | None => Raise AttributeError end
  | _ => Raise ValueError
  end.

(** positionlib.py 338-372, [separation_from]. *)
Definition separation_from (p q : position) : outcome (arr R) := bcast angle_between (xyz p) (xyz q).

(** positionlib.py 280-312, [hadec]. *)
Definition hadec_ (w : world) (p : position) : outcome (arr (R * R * R)) :=
  match when p with
  | None => Raise AttributeError
  | Some t =>
      bind (bcast (fun t x => mxv (itrs_of w t) x) t (xyz p)) (fun r =>
      match longitude w (center p) with
      | None => Raise ValueError
      | Some lon => Ok (arr_map (fun x => let '(au, dec, sub) := to_spherical x in (rmod (lon - sub + PI) tau - PI, dec, au)) r)
      end)
  end.

(** positionlib.py 612-620, [_altaz_rotation]: of the observer that a position is. *)
Definition altaz_rotation (w : world) (p : position) : outcome (arr mat) :=
  match rotation_at w (target p) with
  | None => Raise ValueError
  | Some f => match when p with Some t => Ok (arr_map f t) | None => Raise AttributeError end
  end.
(** positionlib.py 314-336, 722-726 and 883-908: [altaz] without refraction. In the
    [else] branch [getattr] has no default, so that it raises AttributeError itself. *)
Definition altaz_ (w : world) (p : position) : outcome (arr (R * R * R)) :=
  match class p with
  | Astrometric => Raise ValueError
  | _ =>
    bind (match center_barycentric p with
          | Itself => altaz_rotation w p
          | Other cb => altaz_rotation w cb
          | NoBary =>
              match rotation_at w (center p) with
              | None => Raise AttributeError
              | Some f => match when p with Some t => Ok (arr_map f t) | None => Raise AttributeError end
              end
          end) (fun R =>
    bind (bcast mxv R (xyz p)) (fun x =>
    Ok (arr_map (fun v => let '(r, alt, az) := to_spherical v in (alt, az, r)) x)))
  end.
(** positionlib.py 622-650, [from_altaz], for one altitude, azimuth and distance. *)
Definition from_altaz_ (w : world) (p : position) (alt az r : R) : outcome position :=
  bind (altaz_rotation w p) (fun R =>
  Ok (construct Apparent (arr_map (fun M => mxv (transp M) (from_spherical r alt az)) R) None None None None)).

(** positionlib.py 677-701, [Barycentric.observe]; [seen] is what the body's
    [_observe_from_bcrs] returns. Other classes have no such method. *)
Record seen := { s_vector : arr vec; s_velocity : arr (option vec); s_time : arr R; s_light : arr R }.
Definition observe (p : position) (target_ : option body) (body_sees : position -> outcome seen) : outcome position :=
  match class p with
  | Barycentric =>
      bind (body_sees p) (fun s =>
      let q := construct Astrometric (s_vector s) (Some (s_velocity s)) (Some (s_time s)) (target p) target_ in
      Ok {| class := class q; xyz := xyz q; velocity := velocity q; when := when q; center := center q; target := target q;
            center_barycentric := Other p; observer_gcrs := observer_gcrs q; ephemeris := ephemeris p; light := Some (s_light s) |})
  | _ => Raise AttributeError
  end.

(** positionlib.py 728-806, [Astrometric.apparent]. Lanes are those of the time,
    the target, the observer's position, velocity and geocentric position, and the
    light time; single values are repeated (lines 758-768). Each lane is computed by
    [Light_Model.apparent]. If some lane is nan the result is [NaNs]. *)
Definition rep {A} (n : nat) (a : arr A) : outcome (list A) :=
  match a with
  | Single x => Ok (repeat x n)
  | Many l => if (length l =? n)%nat then Ok l else Raise ValueError
  end.
Definition one_lane (eph : kernel) (codes : list Z) (t : R) (o : vec) (v : option vec) (g : option vec) (x : vec) (lt : R) : outcome vec :=
  match v with
  | None => NaNs
  | Some v =>
      match Light_Model.apparent eph t o v g x lt codes with
      | Position u => Ok u
      | NotANumber => NaNs
      | UnknownMass _ => Raise KeyError_
      | MissingBody _ => Raise ValueError
      end
  end.
Fixpoint lanes_ (eph : kernel) (codes : list Z) (ts : list R) (os : list vec) (vs : list (option vec)) (gs : list (option vec))
  (xs : list vec) (lts : list R) : outcome (list vec) :=
  match ts, os, vs, gs, xs, lts with
  | t :: ts, o :: os, v :: vs, g :: gs, x :: xs, lt :: lts =>
      bind (one_lane eph codes t o v g x lt) (fun u => bind (lanes_ eph codes ts os vs gs xs lts) (fun us => Ok (u :: us)))
  | _, _, _, _, _, _ => Ok []
  end.
Definition oarr {A} (n : nat) (a : option (arr A)) : outcome (list (option A)) :=
  match a with None => Ok (repeat None n) | Some a => bind (rep n a) (fun l => Ok (map Some l)) end.
Definition no_bodies : kernel := fun _ => None.
Definition apparent_xyz (p cb : position) (t : arr R) (codes : list Z) : outcome (arr vec) :=
  (* without an ephemeris even the lookup fails, unless no deflector is named *)
  match ephemeris p, codes with
  | None, code :: _ => match rmass_of code with None => Raise KeyError_ | Some _ => Raise TypeError end
  | eph, _ =>
      let eph := match eph with Some e => e | None => no_bodies end in
      match xyz p with
      | Single x =>
          match xyz cb, velocity cb, t, light_time p with
          | Single o, Single v, Single t, Single lt =>
              match observer_gcrs cb with
              | None => bind (one_lane eph codes t o v None x lt) (fun u => Ok (Single u))
              | Some (Single g) => bind (one_lane eph codes t o v (Some g) x lt) (fun u => Ok (Single u))
              | Some _ => Raise ValueError
              end
          | _, _, _, _ => Raise ValueError
          end
      | Many xs =>
          let n := length xs in
          bind (rep n t) (fun ts => bind (rep n (xyz cb)) (fun os => bind (rep n (velocity cb)) (fun vs =>
          bind (oarr n (observer_gcrs cb)) (fun gs => bind (rep n (light_time p)) (fun lts =>
          bind (lanes_ eph codes ts os vs gs xs lts) (fun us => Ok (Many us)))))))
      end
  end.
(** positionlib.py 764-768: a single observer gets a last axis of length one. *)
Definition reshaped (p cb : position) : option (arr vec) :=
  match xyz p, xyz cb, observer_gcrs cb with
  | Many _, Single _, Some (Single g) => Some (Many [g])
  | _, _, g => g
  end.
Definition apparent_ (p : position) (codes : list Z) : outcome position :=
  match class p with
  | Astrometric =>
      match center_barycentric p with
      | NoBary => Raise AttributeError
      | b =>
          let cb := match b with Other cb => cb | _ => p end in
          match when p with
          | None => Raise AttributeError
          | Some t =>
              bind (apparent_xyz p cb t codes) (fun u =>
              let q := construct Apparent u (Some (velocity p)) (Some t) (center p) (target p) in
              Ok {| class := class q; xyz := xyz q; velocity := velocity q; when := when q; center := center q; target := target q;
                    center_barycentric := match b with Other cb => Other cb | _ => Other p end;
                    observer_gcrs := reshaped p cb; ephemeris := ephemeris q; light := light q |})
          end
      end
  | _ => Raise AttributeError
  end.
(** The default of [deflectors]. *)
Definition default_deflectors : list Z := [10; 599; 699]%Z.

(** positionlib.py 570-592 and 594-610: [is_sunlit] and [is_behind_earth]. [sun] is
    the Sun relative to the Earth; lengths in au. *)
Definition is_sunlit_ (p : position) (sun : R -> vec) : outcome (arr bool) :=
  match when p with
  | None => Raise ValueError
  | Some t =>
      bind (if obody_eqb (center p) (Some (Code 399)) then Ok (xyz p)
            else match observer_gcrs p with None => Raise ValueError | Some g => numpy_op vadd spread (xyz p) g end) (fun sat =>
      bcast (fun t s => Geo_Model.is_sunlit s (sun t) earth_radius_au) t sat)
  end.
Definition is_behind_earth_ (p : position) : outcome (arr bool) :=
  match observer_gcrs p with
  | None => Raise ValueError
  | Some g => bcast (fun g x => Geo_Model.is_behind_earth g x earth_radius_au) g (xyz p)
  end.
(** positionlib.py 535-554, [phase_angle]. *)
Definition phase_angle_ (p : position) (sun : R -> vec) : outcome (arr R) :=
  match when p with
  | None => Raise ValueError
  | Some t =>
      match center_barycentric p with
      | NoBary => Raise AttributeError
      | b =>
          let cb := match b with Other cb => cb | _ => p end in
          match xyz p, t, xyz cb with
          | Single u, Single t, Single c => Ok (Single (angle_between u (vadd (vsub u (sun t)) c)))
          | Many us, Many ts, Many cs =>
              if ((length us =? length ts) && (length us =? length cs))%nat
              then Ok (Many (map2 angle_between us (map2 vadd (map2 (fun u t => vsub u (sun t)) us ts) cs)))
              else Raise ValueError
          | _, _, _ => Raise ValueError
          end
      end
  end.
