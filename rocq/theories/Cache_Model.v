(** Model of the cached attributes of [Time] in skyfield/timelib.py: which
    attribute computes which others, what is stored, and what the almanac
    functions overwrite. The numbers themselves are opaque: every numerical
    routine is a parameter, so the theorems hold whatever they compute. *)
From Coq Require Import List Bool.
Import ListNotations.

(** Keys of the instance's [__dict__] where attributes are cached (descriptorlib.py
    3-14). The last two are the names of ordinary methods. *)
Inductive attr :=
| tai_fraction | tdb_fraction | ut1_fraction | delta_t | dut1 | tai_seconds | utc | J
| nutation_angles | mean_obliquity | gmst | gast | P | N | PT | NT | M | MT | C | CT
| precession_matrix_name | nutation_matrix_name.
Definition attr_eqb (a b : attr) : bool :=
  match a, b with
  | tai_fraction, tai_fraction | tdb_fraction, tdb_fraction | ut1_fraction, ut1_fraction
  | delta_t, delta_t | dut1, dut1 | tai_seconds, tai_seconds | utc, utc | J, J
  | nutation_angles, nutation_angles | mean_obliquity, mean_obliquity | gmst, gmst | gast, gast
  | P, P | N, N | PT, PT | NT, NT | M, M | MT, MT | C, C | CT, CT
  | precession_matrix_name, precession_matrix_name | nutation_matrix_name, nutation_matrix_name => true
  | _, _ => false
  end.
(** What a program can read: a cached attribute, or one of the properties that
    are recomputed each time (timelib.py 867-881). *)
Inductive name := Attr (a : attr) | Tai | Tt | Tdb | Ut1.
(** A value, or the TypeError of calling something that is not callable. *)
Inductive outcome (V : Type) := Value (v : V) | TypeError.
Arguments Value {V} v.
Arguments TypeError {V}.

Section Time.
Variable V : Type.

(** The numerical routines, for one time object. [whole] and [tt_fraction] are
    fixed, so routines of these alone are constants. *)
Record routines := {
  r_tt : V;                       (* whole + tt_fraction *)
  r_tai_fraction : V;             (* timelib.py 829-831 *)
  r_tdb_fraction : V;             (* 833-836 *)
  r_delta_t : V;                  (* 842-844 *)
  r_J : V;                        (* 811-820 *)
  r_iau2000a : V;                 (* nutationlib.py 26-33 *)
  r_iau2000b : V;                 (* nutationlib.py 35-41 *)
  r_ut1_fraction : V -> V;        (* 838-840, of delta_t *)
  r_plus_whole : V -> V;          (* 867-881, whole + fraction *)
  r_tai_seconds : V -> V;         (* 696-702, of tai_fraction *)
  r_utc : V -> V;                 (* 822-827, of the TAI seconds *)
  r_leap_seconds : V -> V;        (* 704-708, of the TAI seconds *)
  r_dut1 : V -> V -> V;           (* 846-848, of leap seconds and delta_t *)
  r_obliquity : V -> V;           (* 806-809, of tdb *)
  r_gmst : V -> V -> V;           (* earthlib.py 110-127, of ut1_fraction and tdb_fraction *)
  r_gast : V -> V -> V -> V;      (* 855-863, of nutation, obliquity and gmst *)
  r_precession : V -> V;          (* 909-911, of tdb *)
  r_nutation : V -> V -> V;       (* 901-907, of nutation angles and obliquity *)
  r_mxmxm : V -> V -> V;          (* 767, N P B *)
  r_transpose : V -> V;           (* rollaxis *)
  r_C : V -> V -> V -> V          (* 774-779, of ut1, gast and M *)
}.
Variable r : routines.

(** The instance's [__dict__]. *)
Definition cache := attr -> option V.
Definition store (c : cache) (a : attr) (v : V) : cache := fun b => if attr_eqb a b then Some v else c b.

(** Python code that reads and fills the cache. An exception leaves the cache as
    it is at that point. *)
Definition code := cache -> outcome V * cache.
Definition ret (v : V) : code := fun c => (Value v, c).
Definition bind (p : code) (q : V -> code) : code := fun c =>
  match p c with
  | (Value v, c) => q v c
  | (TypeError, c) => (TypeError, c)
  end.
Notation "'do' x <- p ; q" := (bind p (fun x => q)) (at level 60, x name, q at level 60).

(** descriptorlib.py 9-14 with Python's attribute lookup: a value stored under
    the attribute's own name wins, otherwise the method runs and its result is
    stored under the method's [__name__]. *)
Definition reify_as (a key : attr) (method : code) : code := fun c =>
  match c a with
  | Some v => (Value v, c)
  | None =>
      match method c with
      | (Value v, c) => (Value v, store c key v)
      | (TypeError, c) => (TypeError, c)
      end
  end.
(** With the decorator syntax the two names agree. *)
Definition reify (a : attr) : code -> code := reify_as a a.
(** Calling an ordinary method: a value stored in the instance under the method's
    name hides it, and is not callable. *)
Definition call (key : attr) (method : code) : code := fun c =>
  match c key with
  | Some _ => (TypeError, c)
  | None => method c
  end.

Definition get_tai_fraction := reify tai_fraction (ret (r_tai_fraction r)).
Definition get_tdb_fraction := reify tdb_fraction (ret (r_tdb_fraction r)).
Definition get_delta_t := reify delta_t (ret (r_delta_t r)).
Definition get_J := reify J (ret (r_J r)).
(** timelib.py 787-791. *)
Definition get_nutation_angles := reify nutation_angles (ret (r_iau2000a r)).
Definition get_ut1_fraction := reify ut1_fraction (do d <- get_delta_t; ret (r_ut1_fraction r d)).
Definition get_tai := do f <- get_tai_fraction; ret (r_plus_whole r f).
Definition get_tdb := do f <- get_tdb_fraction; ret (r_plus_whole r f).
Definition get_ut1 := do f <- get_ut1_fraction; ret (r_plus_whole r f).
Definition get_tai_seconds := reify tai_seconds (do f <- get_tai_fraction; ret (r_tai_seconds r f)).
Definition get_utc := reify utc (do s <- get_tai_seconds; ret (r_utc r s)).
Definition get_dut1 := reify dut1
  (do s <- get_tai_seconds; do d <- get_delta_t; ret (r_dut1 r (r_leap_seconds r s) d)).
Definition get_obliquity := reify mean_obliquity (do t <- get_tdb; ret (r_obliquity r t)).
Definition get_gmst := reify gmst
  (do u <- get_ut1_fraction; do t <- get_tdb_fraction; ret (r_gmst r u t)).
Definition get_gast := reify gast
  (do n <- get_nutation_angles; do o <- get_obliquity; do g <- get_gmst; ret (r_gast r n o g)).
(** timelib.py 901-911, the functions. *)
Definition nutation_matrix := do n <- get_nutation_angles; do o <- get_obliquity; ret (r_nutation r n o).
Definition precession_matrix := do t <- get_tdb; ret (r_precession r t).
(** timelib.py 966-974: [P = reify(precession_matrix)] keeps the function's
    [__name__]. *)
Definition get_P := reify_as P precession_matrix_name precession_matrix.
Definition get_N := reify_as N nutation_matrix_name nutation_matrix.
Definition get_PT := reify PT (do p <- get_P; ret (r_transpose r p)).
Definition get_NT := reify NT (do n <- get_N; ret (r_transpose r n)).
(** timelib.py 748-767: [d.get] looks for [P] and [N], and otherwise the methods
    are called through the instance. *)
Definition get_or (a : attr) (p : code) : code := fun c =>
  match c a with Some v => (Value v, c) | None => p c end.
Definition get_M := reify M
  (do p <- get_or P (call precession_matrix_name precession_matrix);
   do n <- get_or N (call nutation_matrix_name nutation_matrix);
   ret (r_mxmxm r n p)).
Definition get_MT := reify MT (do m <- get_M; ret (r_transpose r m)).
(** timelib.py 774-785. *)
Definition get_C := reify C (do u <- get_ut1; do g <- get_gast; do m <- get_M; ret (r_C r u g m)).
Definition get_CT := reify CT (do m <- get_C; ret (r_transpose r m)).

(** Reading any attribute: what it gives and the cache afterwards. The last two
    names stand for calling the methods. *)
Definition read (n : name) : code :=
  match n with
  | Tai => get_tai | Tdb => get_tdb | Ut1 => get_ut1 | Tt => ret (r_tt r)
  | Attr a =>
      match a with
      | tai_fraction => get_tai_fraction | tdb_fraction => get_tdb_fraction | ut1_fraction => get_ut1_fraction
      | delta_t => get_delta_t | dut1 => get_dut1 | tai_seconds => get_tai_seconds | utc => get_utc | J => get_J
      | nutation_angles => get_nutation_angles | mean_obliquity => get_obliquity | gmst => get_gmst
      | gast => get_gast | P => get_P | N => get_N | PT => get_PT | NT => get_NT
      | M => get_M | MT => get_MT | C => get_C | CT => get_CT
      | precession_matrix_name => call precession_matrix_name precession_matrix
      | nutation_matrix_name => call nutation_matrix_name nutation_matrix
      end
  end.

(** What a program does with a time object: read an attribute, or pass it to an
    almanac function (almanac.py 76-80, 121-127, 199-212, 236-244, 273-283,
    302-305, 312-313; almanac_east_asia.py 138-140), which overwrites the nutation
    angles and then reads attributes. *)
Inductive operation := Read (n : name) | Almanac (reads : list name).
Definition read_all (ns : list name) (c : cache) : cache := fold_left (fun c n => snd (read n c)) ns c.
Definition step (c : cache) (o : operation) : cache :=
  match o with
  | Read n => snd (read n c)
  | Almanac ns => read_all ns (store c nutation_angles (r_iau2000b r))
  end.
Definition run (ops : list operation) (c : cache) : cache := fold_left step ops c.
(** What a program sees. *)
Definition value (n : name) (c : cache) : outcome V := fst (read n c).

End Time.
