(** Model of the measurement objects in skyfield/units.py: [Distance], [Velocity],
    [Angle], [AngleRate] and [Rate], for single numbers in binary64. An object is its
    class and its attribute dictionary; a unit that is asked for is computed and
    stored in the dictionary. *)
From Coq Require Import ZArith Bool List.
From Coq Require Import Floats.SpecFloat.
From Verif Require Import Float64.
Import ListNotations.
Open Scope Z_scope.

(** constants.py 4-7 and 14: AU_M, AU_KM, DAY_S and tau. *)
Definition AU_M64 : b64 := of_Z 149597870700.
Definition AU_KM64 : b64 := fl 5019671579747942 (-25).
Definition DAY_S64 : b64 := of_Z 86400.
Definition tau64 : b64 := fl 7074237752028440 (-50).

Inductive class := Distance | Velocity | Angle.
Inductive unit_name := au | km | m | au_per_d | km_per_s | m_per_s | radians | degrees | hours | underscore_degrees | underscore_hours.
Definition name_eq_dec (a b : unit_name) : {a = b} + {a <> b}. Proof. decide equality. Defined.
Inductive preferred := InDegrees | InHours.
Inductive outcome (A : Type) := Value (a : A) | TypeError | AttributeError | ValueError | WrongUnitError.
Arguments Value {A} _.
Arguments TypeError {A}.
Arguments AttributeError {A}.
Arguments ValueError {A}.
Arguments WrongUnitError {A}.
Record measure := { cls : class; dict : unit_name -> option b64; preference : option preferred; signed : option bool }.
(** A new object without attributes. *)
Definition blank (c : class) : measure := {| cls := c; dict := fun _ => None; preference := None; signed := None |}.
Definition set (o : measure) (n : unit_name) (v : b64) : measure :=
  {| cls := cls o; dict := fun x => if name_eq_dec x n then Some v else dict o x; preference := preference o; signed := signed o |}.

(** ** Reading an attribute *)
(** units.py 74-79, [getset.__get__], for a unit with a factor. The core unit itself
    has no factor and no core unit, so that its own [__get__] calls
    [getattr(instance, None)], a TypeError. *)
Definition get_factor (o : measure) (n core : unit_name) (factor : b64) : outcome b64 * measure :=
  match dict o core with
  | Some v => let v := fmul v factor in (Value v, set o n v)
  | None => (TypeError, o)
  end.
(** units.py 311-319, [Angle.hours] and [Angle.degrees]. *)
Definition get_angle (o : measure) (n : unit_name) (circle : Z) : outcome b64 * measure :=
  match dict o radians with
  | Some v => let v := fdiv (fmul v (of_Z circle)) tau64 in (Value v, set o n v)
  | None => (TypeError, o)
  end.
(** The instance dictionary comes first; then units.py 116-119 for [Distance],
    170-174 for [Velocity], 303-319 for [Angle]. *)
Definition read_plain (o : measure) (n : unit_name) : outcome b64 * measure :=
  match dict o n with
  | Some v => (Value v, o)
  | None =>
      match cls o, n with
      | Distance, au => (TypeError, o)
      | Distance, km => get_factor o km au AU_KM64
      | Distance, m => get_factor o m au AU_M64
      | Velocity, au_per_d => (TypeError, o)
      | Velocity, km_per_s => get_factor o km_per_s au_per_d (fdiv AU_KM64 DAY_S64)
      | Velocity, m_per_s => get_factor o m_per_s au_per_d (fdiv AU_M64 DAY_S64)
      | Angle, radians => (TypeError, o)
      | Angle, degrees => get_angle o degrees 360
      | Angle, hours => get_angle o hours 24
      | _, _ => (AttributeError, o)
      end
  end.
(** units.py 306-309, [_hours] and [_degrees]. *)
Definition read (o : measure) (n : unit_name) : outcome b64 * measure :=
  let again (other : unit_name) :=
    match dict o n with
    | Some v => (Value v, o)
    | None =>
        match cls o with
        | Angle => match read_plain o other with (Value v, o) => (Value v, set o n v) | r => r end
        | _ => (AttributeError, o)
        end
    end in
  match n with
  | underscore_degrees => again degrees
  | underscore_hours => again hours
  | _ => read_plain o n
  end.

(** ** Making an object *)
(** units.py 100-110, [Distance.__init__]. *)
Definition distance (au_ km_ m_ : option b64) : outcome measure :=
  match au_, km_, m_ with
  | Some x, _, _ => Value (set (blank Distance) au x)
  | None, Some x, _ => Value (set (set (blank Distance) km x) au (fdiv x AU_KM64))
  | None, None, Some x => Value (set (set (blank Distance) m x) au (fdiv x AU_M64))
  | None, None, None => ValueError
  end.
(** units.py 160-169, [Velocity.__init__]. *)
Definition velocity (au_per_d_ km_per_s_ : option b64) : outcome measure :=
  match km_per_s_, au_per_d_ with
  | Some x, _ => Value (set (set (blank Velocity) km_per_s x) au_per_d (fdiv (fmul x DAY_S64) AU_KM64))
  | None, Some x => Value (set (blank Velocity) au_per_d x)
  | None, None => ValueError
  end.
(** units.py 53-72: the constructors [Distance.km(x)] and so on, for the units defined
    with [getset]; other names are not constructors. *)
Definition class_constructor (c : class) (n : unit_name) (x : b64) : outcome measure :=
  match c, n with
  | Distance, au => Value (set (blank Distance) au x)
  | Distance, km => Value (set (set (blank Distance) km x) au (fdiv x AU_KM64))
  | Distance, m => Value (set (set (blank Distance) m x) au (fdiv x AU_M64))
  | Velocity, au_per_d => Value (set (blank Velocity) au_per_d x)
  | Velocity, km_per_s => Value (set (set (blank Velocity) km_per_s x) au_per_d (fdiv x (fdiv AU_KM64 DAY_S64)))
  | Velocity, m_per_s => Value (set (set (blank Velocity) m_per_s x) au_per_d (fdiv x (fdiv AU_M64 DAY_S64)))
  | Angle, radians => Value (set (blank Angle) radians x)
  | Angle, (degrees | hours | underscore_degrees | underscore_hours) => TypeError
  | _, _ => AttributeError
  end.
Definition with_style (o : measure) (p : preferred) (s : bool) : measure :=
  {| cls := cls o; dict := dict o; preference := Some p; signed := Some s |}.
(** units.py 272-291, [Angle.__init__]; numbers stand for themselves, and tuples for
    what [_unsexagesimalize] makes of them. *)
Definition angle (angle_ : option measure) (radians_ degrees_ hours_ : option b64) (preference_ : option preferred) (signed_ : bool) : outcome measure :=
  let style := match preference_ with Some p => p | None => match hours_ with Some _ => InHours | None => InDegrees end end in
  match angle_, radians_, degrees_, hours_ with
  | Some a, _, _, _ =>
      match cls a with
      | Angle => match dict a radians with
                 | Some x => Value (with_style (set (blank Angle) radians x) style signed_)
                 | None => TypeError
                 end
      | _ => ValueError
      end
  | None, Some x, _, _ => Value (with_style (set (blank Angle) radians x) style signed_)
  | None, None, Some x, _ => Value (with_style (set (set (blank Angle) degrees x) radians (fmul (fdiv x (of_Z 360)) tau64)) style signed_)
  | None, None, None, Some x => Value (with_style (set (set (blank Angle) hours x) radians (fmul (fdiv x (of_Z 24)) tau64)) style signed_)
  | None, None, None, None => Value (with_style (blank Angle) style signed_)
  end.
(** units.py 293-301, [Angle.from_degrees]. *)
Definition from_degrees (x : b64) (signed_ : bool) : measure :=
  with_style (set (set (blank Angle) degrees x) radians (fmul (fdiv x (of_Z 360)) tau64)) InDegrees signed_.

(** ** Using an angle *)
(** What is split or printed: a number of degrees (with the sign style) or of hours. *)
Inductive shown := ShownDegrees (signed : bool) (x : b64) | ShownHours (x : b64) | SplitDegrees (x : b64) | SplitHours (x : b64) | Number (x : b64).
Definition then_ {A B} (r : outcome A * measure) (f : A -> measure -> outcome B * measure) : outcome B * measure :=
  match r with
  | (Value a, o) => f a o
  | (TypeError, o) => (TypeError, o)
  | (AttributeError, o) => (AttributeError, o)
  | (ValueError, o) => (ValueError, o)
  | (WrongUnitError, o) => (WrongUnitError, o)
  end.
Definition attribute {A} (o : measure) (x : option A) : outcome A * measure := (match x with Some a => Value a | None => AttributeError end, o).
(** The check [if warn and self.preference != ...]. *)
Definition check (o : measure) (warn : bool) (wanted : preferred) : outcome unit * measure :=
  if warn then
    then_ (attribute o (preference o)) (fun p o =>
      (match p, wanted with InDegrees, InDegrees | InHours, InHours => Value tt | _, _ => WrongUnitError end, o))
  else (Value tt, o).
Inductive use := Read (n : unit_name) | Arcminutes | Arcseconds | Mas | Str | Hms (warn : bool) | Dms (warn : bool) | Hstr (warn : bool) | Dstr (warn : bool).
(** units.py 321-331 [arcminutes], [arcseconds], [mas], 333-348 [__str__], 356-376
    [hms], [signed_hms], 378-393 [hstr], 395-415 [dms], [signed_dms], 417-435 [dstr]; for objects of another class these names are
    missing, and [__str__] prints the core unit. *)
Definition perform (o : measure) (u : use) : outcome shown * measure :=
  match u with
  | Read n => then_ (read o n) (fun v o => (Value (Number v), o))
  | Arcminutes => match cls o with Angle => then_ (read o degrees) (fun v o => (Value (Number (fmul v (of_Z 60))), o)) | _ => (AttributeError, o) end
  | Arcseconds => match cls o with Angle => then_ (read o degrees) (fun v o => (Value (Number (fmul v (of_Z 3600))), o)) | _ => (AttributeError, o) end
  | Mas => match cls o with Angle => then_ (read o degrees) (fun v o => (Value (Number (fmul v (of_Z 3600000))), o)) | _ => (AttributeError, o) end
  | Str =>
      match cls o with
      | Distance => then_ (read o au) (fun v o => (Value (Number v), o))
      | Velocity => then_ (read o au_per_d) (fun v o => (Value (Number v), o))
      | Angle =>
          then_ (read o radians) (fun _ o =>
          then_ (attribute o (preference o)) (fun p o =>
          match p with
          | InDegrees => then_ (read o degrees) (fun v o => then_ (attribute o (signed o)) (fun s o => (Value (ShownDegrees s v), o)))
          | InHours => then_ (read o hours) (fun v o => (Value (ShownHours v), o))
          end))
      end
  | Hms warn => match cls o with Angle => then_ (check o warn InHours) (fun _ o => then_ (read o hours) (fun v o => (Value (SplitHours v), o))) | _ => (AttributeError, o) end
  | Dms warn => match cls o with Angle => then_ (check o warn InDegrees) (fun _ o => then_ (read o degrees) (fun v o => (Value (SplitDegrees v), o))) | _ => (AttributeError, o) end
  | Hstr warn => match cls o with Angle => then_ (check o warn InHours) (fun _ o => then_ (read o hours) (fun v o => (Value (ShownHours v), o))) | _ => (AttributeError, o) end
  | Dstr warn => match cls o with Angle => then_ (check o warn InDegrees) (fun _ o => then_ (read o degrees) (fun v o => then_ (attribute o (signed o)) (fun s o => (Value (ShownDegrees s v), o)))) | _ => (AttributeError, o) end
  end.
Definition after (o : measure) (us : list use) : measure := fold_left (fun o u => snd (perform o u)) us o.

(** ** Rates *)
Inductive angle_unit := ARadians | ADegrees | AArcminutes | AArcseconds | AMas.
Inductive period := PerDay | PerHour | PerMinute | PerSecond.
(** units.py 200-223, the attributes of [AngleRate]. *)
Definition per_day_in (radians_per_day : b64) (u : angle_unit) : b64 :=
  match u with
  | ARadians => radians_per_day
  | ADegrees => fmul (fdiv radians_per_day tau64) (of_Z 360)
  | AArcminutes => fmul (fdiv radians_per_day tau64) (of_Z 21600)
  | AArcseconds => fmul (fdiv radians_per_day tau64) (of_Z 1296000)
  | AMas => fmul (fdiv radians_per_day tau64) (of_Z 1296000000)
  end.
(** units.py 238-256, the attributes of [Rate]. *)
Definition per_period (per_day : b64) (p : period) : b64 :=
  match p with
  | PerDay => per_day
  | PerHour => fdiv per_day (of_Z 24)
  | PerMinute => fdiv per_day (of_Z 1440)
  | PerSecond => fdiv per_day (of_Z 86400)
  end.
