(** Model of times that are arrays: the NumPy arrays that constructors of [Time] in
    skyfield/timelib.py take, make, keep and change. Numbers are exact rationals. Arrays
    live in a store, so that it shows when two names are the same array. *)
From Coq Require Import ZArith QArith List Bool.
From Verif Require Import PyNum Time_Model.
Import ListNotations.

(** * NumPy *)
(** An array: type of its numbers, sizes of its dimensions, and the number at an index. *)
Inductive dtype := Int64 | Float64.
Record arr := { dt : dtype; shape : list nat; item : list nat -> Q }.
Definition store := list arr.
Definition null : arr := {| dt := Float64; shape := []; item := fun _ => 0 |}.
Definition fetch (h : store) (a : nat) : arr := nth a h null.
(** A value is a [float64] number or a reference to an array of one dimension or more. *)
Inductive value := Num (x : Q) | Ref (a : nat).
(** Exceptions: shapes that do not fit, a number that is indexed, an index out of range,
    and a floating point result put into an array of integers. *)
Inductive outcome (A : Type) := Ok (a : A) | ValueError | TypeError | IndexError.
Arguments Ok {A} _. Arguments ValueError {A}. Arguments TypeError {A}. Arguments IndexError {A}.
Definition bind {A B} (r : outcome A) (f : A -> outcome B) : outcome B :=
  match r with Ok a => f a | ValueError => ValueError | TypeError => TypeError | IndexError => IndexError end.

Definition alloc (h : store) (a : arr) : store * value := (h ++ [a], Ref (length h)).
Fixpoint update (h : store) (a : nat) (x : arr) : store :=
  match h, a with [], _ => [] | _ :: r, O => x :: r | y :: r, S a => y :: update r a x end.
Definition ndim (h : store) (v : value) : nat := match v with Num _ => 0%nat | Ref a => length (shape (fetch h a)) end.
Definition shape_of (h : store) (v : value) : list nat := match v with Num _ => [] | Ref a => shape (fetch h a) end.

(** Broadcasting: dimensions are matched from the last one on, and a dimension of size 1
    stretches. *)
Fixpoint bc (a b : list nat) : option (list nat) :=
  match a, b with
  | [], _ => Some b
  | _, [] => Some a
  | x :: a, y :: b =>
      match bc a b with
      | Some r => if Nat.eqb x y then Some (x :: r) else if Nat.eqb x 1 then Some (y :: r) else if Nat.eqb y 1 then Some (x :: r) else None
      | None => None
      end
  end.
Definition broadcast (a b : list nat) : option (list nat) := option_map (@rev nat) (bc (rev a) (rev b)).
Fixpoint clip (s idx : list nat) : list nat :=
  match s, idx with d :: s, i :: idx => (if Nat.eqb d 1 then 0%nat else i) :: clip s idx | _, _ => [] end.
Definition stretched (s idx : list nat) : list nat := clip s (skipn (length idx - length s) idx).
Definition read (h : store) (v : value) (idx : list nat) : Q :=
  match v with Num x => x | Ref a => item (fetch h a) (stretched (shape (fetch h a)) idx) end.
(** Arithmetic with floating point results: a number from numbers, else a new array. *)
Definition arith (f : Q -> Q -> Q) (h : store) (a b : value) : outcome (store * value) :=
  match a, b with
  | Num x, Num y => Ok (h, Num (f x y))
  | _, _ =>
      match broadcast (shape_of h a) (shape_of h b) with
      | None => ValueError
      | Some s => Ok (alloc h {| dt := Float64; shape := s; item := fun idx => f (read h a idx) (read h b idx) |})
      end
  end.
(** [a /= x] with a number [x]: changes the array. *)
Definition divide_in_place (h : store) (a : value) (x : Q) : outcome (store * value) :=
  match a with
  | Num y => Ok (h, Num (y / x))
  | Ref a =>
      match dt (fetch h a) with
      | Int64 => TypeError
      | Float64 => Ok (update h a {| dt := Float64; shape := shape (fetch h a); item := fun idx => item (fetch h a) idx / x |}, Ref a)
      end
  end.
(** [full_like(b, x)] has the shape and the type of [b]. *)
Definition full_like (b : arr) (x : Q) : arr :=
  {| dt := dt b; shape := shape b; item := fun _ => match dt b with Int64 => inject_Z (qtrunc x) | Float64 => x end |}.
(** [a.shape += (1,) * k]. *)
Definition add_dims (a : arr) (k : nat) : arr :=
  {| dt := dt a; shape := shape a ++ repeat 1%nat k; item := fun idx => item a (firstn (length (shape a)) idx) |}.
(** [v[i]]. *)
Definition subscript (h : store) (v : value) (i : nat) : outcome (store * value) :=
  match v with
  | Num _ => TypeError
  | Ref a =>
      match shape (fetch h a) with
      | [] => IndexError
      | n :: s =>
          if Nat.ltb i n then
            match s with
            | [] => Ok (h, Num (item (fetch h a) [i]))
            | _ => Ok (alloc h {| dt := dt (fetch h a); shape := s; item := fun idx => item (fetch h a) (i :: idx) |})
            end
          else IndexError
      end
  end.

(** * Skyfield *)
(** What a caller gives: a number, a plain sequence (nested for more dimensions), or an
    array that exists already. *)
Inductive given := GNum (x : Q) | GList (a : arr) | GArray (a : nat).
(** functions.py 166-180, [_to_array]. *)
Definition to_array (h : store) (g : given) : store * value :=
  match g with GNum x => (h, Num x) | GList a => alloc h a | GArray a => (h, Ref a) end.
(** functions.py 182-198, [_reconcile]. *)
Definition reconcile (h : store) (a b : value) : store * value * value :=
  match a, b with
  | Num _, Num _ => (h, a, b)
  | Num x, Ref k => let '(h, a) := alloc h (full_like (fetch h k) x) in (h, a, b)
  | Ref k, Num x => let '(h, b) := alloc h (full_like (fetch h k) x) in (h, a, b)
  | Ref k, Ref l =>
      let n := length (shape (fetch h k)) in
      let m := length (shape (fetch h l)) in
      if Nat.ltb n m then (update h k (add_dims (fetch h k) (m - n)), a, b)
      else if Nat.ltb m n then (update h l (add_dims (fetch h l) (n - m)), a, b)
      else (h, a, b)
  end.
(** timelib.py 1210-1216, [_normalize_jd_and_fraction]; [divmod] makes two new arrays. *)
Definition normalize (h : store) (jd : given) (fraction : option given) : store * value * value :=
  let '(h, jd) := to_array h jd in
  match fraction with
  | None =>
      match jd with
      | Num x => (h, Num (inject_Z (qdiv x 1)), Num (qmod x 1))
      | Ref k =>
          let a := fetch h k in
          let '(h, w) := alloc h {| dt := Float64; shape := shape a; item := fun idx => inject_Z (qdiv (item a idx) 1) |} in
          let '(h, f) := alloc h {| dt := Float64; shape := shape a; item := fun idx => qmod (item a idx) 1 |} in
          (h, w, f)
      end
  | Some f => let '(h, f) := to_array h f in reconcile h jd f
  end.
(** timelib.py 424-430, [Time.__init__], with the attributes constructors set. *)
Record times := { t_whole : value; t_fraction : value; t_tai : option value; t_ut1 : option value }.
(** timelib.py 315-318, [tt_jd]; 294-299, [tai_jd]; 320-329, [J]. *)
Definition tt_jd (h : store) (jd : given) (fraction : option given) : store * times :=
  let '(h, w, f) := normalize h jd fraction in
  (h, {| t_whole := w; t_fraction := f; t_tai := None; t_ut1 := None |}).
Definition tai_jd (h : store) (jd : given) (fraction : option given) : outcome (store * times) :=
  let '(h, w, f) := normalize h jd fraction in
  bind (arith Qplus h f (Num tt_minus_tai)) (fun '(h, ttf) =>
  Ok (h, {| t_whole := w; t_fraction := ttf; t_tai := Some f; t_ut1 := None |})).
Definition from_J (h : store) (year : given) : outcome (store * times) :=
  let '(h, y) := to_array h year in
  bind (arith Qmult h y (Num (1461 # 4))) (fun '(h, d) =>
  bind (arith Qplus h d (Num 1721045)) (fun '(h, tt) =>
  Ok (h, {| t_whole := tt; t_fraction := Num 0; t_tai := None; t_ut1 := None |}))).
(** iokit.py 377-378: [timescale(delta_t=c)] makes [Splines([0, 1, c])]; curvelib.py
    20-29 with a single coefficient, which is indexed with an array of zeros. The type of
    the coefficient is that of [c]. *)
Definition constant_delta_t (ty : dtype) (c : Q) (h : store) (tt : value) : store * value :=
  match tt with
  | Num _ => (h, Num c)
  | Ref a => alloc h {| dt := ty; shape := shape (fetch h a); item := fun _ => c |}
  end.
(** timelib.py 367-390, [ut1_jd], with a function for Delta T. *)
Definition ut1_jd (delta_t : store -> value -> store * value) (h : store) (jd : given) : outcome (store * times) :=
  let '(h, ut1) := to_array h jd in
  let '(h, d) := delta_t h ut1 in
  bind (arith Qdiv h d (Num DAY_S)) (fun '(h, d) =>
  bind (arith Qplus h ut1 d) (fun '(h, tt) =>
  let '(h, d) := delta_t h tt in
  bind (divide_in_place h d DAY_S) (fun '(h, d) =>
  bind (arith Qmult h (Num 0) ut1) (fun '(h, z) =>
  Ok (h, {| t_whole := ut1; t_fraction := d; t_tai := None; t_ut1 := Some z |}))))).
(** timelib.py 432-436, [__len__]; the shape of [whole] is empty for a single time. *)
Definition time_len (h : store) (t : times) : outcome nat :=
  match shape_of h (t_whole t) with [] => TypeError | n :: _ => Ok n end.
(** timelib.py 447-457, [__getitem__]. *)
Definition keep (h : store) (v : option value) (i : nat) : outcome (store * option value) :=
  match v with
  | None => Ok (h, None)
  | Some v => bind (subscript h v i) (fun '(h, v) => Ok (h, Some v))
  end.
Definition time_at (h : store) (t : times) (i : nat) : outcome (store * times) :=
  match shape_of h (t_whole t) with
  | [] => TypeError
  | _ =>
      bind (subscript h (t_whole t) i) (fun '(h, w) =>
      bind (subscript h (t_fraction t) i) (fun '(h, f) =>
      bind (keep h (t_tai t) i) (fun '(h, tai) =>
      bind (keep h (t_ut1 t) i) (fun '(h, ut1) =>
      Ok (h, {| t_whole := w; t_fraction := f; t_tai := tai; t_ut1 := ut1 |})))))
  end.
(** timelib.py 863-877, [tt], [tai] and [ut1]; the latter two where a constructor has set
    the fraction. *)
Definition tt_of (h : store) (t : times) : outcome (store * value) := arith Qplus h (t_whole t) (t_fraction t).
Definition part_of (h : store) (t : times) (f : option value) : outcome (store * value) :=
  match f with Some f => arith Qplus h (t_whole t) f | None => TypeError end.
