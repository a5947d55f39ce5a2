(** What arrays of times should be. *)
From Coq Require Import ZArith QArith List Bool.
From Verif Require Import PyNum Array_Model.
Import ListNotations.

(** Arguments that exist: an array has a dimension and is in the store. *)
Definition exists_in (h : store) (g : given) : Prop :=
  match g with
  | GNum _ => True
  | GList a => shape a <> []
  | GArray a => (a < length h)%nat /\ shape (fetch h a) <> []
  end.
Definition given_arr (h : store) (g : given) : option arr :=
  match g with GNum _ => None | GList a => Some a | GArray a => Some (fetch h a) end.
Definition dims (h : store) (g : given) : nat := match given_arr h g with Some a => length (shape a) | None => 0%nat end.
(** The number an argument gives for the time at an index, its dimensions being the first
    ones of the index. *)
Definition said (h : store) (g : given) (idx : list nat) : Q :=
  match g with
  | GNum x => x
  | GList a => item a (clip (shape a) (firstn (length (shape a)) idx))
  | GArray k => item (fetch h k) (clip (shape (fetch h k)) (firstn (length (shape (fetch h k))) idx))
  end.
Definition within (idx s : list nat) : Prop := Forall2 lt idx s.
(** The result [v] has the shape [s] and the numbers [x]. *)
Definition holds (h : store) (v : value) (s : list nat) (x : list nat -> Q) : Prop :=
  shape_of h v = s /\ forall idx, within idx s -> read h v idx == x idx.
(** No number of one part has to be stored among the integers of the other. *)
Definition stores (a : option arr) (g : given) : Prop :=
  match a, g with Some a, GNum x => dt a = Float64 \/ exists z, x == inject_Z z | _, _ => True end.
Definition no_loss (h : store) (jd fraction : given) : Prop :=
  stores (given_arr h jd) fraction /\ stores (given_arr h fraction) jd.
(** Nothing that existed has changed. *)
Definition untouched (h h' : store) : Prop := forall a, (a < length h)%nat -> fetch h' a = fetch h a.
(** Anything that existed in [h] may be different in [h2] from what it is in [h']. *)
Definition caller_changes (h h' h2 : store) : Prop :=
  length h2 = length h' /\ forall a, (length h <= a)%nat -> fetch h2 a = fetch h' a.
(** Two readings of a time, or both impossible. *)
Definition same_reading (r1 r2 : outcome (store * value)) : Prop :=
  match r1, r2 with
  | Ok (h1, v1), Ok (h2, v2) => shape_of h1 v1 = shape_of h2 v2 /\ forall idx, read h1 v1 idx = read h2 v2 idx
  | ValueError, ValueError | TypeError, TypeError | IndexError, IndexError => True
  | _, _ => False
  end.
(** All parts of the time have the same shape. *)
Definition uniform (h : store) (t : times) (s : list nat) : Prop :=
  let ok v := shape_of h v = s /\ match v with Ref a => (a < length h)%nat | Num _ => True end in
  let okk v := match v with Some v => ok v | None => True end in
  ok (t_whole t) /\ ok (t_fraction t) /\ okk (t_tai t) /\ okk (t_ut1 t).
(** The time keeps no array that existed in [h]. *)
Definition fresh (h : store) (t : times) : Prop :=
  let ok v := match v with Some (Ref a) => (length h <= a)%nat | _ => True end in
  ok (Some (t_whole t)) /\ ok (Some (t_fraction t)) /\ ok (t_tai t) /\ ok (t_ut1 t).
(** Two arguments that fit: same shape, or one a number. *)
Definition fit (h : store) (jd fraction : given) (s : list nat) : Prop :=
  match given_arr h jd, given_arr h fraction with
  | Some a, Some b => shape a = s /\ shape b = s
  | Some a, None | None, Some a => shape a = s
  | None, None => s = []
  end.
(** Both are arrays of the caller and have different counts of dimensions. *)
Definition differ_in_dims (h : store) (jd : given) (fraction : option given) : Prop :=
  exists f, fraction = Some f /\ dims h jd <> dims h f /\ given_arr h jd <> None /\ given_arr h f <> None.
