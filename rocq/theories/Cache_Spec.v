(** Vocabulary for the cache properties. *)
From Coq Require Import List Bool.
From Verif Require Import Cache_Model.
Import ListNotations.

(** The deprecated matrix attributes. *)
Definition deprecated (n : name) : bool :=
  match n with Attr (P | N | PT | NT) => true | _ => false end.
Definition reads_of (o : operation) : list name :=
  match o with Read n => [n] | Almanac ns => ns end.
Definition avoids_deprecated (ops : list operation) : Prop :=
  forall o n, In o ops -> In n (reads_of o) -> deprecated n = false.
Definition only_reads (ops : list operation) : Prop :=
  forall o, In o ops -> exists n, o = Read n.
(** Attributes whose definition mentions neither nutation nor a method call that
    can be hidden. *)
Definition elementary (n : name) : bool :=
  match n with
  | Attr (nutation_angles | gast | N | NT | M | MT | C | CT | precession_matrix_name | nutation_matrix_name) => false
  | _ => true
  end.
(** A new object: the constructors preset at most fractions and seconds. *)
Definition fresh {V} (c : cache V) : Prop :=
  forall a, c a <> None -> a = tai_fraction \/ a = tdb_fraction \/ a = ut1_fraction \/ a = tai_seconds.
