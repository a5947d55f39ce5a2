(** What users expect of names and reports of kernels, apart from the code. *)
From Coq Require Import ZArith QArith List Bool Ascii.
From Verif Require Import Kernel_Model.
Import ListNotations.
Open Scope Z_scope.

(** A body is in a kernel when some segment starts or ends there. *)
Definition present (segs : list kseg) (code : Z) : Prop :=
  exists s, In s segs /\ (k_center s = code \/ k_target s = code).

(** A table in which no name stands for two bodies. *)
Definition unambiguous (ps : pairs) : Prop :=
  forall c c' n, In (c, n) ps -> In (c', n) ps -> c = c'.

(** Reading a report from top to bottom: each segment belongs to the file and to
    the dates last mentioned above it. *)
Fixpoint read_report (ls : list line) (file : option nat) (range : option (Q * Q * (Z * Z * Z) * (Z * Z * Z)))
  : list (option nat * option (Q * Q * (Z * Z * Z) * (Z * Z * Z)) * Z * Z) :=
  match ls with
  | [] => []
  | FileLine _ f :: r => read_report r (Some f) range
  | RangeLine a b d e :: r => read_report r file (Some (a, b, d, e))
  | SegLine c t :: r => (file, range, c, t) :: read_report r file range
  end.

(** What should be read for a segment, given the dates of Julian dates. *)
Definition read_ok (date : Q -> Z * Z * Z) (s : kseg)
    (x : option nat * option (Q * Q * (Z * Z * Z) * (Z * Z * Z)) * Z * Z) : Prop :=
  let '(file, range, c, t) := x in
  file = Some (k_file s) /\ c = k_center s /\ t = k_target s /\
  match range with
  | Some (a, b, d, e) => (a == k_start s /\ b == k_end s)%Q /\ d = date (k_start s) /\ e = date (k_end s)
  | None => False
  end.
