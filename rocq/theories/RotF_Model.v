(** Model in binary64 of rotation matrices: the elementary rotations, products of
    matrices, and a matrix times a vector. The functions [sin] and [cos] of the
    mathematical library are parameters; so are the sums of products in [einsum], whose order
    and use of fused operations NumPy leaves open. *)
From Coq Require Import ZArith.
From Coq.Floats Require Import SpecFloat.
From Verif Require Import Float64 SepF_Model.
Open Scope Z_scope.

(** A matrix by rows. *)
Record fmat := FM { q1 : fvec; q2 : fvec; q3 : fvec }.
(** functions.py 32-34, [T]. *)
Definition ftransp (M : fmat) : fmat :=
  FM (F3 (fx (q1 M)) (fx (q2 M)) (fx (q3 M))) (F3 (fy (q1 M)) (fy (q2 M)) (fy (q3 M))) (F3 (fz (q1 M)) (fz (q2 M)) (fz (q3 M))).
(** toposlib.py 77: the rows in reverse, [[::-1]]. *)
Definition fflip (M : fmat) : fmat := FM (q3 M) (q2 M) (q1 M).

Section Library.
Variables (sin cos : b64 -> b64) (dot3 : fvec -> fvec -> b64) (dot9 : fvec -> fmat -> fvec -> b64).
(** functions.py 36-38, [mxv]. *)
Definition mxv64 (M : fmat) (v : fvec) : fvec := F3 (dot3 (q1 M) v) (dot3 (q2 M) v) (dot3 (q3 M) v).
(** functions.py 40-42, [mxm]. *)
Definition mxm64 (A B : fmat) : fmat :=
  let T := ftransp B in
  let row r := F3 (dot3 r (q1 T)) (dot3 r (q2 T)) (dot3 r (q3 T)) in
  FM (row (q1 A)) (row (q2 A)) (row (q3 A)).
(** functions.py 44-46, [mxmxm]: nine products of three factors are summed. *)
Definition mxmxm64 (A B C : fmat) : fmat :=
  let T := ftransp C in
  let row r := F3 (dot9 r B (q1 T)) (dot9 r B (q2 T)) (dot9 r B (q3 T)) in
  FM (row (q1 A)) (row (q2 A)) (row (q3 A)).
(** functions.py 132-151. *)
Definition rot_x64 (theta : b64) : fmat :=
  let c := cos theta in let s := sin theta in
  let zero := fmul theta (of_Z 0) in let one := fadd zero (of_Z 1) in
  FM (F3 one zero zero) (F3 zero c (fneg s)) (F3 zero s c).
Definition rot_y64 (theta : b64) : fmat :=
  let c := cos theta in let s := sin theta in
  let zero := fmul theta (of_Z 0) in let one := fadd zero (of_Z 1) in
  FM (F3 c zero s) (F3 zero one zero) (F3 (fneg s) zero c).
Definition rot_z64 (theta : b64) : fmat :=
  let c := cos theta in let s := sin theta in
  let zero := fmul theta (of_Z 0) in let one := fadd zero (of_Z 1) in
  FM (F3 c (fneg s) zero) (F3 s c zero) (F3 zero zero one).

(** How a rotation matrix is put together. A matrix whose entries the code writes out comes
    with the turns that it stands for, and with how many turns it counts for more. *)
Inductive axis := X | Y | Z.
Inductive turns :=
| Turn (a : axis) (angle : b64)      (* rot_x, rot_y, rot_z *)
| Times (s t : turns)                (* mxm *)
| Thrice (s t u : turns)             (* mxmxm *)
| Given (M : fmat) (more : nat) (s : turns)
| Flip (t : turns)                   (* [::-1] *)
| Back (t : turns).                  (* T *)
Fixpoint turns64 (t : turns) : fmat :=
  match t with
  | Turn X a => rot_x64 a
  | Turn Y a => rot_y64 a
  | Turn Z a => rot_z64 a
  | Times s t => mxm64 (turns64 s) (turns64 t)
  | Thrice s t u => mxmxm64 (turns64 s) (turns64 t) (turns64 u)
  | Given M _ _ => M
  | Flip t => fflip (turns64 t)
  | Back t => ftransp (turns64 t)
  end.
End Library.

(** toposlib.py 77-78: [R_latlon], from the axes of the Earth to the horizon. *)
Definition horizon_turns (lat lon : b64) : turns := Times (Flip (Turn Y lat)) (Turn Z (fneg lon)).
(** planetarylib.py 170 and 185: from the axes of the sky to those of a planet or moon. *)
Definition body_turns (ra dec w : b64) : turns := Times (Turn Z (fneg w)) (Times (Turn X (fneg dec)) (Turn Z (fneg ra))).
