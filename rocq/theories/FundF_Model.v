(** Model in binary64 of the fundamental arguments of nutation. One date at a time. *)
From Coq Require Import ZArith List.
From Verif Require Import Float64.
From Verif Require FrameF_Model.
Import ListNotations.
Open Scope Z_scope.

(** nutationlib.py 319-337, the rows of [fa0] to [fa4]; the literals as floats. *)
Record row := Row { r0 : b64; r1 : b64; r2 : b64; r3 : b64; r4 : b64 }.
Definition fa_rows : list row :=
  [Row (fl 8347152959097614 (-34)) (fl 7205461628416111 (-22)) (fl 8973197077554345 (-48)) (fl 7441387736296818 (-57)) (fl (-4513918274836727) (-64));
   Row (fl 5528072992674598 (-32)) (fl 8697079332421920 (-26)) (fl (-4982782627722717) (-53)) (fl 5017514388048998 (-65)) (fl (-6782498861021528) (-69));
   Row (fl 5768648335331256 (-34)) (fl 7296106156671579 (-22)) (fl (-7178287446065834) (-49)) (fl (-4782318401109201) (-62)) (fl 4923067058391605 (-70));
   Row (fl 4605324655134497 (-32)) (fl 6723308255797314 (-22)) (fl (-7172657946531620) (-50)) (fl 7601211479872942 (-60)) (fl (-4676618557566846) (-67));
   Row (fl 7733696750075851 (-34)) (fl (-7476346792060545) (-30)) (fl 8412949283909455 (-50)) (fl 8879801428481935 (-60)) (fl (-8764417044300882) (-67))].
(** nutationlib.py 357-364, one row of [fundamental_arguments] with all five terms. *)
Definition argument64 (t : b64) (fa : row) : b64 :=
  let a := fmul (r4 fa) t in
  let a := fmul (fadd a (r3 fa)) t in
  let a := fmul (fadd a (r2 fa)) t in
  let a := fmul (fadd a (r1 fa)) t in
  let a := fadd a (r0 fa) in
  fmul (ffmod a (of_Z 1296000)) FrameF_Model.ASEC2RAD64.
(** nutationlib.py 339-367, [fundamental_arguments]. *)
Definition fundamental_arguments64 (t : b64) : list b64 := map (argument64 t) fa_rows.
