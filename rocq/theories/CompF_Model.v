(** Model in binary64 of the arguments of the complementary terms of the equation of the
    equinoxes. One date at a time. *)
From Coq Require Import ZArith List.
From Verif Require Import Float64 Measure_Model Wrap_Model.
From Verif Require FrameF_Model.
Import ListNotations.
Open Scope Z_scope.

(** nutationlib.py 130-177, the shape of the arguments [fa[0]] to [fa[4]]. *)
Definition lunar64 (c0 c1 c2 c3 c4 : b64) (turns : Z) (t : b64) : b64 :=
  fadd (fmul (fadd c0 (fmul (fadd c1 (fmul (fadd c2 (fmul (fadd c3 (fmul c4 t)) t)) t)) t)) FrameF_Model.ASEC2RAD64)
       (fmul (frem (fmul (of_Z turns) t) (of_Z 1)) tau64).
(** nutationlib.py 179-186, the shape of [fa[5]] to [fa[12]]. *)
Definition planet64 (c k t : b64) : b64 := fadd c (fmul k t).
(** nutationlib.py 128-189, [fa] of [equation_of_the_equinoxes_complimentary_terms], from
    [t]; the literals as floats. *)
Definition complementary_arguments64 (t : b64) : list b64 :=
  map (fun a => frem a tau64)
  [lunar64 (fl 8347152959097614 (-34)) (fl 6149733613796170 (-33)) (fl 8973197077554345 (-48)) (fl 7441387736296818 (-57)) (fl (-4513918274836727) (-64)) (1325) t;
   lunar64 (fl 5528072992666008 (-32)) (fl 5551593329018903 (-32)) (fl (-4982782627722717) (-53)) (fl 5017514388048998 (-65)) (fl (-6782498861021528) (-69)) (99) t;
   lunar64 (fl 5768648335331256 (-34)) (fl 5072577100099302 (-34)) (fl (-7178287446065834) (-49)) (fl (-4782318401109201) (-62)) (fl 4923067058391605 (-70)) (1342) t;
   lunar64 (fl 4605324655143086 (-32)) (fl 4748521035073061 (-32)) (fl (-7172657946531620) (-50)) (fl 7601211479872942 (-60)) (fl (-4676618557566846) (-67)) (1236) t;
   lunar64 (fl 7733696750075851 (-34)) (fl (-8295996360648714) (-34)) (fl 8412949283909455 (-50)) (fl 8879801428481935 (-60)) (fl (-8764417044300882) (-67)) (-5) t;
   planet64 (fl 4956896885072313 (-50)) (fl 5736790569690931 (-41)) t;
   planet64 (fl 7152046540541616 (-51)) (fl 8983700972684440 (-43)) t;
   planet64 (fl 7896928252735627 (-52)) (fl 5526651964210943 (-43)) t;
   planet64 (fl 6984498582046696 (-50)) (fl 5876867531279441 (-44)) t;
   planet64 (fl 5400234760960972 (-53)) (fl 7454737568661022 (-47)) t;
   planet64 (fl 7872443082281539 (-53)) (fl 6003836060101977 (-48)) t;
   planet64 (fl 6171388259861846 (-50)) (fl 8419659486012780 (-50)) t;
   planet64 (fl 5980652275691912 (-50)) (fl 8586796254490132 (-51)) t;
   fmul (planet64 (fl 7027560973736998 (-58)) (fl 6359740807558830 (-70)) t) t].
