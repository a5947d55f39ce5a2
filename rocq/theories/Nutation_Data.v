(** The arrays of skyfield/data/nutation.npz that nutationlib.py 7-19 loads for the
    nutation series: whole numbers, although the coefficients are stored as floats. *)
From Coq Require Import ZArith List.
Import ListNotations.
Open Scope Z_scope.

Definition nals_data : list (list Z) :=
  [[0;0;0;0;1]; [0;0;2;-2;2]; [0;0;2;0;2]; [0;0;0;0;2]; [0;1;0;0;0]; [0;1;2;-2;2]; [1;0;0;0;0]; [0;0;2;0;1];
   [1;0;2;0;2]; [0;-1;2;-2;2]; [0;0;2;-2;1]; [-1;0;2;0;2]; [-1;0;0;2;0]; [1;0;0;0;1]; [-1;0;0;0;1]; [-1;0;2;2;2];
   [1;0;2;0;1]; [-2;0;2;0;1]; [0;0;0;2;0]; [0;0;2;2;2]; [0;-2;2;-2;2]; [-2;0;0;2;0]; [2;0;2;0;2]; [1;0;2;-2;2];
   [-1;0;2;0;1]; [2;0;0;0;0]; [0;0;2;0;0]; [0;1;0;0;1]; [-1;0;0;2;1]; [0;2;2;-2;2]; [0;0;-2;2;0]; [1;0;0;-2;1];
   [0;-1;0;0;1]; [-1;0;2;2;1]; [0;2;0;0;0]; [1;0;2;2;2]; [-2;0;2;0;0]; [0;1;2;0;2]; [0;0;2;2;1]; [0;-1;2;0;2];
   [0;0;0;2;1]; [1;0;2;-2;1]; [2;0;2;-2;2]; [-2;0;0;2;1]; [2;0;2;0;1]; [0;-1;2;-2;1]; [0;0;0;-2;1]; [-1;-1;0;2;0];
   [2;0;0;-2;1]; [1;0;0;2;0]; [0;1;2;-2;1]; [1;-1;0;0;0]; [-2;0;2;0;2]; [3;0;2;0;2]; [0;-1;0;2;0]; [1;-1;2;0;2];
   [0;0;0;1;0]; [-1;-1;2;2;2]; [-1;0;2;0;0]; [0;-1;2;2;2]; [-2;0;0;0;1]; [1;1;2;0;2]; [2;0;0;0;1]; [-1;1;0;1;0];
   [1;1;0;0;0]; [1;0;2;0;0]; [-1;0;2;-2;1]; [1;0;0;0;2]; [-1;0;0;1;0]; [0;0;2;1;2]; [-1;0;2;4;2]; [-1;1;0;1;1];
   [0;-2;2;-2;1]; [1;0;2;2;1]; [-2;0;2;2;2]; [-1;0;0;0;2]; [1;1;2;-2;2]; [-2;0;2;4;2]; [-1;0;4;0;2]; [2;0;2;-2;1];
   [2;0;2;2;2]; [1;0;0;2;1]; [3;0;0;0;0]; [3;0;2;-2;2]; [0;0;4;-2;2]; [0;1;2;0;1]; [0;0;-2;2;1]; [0;0;2;-2;3];
   [-1;0;0;4;0]; [2;0;-2;0;1]; [-2;0;0;4;0]; [-1;-1;0;2;1]; [-1;0;0;1;1]; [0;1;0;0;2]; [0;0;-2;0;1]; [0;-1;2;0;1];
   [0;0;2;-1;2]; [0;0;2;4;2]; [-2;-1;0;2;0]; [1;1;0;-2;1]; [-1;1;0;2;0]; [-1;1;0;1;2]; [1;-1;0;0;1]; [1;-1;2;2;2];
   [-1;1;2;2;2]; [3;0;2;0;1]; [0;1;-2;2;0]; [-1;0;0;-2;1]; [0;1;2;2;2]; [-1;-1;2;2;1]; [0;-1;0;0;2]; [1;0;2;-4;1];
   [-1;0;-2;2;0]; [0;-1;2;2;1]; [2;-1;2;0;2]; [0;0;0;2;2]; [1;-1;2;0;1]; [-1;1;2;0;2]; [0;1;0;2;0]; [0;-1;-2;2;0];
   [0;3;2;-2;2]; [0;0;0;1;1]; [-1;0;2;2;0]; [2;1;2;0;2]; [1;1;0;0;1]; [1;1;2;0;1]; [2;0;0;2;0]; [1;0;-2;2;0];
   [-1;0;0;2;2]; [0;1;0;1;0]; [0;1;0;-2;1]; [-1;0;2;-2;2]; [0;0;0;-1;1]; [-1;1;0;0;1]; [1;0;2;-1;2]; [1;-1;0;2;0];
   [0;0;0;4;0]; [1;0;2;1;2]; [0;0;2;1;1]; [1;0;0;-2;2]; [-1;0;2;4;1]; [1;0;-2;0;1]; [1;1;2;-2;1]; [0;0;2;2;0];
   [-1;0;2;-1;1]; [-2;0;2;2;1]; [4;0;2;0;2]; [2;-1;0;0;0]; [2;1;2;-2;2]; [0;1;2;1;2]; [1;0;4;-2;2]; [-1;-1;0;0;1];
   [0;1;0;2;1]; [-2;0;2;4;1]; [2;0;2;0;0]; [1;0;0;1;0]; [-1;0;0;4;1]; [-1;0;4;0;1]; [2;0;2;2;1]; [0;0;2;-3;2];
   [-1;-2;0;2;0]; [2;1;0;0;0]; [0;0;4;0;2]; [0;0;0;0;3]; [0;3;0;0;0]; [0;0;2;-4;1]; [0;-1;0;2;1]; [0;0;0;4;1];
   [-1;-1;2;4;2]; [1;0;2;4;2]; [-2;2;0;2;0]; [-2;-1;2;0;1]; [-2;0;0;2;2]; [-1;-1;2;0;2]; [0;0;4;-2;1]; [3;0;2;-2;1];
   [-2;-1;0;2;1]; [1;0;0;-1;1]; [0;-2;0;2;0]; [-2;0;0;4;1]; [-3;0;0;0;1]; [1;1;2;2;2]; [0;0;2;4;1]; [3;0;2;2;2];
   [-1;1;2;-2;1]; [2;0;0;-4;1]; [0;0;0;-2;2]; [2;0;2;-4;1]; [-1;1;0;2;1]; [0;0;2;-1;1]; [0;-2;2;2;2]; [2;0;0;2;1];
   [4;0;2;-2;2]; [2;0;0;-2;2]; [0;2;0;0;1]; [1;0;0;-4;1]; [0;2;2;-2;1]; [-3;0;0;4;0]; [-1;1;2;0;1]; [-1;-1;0;4;0];
   [-1;-2;2;2;2]; [-2;-1;2;4;2]; [1;-1;2;2;1]; [-2;1;0;2;0]; [-2;1;2;0;1]; [2;1;0;-2;1]; [-3;0;2;0;1]; [-2;0;2;-2;1];
   [-1;1;0;2;2]; [0;-1;2;-1;2]; [-1;0;4;-2;2]; [0;-2;2;0;2]; [-1;0;2;1;2]; [2;0;0;0;2]; [0;0;2;0;3]; [-2;0;4;0;2];
   [-1;0;-2;0;1]; [-1;1;2;2;1]; [3;0;0;0;1]; [-1;0;2;3;2]; [2;-1;2;0;1]; [0;1;2;2;1]; [0;-1;2;4;2]; [2;-1;2;2;2];
   [0;2;-2;2;0]; [-1;-1;2;-1;1]; [0;-2;0;0;1]; [1;0;2;-4;2]; [1;-1;0;-2;1]; [-1;-1;2;0;1]; [1;-1;2;-2;2]; [-2;-1;0;4;0];
   [-1;0;0;3;0]; [-2;-1;2;2;2]; [0;2;2;0;2]; [1;1;0;2;0]; [2;0;2;-1;2]; [1;0;2;1;1]; [4;0;0;0;0]; [2;1;2;0;1];
   [3;-1;2;0;2]; [-2;2;0;2;1]; [1;0;2;-3;1]; [1;1;2;-4;1]; [-1;-1;2;-2;1]; [0;-1;0;-1;1]; [0;-1;0;-2;1]; [-2;0;0;0;2];
   [-2;0;-2;2;0]; [-1;0;-2;4;0]; [1;-2;0;0;0]; [0;1;0;1;1]; [-1;2;0;2;0]; [1;-1;2;-2;1]; [1;2;2;-2;2]; [2;-1;2;-2;2];
   [1;0;2;-1;1]; [2;1;2;-2;1]; [-2;0;0;-2;1]; [1;-2;2;0;2]; [0;1;2;1;1]; [1;0;4;-2;1]; [-2;0;4;2;2]; [1;1;2;1;2];
   [1;0;0;4;0]; [1;0;2;2;0]; [2;0;2;1;2]; [3;1;2;0;2]; [4;0;2;0;1]; [-2;-1;2;0;0]; [0;1;-2;2;1]; [1;0;-2;1;0];
   [0;-1;-2;2;1]; [2;-1;0;-2;1]; [-1;0;2;-1;2]; [1;0;2;-3;2]; [0;1;2;-2;3]; [0;0;2;-3;1]; [-1;0;-2;2;1]; [0;0;2;-4;2];
   [-2;1;0;0;1]; [-1;0;0;-1;1]; [2;0;2;-4;2]; [0;0;4;-4;4]; [0;0;4;-4;2]; [-1;-2;0;2;1]; [-2;0;0;3;0]; [1;0;-2;2;1];
   [-3;0;2;2;2]; [-3;0;2;2;1]; [-2;0;2;2;0]; [2;-1;0;0;1]; [-2;1;2;2;2]; [1;1;0;1;0]; [0;1;4;-2;2]; [-1;1;0;-2;1];
   [0;0;0;-4;1]; [1;-1;0;2;1]; [1;1;0;2;1]; [-1;2;2;2;2]; [3;1;2;-2;2]; [0;-1;0;4;0]; [2;-1;0;2;0]; [0;0;4;0;1];
   [2;0;4;-2;2]; [-1;-1;2;4;1]; [1;0;0;4;1]; [1;-2;2;2;2]; [0;0;2;3;2]; [-1;1;2;4;2]; [3;0;0;2;0]; [-1;0;4;2;2];
   [1;1;2;2;1]; [-2;0;2;6;2]; [2;1;2;2;2]; [-1;0;2;6;2]; [1;0;2;4;1]; [2;0;2;4;2]; [1;1;-2;1;0]; [-3;1;2;1;2];
   [2;0;-2;0;2]; [-1;0;0;1;2]; [-4;0;2;2;1]; [-1;-1;0;1;0]; [0;0;-2;2;2]; [1;0;0;-1;2]; [0;-1;2;-2;3]; [-2;1;2;0;0];
   [0;0;2;-2;4]; [-2;-2;0;2;0]; [-2;0;-2;4;0]; [0;-2;-2;2;0]; [1;2;0;-2;1]; [3;0;0;-4;1]; [-1;1;2;-2;2]; [1;-1;2;-4;1];
   [1;1;0;-2;2]; [-3;0;2;0;0]; [-3;0;2;0;2]; [-2;0;0;1;0]; [0;0;-2;1;0]; [-3;0;0;2;1]; [-1;-1;-2;2;0]; [0;1;2;-4;1];
   [2;1;0;-4;1]; [0;2;0;-2;1]; [1;0;0;-3;1]; [-2;0;2;-2;2]; [-2;-1;0;0;1]; [-4;0;0;2;0]; [1;1;0;-4;1]; [-1;0;2;-4;1];
   [0;0;4;-4;1]; [0;3;2;-2;2]; [-3;-1;0;4;0]; [-3;0;0;4;1]; [1;-1;-2;2;0]; [-1;-1;0;2;2]; [1;-2;0;0;1]; [1;-1;0;0;2];
   [0;0;0;1;2]; [-1;-1;2;0;0]; [1;-2;2;-2;2]; [0;-1;2;-1;1]; [-1;0;2;0;3]; [1;1;0;0;2]; [-1;1;2;0;0]; [1;2;0;0;0];
   [-1;2;2;0;2]; [-1;0;4;-2;1]; [3;0;2;-4;2]; [1;2;2;-2;1]; [1;0;4;-4;2]; [-2;-1;0;4;1]; [0;-1;0;2;2]; [-2;1;0;4;0];
   [-2;-1;2;2;1]; [2;0;-2;2;0]; [1;0;0;1;1]; [0;1;0;2;2]; [1;-1;2;-1;2]; [-2;0;4;0;1]; [2;1;0;0;1]; [0;1;2;0;0];
   [0;-1;4;-2;2]; [0;0;4;-2;4]; [0;2;2;0;1]; [-3;0;0;6;0]; [-1;-1;0;4;1]; [1;-2;0;2;0]; [-1;0;0;4;2]; [-1;-2;2;2;1];
   [-1;0;0;-2;2]; [1;0;-2;-2;1]; [0;0;-2;-2;1]; [-2;0;-2;0;1]; [0;0;0;3;1]; [0;0;0;3;0]; [-1;1;0;4;0]; [-1;-1;2;2;0];
   [-2;0;2;3;2]; [1;0;0;2;2]; [0;-1;2;1;2]; [3;-1;0;0;0]; [2;0;0;1;0]; [1;-1;2;0;0]; [0;0;2;1;0]; [1;0;2;0;3];
   [3;1;0;0;0]; [3;-1;2;-2;2]; [2;0;2;-1;1]; [1;1;2;0;0]; [0;0;4;-1;2]; [1;2;2;0;2]; [-2;0;0;6;0]; [0;-1;0;4;1];
   [-2;-1;2;4;1]; [0;-2;2;2;1]; [0;-1;2;2;0]; [-1;0;2;3;1]; [-2;1;2;4;2]; [2;0;0;2;2]; [2;-2;2;0;2]; [-1;1;2;3;2];
   [3;0;2;-1;2]; [4;0;2;-2;1]; [-1;0;0;6;0]; [-1;-2;2;4;2]; [-3;0;2;6;2]; [-1;0;2;4;0]; [3;0;0;2;1]; [3;-1;2;0;1];
   [3;0;2;0;0]; [1;0;4;0;2]; [5;0;2;-2;2]; [0;-1;2;4;1]; [2;-1;2;2;1]; [0;1;2;4;2]; [1;-1;2;4;2]; [3;-1;2;2;2];
   [3;0;2;2;1]; [5;0;2;0;2]; [0;0;2;6;2]; [4;0;2;2;2]; [0;-1;1;-1;1]; [-1;0;1;0;3]; [0;-2;2;-2;3]; [1;0;-1;0;1];
   [2;-2;0;-2;1]; [-1;0;1;0;2]; [-1;0;1;0;1]; [-1;-1;2;-1;2]; [-2;2;0;2;2]; [-1;0;1;0;0]; [-4;1;2;2;2]; [-3;0;2;1;1];
   [-2;-1;2;0;2]; [1;0;-2;1;1]; [2;-1;-2;0;1]; [-4;0;2;2;0]; [-3;1;0;3;0]; [-1;0;-1;2;0]; [0;-2;0;0;2]; [0;-2;0;0;2];
   [-3;0;0;3;0]; [-2;-1;0;2;2]; [-1;0;-2;3;0]; [-4;0;0;4;0]; [2;1;-2;0;1]; [2;-1;0;-2;2]; [0;0;1;-1;0]; [-1;2;0;1;0];
   [-2;1;2;0;2]; [1;1;0;-1;1]; [1;0;1;-2;1]; [0;2;0;0;2]; [1;-1;2;-3;1]; [-1;1;2;-1;1]; [-2;0;4;-2;2]; [-2;0;4;-2;1];
   [-2;-2;0;2;1]; [-2;0;-2;4;0]; [1;2;2;-4;1]; [1;1;2;-4;2]; [-1;2;2;-2;1]; [2;0;0;-3;1]; [-1;2;0;0;1]; [0;0;0;-2;0];
   [-1;-1;2;-2;2]; [-1;1;0;0;2]; [0;0;0;-1;2]; [-2;1;0;1;0]; [1;-2;0;-2;1]; [1;0;-2;0;2]; [-3;1;0;2;0]; [-1;1;-2;2;0];
   [-1;-1;0;0;2]; [-3;0;0;2;0]; [-3;-1;0;2;0]; [2;0;2;-6;1]; [0;1;2;-4;2]; [2;0;0;-4;2]; [-2;1;2;-2;1]; [0;-1;2;-4;1];
   [0;1;0;-2;2]; [-1;0;0;-2;0]; [2;0;-2;-2;1]; [-4;0;2;0;1]; [-1;-1;0;-1;1]; [0;0;-2;0;2]; [-3;0;0;1;0]; [-1;0;-2;1;0];
   [-2;0;-2;2;1]; [0;0;-4;2;0]; [-2;-1;-2;2;0]; [1;0;2;-6;1]; [-1;0;2;-4;2]; [1;0;0;-4;2]; [2;1;2;-4;2]; [2;1;2;-4;1];
   [0;1;4;-4;4]; [0;1;4;-4;2]; [-1;-1;-2;4;0]; [-1;-3;0;2;0]; [-1;0;-2;4;1]; [-2;-1;0;3;0]; [0;0;-2;3;0]; [-2;0;0;3;1];
   [0;-1;0;1;0]; [-3;0;2;2;0]; [1;1;-2;2;0]; [-1;1;0;2;2]; [1;-2;2;-2;1]; [0;0;1;0;2]; [0;0;1;0;1]; [0;0;1;0;0];
   [-1;2;0;2;1]; [0;0;2;0;2]; [-2;0;2;0;2]; [2;0;0;-1;1]; [3;0;0;-2;1]; [1;0;2;-2;3]; [1;2;0;0;1]; [2;0;2;-3;2];
   [-1;1;4;-2;2]; [-2;-2;0;4;0]; [0;-3;0;2;0]; [0;0;-2;4;0]; [-1;-1;0;3;0]; [-2;0;0;4;2]; [-1;0;0;3;1]; [2;-2;0;0;0];
   [1;-1;0;1;0]; [-1;0;0;2;0]; [0;-2;2;0;1]; [-1;0;1;2;1]; [-1;1;0;3;0]; [-1;-1;2;1;2]; [0;-1;2;0;0]; [-2;1;2;2;1];
   [2;-2;2;-2;2]; [1;1;0;1;1]; [1;0;1;0;1]; [1;0;1;0;0]; [0;2;0;2;0]; [2;-1;2;-2;1]; [0;-1;4;-2;1]; [0;0;4;-2;3];
   [0;1;4;-2;1]; [4;0;2;-4;2]; [2;2;2;-2;2]; [2;0;4;-4;2]; [-1;-2;0;4;0]; [-1;-3;2;2;2]; [-3;0;2;4;2]; [-3;0;2;-2;1];
   [-1;-1;0;-2;1]; [-3;0;0;0;2]; [-3;0;-2;2;0]; [0;1;0;-4;1]; [-2;1;0;-2;1]; [-4;0;0;0;1]; [-1;0;0;-4;1]; [-3;0;0;-2;1];
   [0;0;0;3;2]; [-1;1;0;4;1]; [1;-2;2;0;1]; [0;1;0;3;0]; [-1;0;2;2;3]; [0;0;2;2;2]; [-2;0;2;2;2]; [-1;1;2;2;0];
   [3;0;0;0;2]; [2;1;0;1;0]; [2;-1;2;-1;2]; [0;0;2;0;1]; [0;0;3;0;3]; [0;0;3;0;2]; [-1;2;2;2;1]; [-1;0;4;0;0];
   [1;2;2;0;1]; [3;1;2;-2;1]; [1;1;4;-2;2]; [-2;-1;0;6;0]; [0;-2;0;4;0]; [-2;0;0;6;1]; [-2;-2;2;4;2]; [0;-3;2;2;2];
   [0;0;0;4;2]; [-1;-1;2;3;2]; [-2;0;2;4;0]; [2;-1;0;2;1]; [1;0;0;3;0]; [0;1;0;4;1]; [0;1;0;4;0]; [1;-1;2;1;2];
   [0;0;2;2;3]; [1;0;2;2;2]; [-1;0;2;2;2]; [-2;0;4;2;1]; [2;1;0;2;1]; [2;1;0;2;0]; [2;-1;2;0;0]; [1;0;2;1;0];
   [0;1;2;2;0]; [2;0;2;0;3]; [3;0;2;0;2]; [1;0;2;0;2]; [1;0;3;0;3]; [1;1;2;1;1]; [0;2;2;2;2]; [2;1;2;0;0];
   [2;0;4;-2;1]; [4;1;2;-2;2]; [-1;-1;0;6;0]; [-3;-1;2;6;2]; [-1;0;0;6;1]; [-3;0;2;6;1]; [1;-1;0;4;1]; [1;-1;0;4;0];
   [-2;0;2;5;2]; [1;-2;2;2;1]; [3;-1;0;2;0]; [1;-1;2;2;0]; [0;0;2;3;1]; [-1;1;2;4;1]; [0;1;2;3;2]; [-1;0;4;2;1];
   [2;0;2;1;1]; [5;0;0;0;0]; [2;1;2;1;2]; [1;0;4;0;1]; [3;1;2;0;1]; [3;0;4;-2;2]; [-2;-1;2;6;2]; [0;0;0;6;0];
   [0;-2;2;4;2]; [-2;0;2;6;1]; [2;0;0;4;1]; [2;0;0;4;0]; [2;-2;2;2;2]; [0;0;2;4;0]; [1;0;2;3;2]; [4;0;0;2;0];
   [2;0;2;2;0]; [0;0;4;2;2]; [4;-1;2;0;2]; [3;0;2;1;2]; [2;1;2;2;1]; [4;1;2;0;2]; [-1;-1;2;6;2]; [-1;0;2;6;1];
   [1;-1;2;4;1]; [1;1;2;4;2]; [3;1;2;2;2]; [5;0;2;0;1]; [2;-1;2;4;2]; [2;0;2;4;1]].
Definition lunisolar_longitude_data : list (Z * Z * Z) :=
  [(-172064161,-174666,33386); (-13170906,-1675,-13696); (-2276413,-234,2796); (2074554,207,-698); (1475877,-3633,11817); (-516821,1226,-524);
   (711159,73,-872); (-387298,-367,380); (-301461,-36,816); (215829,-494,111); (128227,137,181); (123457,11,19);
   (156994,10,-168); (63110,63,27); (-57976,-63,-189); (-59641,-11,149); (-51613,-42,129); (45893,50,31);
   (63384,11,-150); (-38571,-1,158); (32481,0,0); (-47722,0,-18); (-31046,-1,131); (28593,0,-1);
   (20441,21,10); (29243,0,-74); (25887,0,-66); (-14053,-25,79); (15164,10,11); (-15794,72,-16);
   (21783,0,13); (-12873,-10,-37); (-12654,11,63); (-10204,0,25); (16707,-85,-10); (-7691,0,44);
   (-11024,0,-14); (7566,-21,-11); (-6637,-11,25); (-7141,21,8); (-6302,-11,2); (5800,10,2);
   (6443,0,-7); (-5774,-11,-15); (-5350,0,21); (-4752,-11,-3); (-4940,-11,-21); (7350,0,-8);
   (4065,0,6); (6579,0,-24); (3579,0,5); (4725,0,-6); (-3075,0,-2); (-2904,0,15);
   (4348,0,-10); (-2878,0,8); (-4230,0,5); (-2819,0,7); (-4056,0,5); (-2647,0,11);
   (-2294,0,-10); (2481,0,-7); (2179,0,-2); (3276,0,1); (-3389,0,5); (3339,0,-13);
   (-1987,0,-6); (-1981,0,0); (4026,0,-353); (1660,0,-5); (-1521,0,9); (1314,0,0);
   (-1283,0,0); (-1331,0,8); (1383,0,-2); (1405,0,4); (1290,0,0); (-1214,0,5);
   (1146,0,-3); (1019,0,-1); (-1100,0,9); (-970,0,2); (1575,0,-6); (934,0,-3);
   (922,0,-1); (815,0,-1); (834,0,2); (1248,0,0); (1338,0,-5); (716,0,-2);
   (1282,0,-3); (742,0,1); (1020,0,-25); (715,0,-4); (-666,0,-3); (-667,0,1);
   (-704,0,0); (-694,0,5); (-1014,0,-1); (-585,0,-2); (-949,0,1); (-595,0,0);
   (528,0,0); (-590,0,4); (570,0,-2); (-502,0,3); (-875,0,1); (-492,0,-3);
   (535,0,-2); (-467,0,1); (591,0,0); (-453,0,-1); (766,0,1); (-446,0,2);
   (-488,0,2); (-468,0,0); (-421,0,1); (463,0,0); (-673,0,2); (658,0,0);
   (-438,0,0); (-390,0,0); (639,-11,-2); (412,0,-2); (-361,0,0); (360,0,-1);
   (588,0,-3); (-578,0,1); (-396,0,0); (565,0,-1); (-335,0,-1); (357,0,1);
   (321,0,1); (-301,0,-1); (-334,0,0); (493,0,-2); (494,0,-2); (337,0,-1);
   (280,0,-1); (309,0,1); (-263,0,2); (253,0,1); (245,0,0); (416,0,-2);
   (-229,0,0); (231,0,0); (-259,0,2); (375,0,-1); (252,0,0); (-245,0,1);
   (243,0,-1); (208,0,1); (199,0,0); (-208,0,1); (335,0,-2); (-325,0,1);
   (-187,0,0); (197,0,-1); (-192,0,2); (-188,0,0); (276,0,0); (-286,0,1);
   (186,0,-1); (-219,0,0); (276,0,0); (-153,0,-1); (-156,0,0); (-154,0,1);
   (-174,0,1); (-163,0,2); (-228,0,0); (91,0,-4); (175,0,0); (-159,0,0);
   (141,0,0); (147,0,0); (-132,0,0); (159,0,-28); (213,0,0); (123,0,0);
   (-118,0,-1); (144,0,-1); (-121,0,1); (-134,0,1); (-105,0,0); (-102,0,0);
   (120,0,0); (101,0,0); (-113,0,0); (-106,0,0); (-129,0,1); (-114,0,0);
   (113,0,-1); (-102,0,0); (-94,0,0); (-100,0,-1); (87,0,0); (161,0,0);
   (96,0,0); (151,0,-1); (-104,0,0); (-110,0,0); (-100,0,1); (92,0,-5);
   (82,0,0); (82,0,0); (-78,0,0); (-77,0,0); (2,0,0); (94,0,0);
   (-93,0,0); (-83,0,10); (83,0,0); (-91,0,0); (128,0,0); (-79,0,0);
   (-83,0,0); (84,0,0); (83,0,0); (91,0,0); (-77,0,0); (84,0,0);
   (-92,0,1); (-92,0,1); (-94,0,0); (68,0,0); (-61,0,0); (71,0,0);
   (62,0,0); (-63,0,0); (-73,0,0); (115,0,0); (-103,0,0); (63,0,0);
   (74,0,0); (-103,0,-3); (-69,0,0); (57,0,0); (94,0,0); (64,0,0);
   (-63,0,0); (-38,0,0); (-43,0,0); (-45,0,0); (47,0,0); (-48,0,0);
   (45,0,0); (56,0,0); (88,0,0); (-75,0,0); (85,0,0); (49,0,0);
   (-74,0,-3); (-39,0,0); (45,0,0); (51,0,0); (-40,0,0); (41,0,0);
   (-42,0,0); (-51,0,0); (-42,0,0); (39,0,0); (46,0,0); (-53,0,0);
   (82,0,0); (81,0,-1); (47,0,0); (53,0,0); (-45,0,0); (-44,0,0);
   (-33,0,0); (-61,0,0); (28,0,0); (-38,0,0); (-33,0,0); (-60,0,0);
   (48,0,0); (27,0,0); (38,0,0); (31,0,0); (-29,0,0); (28,0,0);
   (-32,0,0); (45,0,0); (-44,0,0); (28,0,0); (-51,0,0); (-36,0,0);
   (44,0,0); (26,0,0); (-60,0,0); (35,0,0); (-27,0,0); (47,0,0);
   (36,0,0); (-36,0,0); (-35,0,0); (-37,0,0); (32,0,0); (35,0,0);
   (32,0,0); (65,0,0); (47,0,0); (32,0,0); (37,0,0); (-30,0,0);
   (-32,0,0); (-31,0,0); (37,0,0); (31,0,0); (49,0,0); (32,0,0);
   (23,0,0); (-43,0,0); (26,0,0); (-32,0,0); (-29,0,0); (-27,0,0);
   (30,0,0); (-11,0,0); (-21,0,0); (-34,0,0); (-10,0,0); (-36,0,0);
   (-9,0,0); (-12,0,0); (-21,0,0); (-29,0,0); (-15,0,0); (-20,0,0);
   (28,0,0); (17,0,0); (-22,0,0); (-14,0,0); (24,0,0); (11,0,0);
   (14,0,0); (24,0,0); (18,0,0); (-38,0,0); (-31,0,0); (-16,0,0);
   (29,0,0); (-18,0,0); (-10,0,0); (-17,0,0); (9,0,0); (16,0,0);
   (22,0,0); (20,0,0); (-13,0,0); (-17,0,0); (-14,0,0); (0,0,0);
   (14,0,0); (19,0,0); (-34,0,0); (-20,0,0); (9,0,0); (-18,0,0);
   (13,0,0); (17,0,0); (-12,0,0); (15,0,0); (-11,0,0); (13,0,0);
   (-18,0,0); (-35,0,0); (9,0,0); (-19,0,0); (-26,0,0); (8,0,0);
   (-10,0,0); (10,0,0); (-21,0,0); (-15,0,0); (9,0,0); (-29,0,0);
   (-19,0,0); (12,0,0); (22,0,0); (-10,0,0); (-20,0,0); (-20,0,0);
   (-17,0,0); (15,0,0); (8,0,0); (14,0,0); (-12,0,0); (25,0,0);
   (-13,0,0); (-14,0,0); (13,0,0); (-17,0,0); (-12,0,0); (-10,0,0);
   (10,0,0); (-15,0,0); (-22,0,0); (28,0,0); (15,0,0); (23,0,0);
   (12,0,0); (29,0,0); (-25,0,0); (22,0,0); (-18,0,0); (15,0,0);
   (-23,0,0); (12,0,0); (-8,0,0); (-19,0,0); (-10,0,0); (21,0,0);
   (23,0,0); (-16,0,0); (-19,0,0); (-22,0,0); (27,0,0); (16,0,0);
   (19,0,0); (9,0,0); (-9,0,0); (-9,0,0); (-8,0,0); (18,0,0);
   (16,0,0); (-10,0,0); (-23,0,0); (16,0,0); (-12,0,0); (-8,0,0);
   (30,0,0); (24,0,0); (10,0,0); (-16,0,0); (-16,0,0); (17,0,0);
   (-24,0,0); (-12,0,0); (-24,0,0); (-23,0,0); (-13,0,0); (-15,0,0);
   (0,0,-1988); (0,0,-63); (-4,0,0); (0,0,5); (5,0,0); (0,0,364);
   (0,0,-1044); (-3,0,0); (4,0,0); (0,0,330); (5,0,0); (3,0,0);
   (-3,0,0); (-5,0,0); (3,0,0); (3,0,0); (3,0,0); (0,0,5);
   (0,0,0); (4,0,0); (6,0,0); (5,0,0); (-7,0,0); (-12,0,0);
   (5,0,0); (3,0,0); (-5,0,0); (3,0,0); (-7,0,0); (7,0,0);
   (0,0,-12); (4,0,0); (3,0,0); (-3,0,0); (-7,0,0); (-4,0,0);
   (-3,0,0); (0,0,0); (-3,0,0); (7,0,0); (-4,0,0); (4,0,0);
   (-5,0,0); (5,0,0); (-5,0,0); (5,0,0); (-8,0,0); (9,0,0);
   (6,0,0); (-5,0,0); (3,0,0); (-7,0,0); (-3,0,0); (5,0,0);
   (3,0,0); (-3,0,0); (4,0,0); (3,0,0); (-5,0,0); (4,0,0);
   (9,0,0); (4,0,0); (4,0,0); (-3,0,0); (-4,0,0); (9,0,0);
   (-4,0,0); (-4,0,0); (3,0,0); (8,0,0); (3,0,0); (-3,0,0);
   (3,0,0); (3,0,0); (-3,0,0); (6,0,0); (3,0,0); (-3,0,0);
   (-7,0,0); (9,0,0); (-3,0,0); (-3,0,0); (-4,0,0); (-5,0,0);
   (-13,0,0); (-7,0,0); (10,0,0); (3,0,0); (10,0,13); (0,0,30);
   (0,0,-162); (0,0,75); (-7,0,0); (-4,0,0); (4,0,0); (5,0,0);
   (5,0,0); (-3,0,0); (-3,0,0); (-4,0,0); (-5,0,0); (6,0,0);
   (9,0,0); (5,0,0); (-7,0,0); (-3,0,0); (-4,0,0); (7,0,0);
   (-4,0,0); (4,0,0); (-6,0,-3); (0,0,-3); (11,0,0); (3,0,0);
   (11,0,0); (-3,0,0); (-1,0,3); (4,0,0); (0,0,-13); (3,0,6);
   (-7,0,0); (5,0,0); (-3,0,0); (3,0,0); (5,0,0); (-7,0,0);
   (8,0,0); (-4,0,0); (11,0,0); (-3,0,0); (3,0,0); (-4,0,0);
   (8,0,0); (3,0,0); (11,0,0); (-6,0,0); (-4,0,0); (-8,0,0);
   (-7,0,0); (-4,0,0); (3,0,0); (6,0,0); (-6,0,0); (6,0,0);
   (6,0,0); (5,0,0); (-5,0,0); (-4,0,0); (-4,0,0); (4,0,0);
   (6,0,0); (-4,0,0); (0,0,-26); (0,0,-10); (5,0,0); (-13,0,0);
   (3,0,0); (4,0,0); (7,0,0); (4,0,0); (5,0,0); (-3,0,0);
   (-6,0,0); (-5,0,0); (-7,0,0); (5,0,0); (13,0,0); (-4,0,0);
   (-3,0,0); (5,0,0); (-11,0,0); (5,0,0); (4,0,0); (4,0,0);
   (-4,0,0); (6,0,0); (3,0,0); (-12,0,0); (4,0,0); (-3,0,0);
   (-4,0,0); (3,0,0); (3,0,0); (-3,0,0); (0,0,-5); (-7,0,0);
   (6,0,0); (-3,0,0); (5,0,0); (3,0,0); (3,0,0); (-3,0,0);
   (-5,0,0); (-3,0,0); (-3,0,0); (12,0,0); (3,0,0); (-4,0,0);
   (4,0,0); (6,0,0); (5,0,0); (4,0,0); (-6,0,0); (4,0,0);
   (6,0,0); (6,0,0); (-6,0,0); (3,0,0); (7,0,0); (4,0,0);
   (-5,0,0); (5,0,0); (-6,0,0); (-6,0,0); (-4,0,0); (10,0,0);
   (-4,0,0); (7,0,0); (7,0,0); (4,0,0); (11,0,0); (5,0,0);
   (-6,0,0); (4,0,0); (3,0,0); (5,0,0); (-4,0,0); (-4,0,0);
   (-3,0,0); (4,0,0); (3,0,0); (-3,0,0); (-3,0,0); (-3,0,0)].
Definition lunisolar_obliquity_data : list (Z * Z * Z) :=
  [(92052331,9086,15377); (5730336,-3015,-4587); (978459,-485,1374); (-897492,470,-291); (73871,-184,-1924); (224386,-677,-174);
   (-6750,0,358); (200728,18,318); (129025,-63,367); (-95929,299,132); (-68982,-9,39); (-53311,32,-4);
   (-1235,0,82); (-33228,0,-9); (31429,0,-75); (25543,-11,66); (26366,0,78); (-24236,-10,20);
   (-1220,0,29); (16452,-11,68); (-13870,0,0); (477,0,-25); (13238,-11,59); (-12338,10,-3);
   (-10758,0,-3); (-609,0,13); (-550,0,11); (8551,-2,-45); (-8001,0,-1); (6850,-42,-5);
   (-167,0,13); (6953,0,-14); (6415,0,26); (5222,0,15); (168,-1,10); (3268,0,19);
   (104,0,2); (-3250,0,-5); (3353,0,14); (3070,0,4); (3272,0,4); (-3045,0,-1);
   (-2768,0,-4); (3041,0,-5); (2695,0,12); (2719,0,-3); (2720,0,-9); (-51,0,4);
   (-2206,0,1); (-199,0,2); (-1900,0,1); (-41,0,3); (1313,0,-1); (1233,0,7);
   (-81,0,2); (1232,0,4); (-20,0,-2); (1207,0,3); (40,0,-2); (1129,0,5);
   (1266,0,-4); (-1062,0,-3); (-1129,0,-2); (-9,0,0); (35,0,-2); (-107,0,1);
   (1073,0,-2); (854,0,0); (-553,0,-139); (-710,0,-2); (647,0,4); (-700,0,0);
   (672,0,0); (663,0,4); (-594,0,-2); (-610,0,2); (-556,0,0); (518,0,2);
   (-490,0,-1); (-527,0,-1); (465,0,4); (496,0,1); (-50,0,0); (-399,0,-1);
   (-395,0,-1); (-422,0,-1); (-440,0,1); (-170,0,1); (-39,0,0); (-389,0,-1);
   (-23,0,1); (-391,0,0); (-495,0,-10); (-326,0,2); (369,0,-1); (346,0,1);
   (304,0,0); (294,0,2); (4,0,-1); (316,0,-1); (8,0,-1); (258,0,0);
   (-279,0,0); (252,0,2); (-244,0,-1); (250,0,2); (29,0,0); (275,0,-1);
   (-228,0,-1); (240,0,1); (-253,0,0); (244,0,-1); (9,0,0); (225,0,1);
   (207,0,1); (201,0,0); (216,0,1); (-200,0,0); (14,0,0); (-2,0,0);
   (188,0,0); (205,0,0); (-19,0,0); (-176,0,-1); (189,0,0); (-185,0,-1);
   (-24,0,0); (5,0,0); (171,0,0); (-6,0,0); (184,0,-1); (-154,0,0);
   (-174,0,0); (162,0,0); (144,0,0); (-15,0,0); (-19,0,0); (-143,0,-1);
   (-144,0,0); (-134,0,0); (131,0,1); (-138,0,0); (-128,0,0); (-17,0,0);
   (128,0,0); (-120,0,0); (109,0,1); (-8,0,0); (-108,0,0); (104,0,0);
   (-104,0,0); (-112,0,0); (-102,0,0); (105,0,0); (-14,0,0); (7,0,0);
   (96,0,0); (-100,0,0); (94,0,1); (83,0,0); (-2,0,0); (6,0,0);
   (-79,0,0); (43,0,0); (2,0,0); (84,0,0); (81,0,0); (78,0,0);
   (75,0,0); (69,0,1); (1,0,0); (-54,0,-2); (-75,0,0); (69,0,0);
   (-72,0,0); (-75,0,0); (69,0,0); (-54,0,11); (-4,0,0); (-64,0,0);
   (66,0,0); (-61,0,0); (60,0,0); (56,0,1); (57,0,0); (56,0,0);
   (-52,0,0); (-54,0,0); (59,0,0); (61,0,0); (55,0,0); (57,0,0);
   (-49,0,0); (44,0,0); (51,0,0); (56,0,0); (-47,0,0); (-1,0,0);
   (-50,0,0); (-5,0,0); (44,0,0); (48,0,0); (50,0,0); (12,0,-2);
   (-45,0,0); (-45,0,0); (41,0,0); (43,0,0); (54,0,0); (-40,0,0);
   (40,0,0); (40,0,-2); (-36,0,0); (39,0,0); (-1,0,0); (34,0,0);
   (47,0,0); (-44,0,0); (-43,0,0); (-39,0,0); (39,0,0); (-43,0,0);
   (39,0,0); (39,0,0); (0,0,0); (-36,0,0); (32,0,0); (-31,0,0);
   (-34,0,0); (33,0,0); (32,0,0); (-2,0,0); (2,0,0); (-28,0,0);
   (-32,0,0); (3,0,-1); (30,0,0); (-29,0,0); (-4,0,0); (-33,0,0);
   (26,0,0); (20,0,0); (24,0,0); (23,0,0); (-24,0,0); (25,0,0);
   (-26,0,0); (-25,0,0); (2,0,0); (0,0,0); (0,0,0); (-26,0,0);
   (-1,0,-1); (21,0,0); (-20,0,0); (-22,0,0); (21,0,0); (-21,0,0);
   (24,0,0); (22,0,0); (22,0,0); (-21,0,0); (-18,0,0); (22,0,0);
   (-4,0,0); (-4,0,0); (-19,0,0); (-23,0,0); (22,0,0); (-2,0,0);
   (16,0,0); (1,0,0); (-15,0,0); (19,0,0); (21,0,0); (0,0,0);
   (-10,0,0); (-14,0,0); (-20,0,0); (-13,0,0); (15,0,0); (-15,0,0);
   (15,0,0); (-8,0,0); (19,0,0); (-15,0,0); (0,0,0); (20,0,0);
   (-19,0,0); (-14,0,0); (2,0,0); (-18,0,0); (11,0,0); (-1,0,0);
   (-15,0,0); (20,0,0); (19,0,0); (19,0,0); (-16,0,0); (-14,0,0);
   (-13,0,0); (-2,0,0); (-1,0,0); (-16,0,0); (-16,0,0); (15,0,0);
   (16,0,0); (13,0,0); (-16,0,0); (-13,0,0); (-2,0,0); (-13,0,0);
   (-12,0,0); (18,0,0); (-11,0,0); (14,0,0); (14,0,0); (12,0,0);
   (0,0,0); (5,0,0); (10,0,0); (15,0,0); (6,0,0); (0,0,0);
   (4,0,0); (5,0,0); (5,0,0); (-1,0,0); (3,0,0); (0,0,0);
   (0,0,-2); (0,0,0); (12,0,0); (7,0,0); (-11,0,0); (-6,0,0);
   (-6,0,0); (0,0,0); (-8,0,0); (0,0,0); (0,0,0); (8,0,0);
   (0,0,0); (10,0,0); (5,0,0); (10,0,0); (-4,0,0); (-6,0,0);
   (-12,0,0); (0,0,0); (6,0,0); (9,0,0); (8,0,0); (-7,0,0);
   (0,0,0); (-10,0,0); (0,0,0); (8,0,0); (-5,0,0); (7,0,0);
   (-6,0,0); (0,0,0); (5,0,0); (-8,0,0); (3,0,0); (-5,0,0);
   (0,0,0); (0,0,0); (-4,0,0); (10,0,0); (11,0,0); (-4,0,0);
   (4,0,0); (-6,0,0); (9,0,0); (0,0,0); (-5,0,0); (0,0,0);
   (10,0,0); (-5,0,0); (-9,0,0); (5,0,0); (11,0,0); (0,0,0);
   (7,0,0); (-3,0,0); (-4,0,0); (0,0,0); (6,0,0); (0,0,0);
   (6,0,0); (8,0,0); (-5,0,0); (9,0,0); (6,0,0); (5,0,0);
   (-6,0,0); (0,0,0); (0,0,0); (-1,0,0); (-7,0,0); (-10,0,0);
   (-5,0,0); (-1,0,0); (1,0,0); (0,0,0); (0,0,0); (3,0,0);
   (0,0,0); (-5,0,0); (4,0,0); (0,0,0); (4,0,0); (-9,0,0);
   (-1,0,0); (8,0,0); (9,0,0); (10,0,0); (-1,0,0); (-8,0,0);
   (-8,0,0); (-4,0,0); (4,0,0); (4,0,0); (4,0,0); (-9,0,0);
   (-1,0,0); (4,0,0); (9,0,0); (-1,0,0); (6,0,0); (4,0,0);
   (-2,0,0); (-10,0,0); (-4,0,0); (7,0,0); (7,0,0); (-7,0,0);
   (10,0,0); (5,0,0); (11,0,0); (9,0,0); (5,0,0); (7,0,0);
   (0,0,-1679); (0,0,-27); (0,0,0); (0,0,4); (-3,0,0); (0,0,176);
   (0,0,-891); (1,0,0); (-2,0,0); (0,0,0); (-2,0,0); (-2,0,0);
   (1,0,0); (2,0,0); (-1,0,0); (0,0,0); (0,0,0); (0,0,0);
   (1,0,0); (-2,0,0); (0,0,0); (-2,0,0); (0,0,0); (0,0,0);
   (-3,0,0); (-1,0,0); (0,0,0); (0,0,0); (3,0,0); (-4,0,0);
   (0,0,-10); (-2,0,0); (-2,0,0); (2,0,0); (3,0,0); (2,0,0);
   (1,0,0); (0,0,0); (1,0,0); (-3,0,0); (2,0,0); (-2,0,0);
   (3,0,0); (0,0,0); (2,0,0); (-2,0,0); (3,0,0); (0,0,0);
   (-3,0,0); (2,0,0); (0,0,0); (0,0,0); (1,0,0); (0,0,0);
   (0,0,0); (2,0,0); (-2,0,0); (-1,0,0); (2,0,0); (-2,0,0);
   (-3,0,0); (0,0,0); (-2,0,0); (2,0,0); (2,0,0); (-3,0,0);
   (0,0,0); (0,0,0); (-2,0,0); (0,0,0); (0,0,0); (2,0,0);
   (-1,0,0); (-1,0,0); (1,0,0); (-3,0,0); (0,0,0); (1,0,0);
   (0,0,0); (0,0,0); (2,0,0); (0,0,0); (0,0,0); (3,0,0);
   (0,0,0); (0,0,0); (0,0,0); (-1,0,0); (6,0,-5); (0,0,14);
   (0,0,-138); (0,0,0); (4,0,0); (2,0,0); (-2,0,0); (-2,0,0);
   (-3,0,0); (0,0,0); (2,0,0); (2,0,0); (2,0,0); (0,0,0);
   (0,0,0); (0,0,0); (0,0,0); (1,0,0); (2,0,0); (0,0,0);
   (0,0,0); (0,0,0); (3,0,1); (0,0,-2); (0,0,0); (-1,0,0);
   (0,0,0); (2,0,0); (3,0,-1); (-2,0,0); (0,0,-11); (0,0,0);
   (0,0,0); (-3,0,0); (1,0,0); (0,0,0); (-3,0,0); (3,0,0);
   (-3,0,0); (2,0,0); (0,0,0); (1,0,0); (-1,0,0); (2,0,0);
   (-4,0,0); (-1,0,0); (0,0,0); (3,0,0); (2,0,0); (4,0,0);
   (3,0,0); (2,0,0); (-1,0,0); (-3,0,0); (3,0,0); (0,0,0);
   (-1,0,0); (-2,0,0); (2,0,0); (0,0,0); (2,0,0); (0,0,0);
   (-3,0,0); (2,0,0); (0,0,-11); (0,0,-5); (-3,0,0); (0,0,0);
   (-2,0,0); (-2,0,0); (-3,0,0); (0,0,0); (0,0,0); (2,0,0);
   (2,0,0); (2,0,0); (3,0,0); (-2,0,0); (0,0,0); (2,0,0);
   (0,0,0); (-2,0,0); (0,0,0); (-2,0,0); (0,0,0); (-2,0,0);
   (2,0,0); (-3,0,0); (-2,0,0); (0,0,0); (0,0,0); (0,0,0);
   (0,0,0); (0,0,0); (-1,0,0); (1,0,0); (0,0,-2); (4,0,0);
   (-3,0,0); (0,0,0); (-3,0,0); (-1,0,0); (0,0,0); (1,0,0);
   (3,0,0); (2,0,0); (2,0,0); (0,0,0); (-1,0,0); (2,0,0);
   (0,0,0); (0,0,0); (-3,0,0); (-2,0,0); (3,0,0); (-2,0,0);
   (-3,0,0); (0,0,0); (3,0,0); (-2,0,0); (-4,0,0); (-2,0,0);
   (2,0,0); (0,0,0); (3,0,0); (3,0,0); (2,0,0); (0,0,0);
   (2,0,0); (0,0,0); (-3,0,0); (0,0,0); (0,0,0); (-2,0,0);
   (2,0,0); (-2,0,0); (-2,0,0); (-2,0,0); (2,0,0); (2,0,0);
   (2,0,0); (-2,0,0); (-1,0,0); (1,0,0); (1,0,0); (2,0,0)].
Definition napl_data : list (list Z) :=
  [[0;0;0;0;0;0;0;8;-16;4;5;0;0;0]; [0;0;0;0;0;0;0;-8;16;-4;-5;0;0;2]; [0;0;0;0;0;0;0;8;-16;4;5;0;0;2];
   [0;0;0;0;0;0;0;0;0;0;0;-1;2;2]; [0;0;0;0;0;0;0;-4;8;-1;-5;0;0;2]; [0;0;0;0;0;0;0;4;-8;3;0;0;0;1];
   [0;0;1;-1;1;0;0;3;-8;3;0;0;0;0]; [-1;0;0;0;0;0;10;-3;0;0;0;0;0;0]; [0;0;0;0;0;0;0;0;0;-2;6;-3;0;2];
   [0;0;0;0;0;0;0;4;-8;3;0;0;0;0]; [0;0;1;-1;1;0;0;-5;8;-3;0;0;0;0]; [0;0;0;0;0;0;0;-4;8;-3;0;0;0;1];
   [0;0;0;0;0;0;0;4;-8;1;5;0;0;2]; [0;0;0;0;0;0;-5;6;4;0;0;0;0;2]; [0;0;0;0;0;0;0;0;0;2;-5;0;0;2];
   [0;0;0;0;0;0;0;0;0;2;-5;0;0;1]; [0;0;1;-1;1;0;0;-1;0;2;-5;0;0;0]; [0;0;0;0;0;0;0;0;0;2;-5;0;0;0];
   [0;0;1;-1;1;0;0;-1;0;-2;5;0;0;0]; [0;0;0;0;0;0;0;0;0;-2;5;0;0;1]; [0;0;0;0;0;0;0;0;0;-2;5;0;0;2];
   [2;0;-1;-1;0;0;0;3;-7;0;0;0;0;0]; [1;0;0;-2;0;0;19;-21;3;0;0;0;0;0]; [0;0;1;-1;1;0;2;-4;0;-3;0;0;0;0];
   [1;0;0;-1;1;0;0;-1;0;2;0;0;0;0]; [0;0;1;-1;1;0;0;-1;0;-4;10;0;0;0]; [-2;0;0;2;1;0;0;2;0;0;-5;0;0;0];
   [0;0;0;0;0;0;3;-7;4;0;0;0;0;0]; [0;0;-1;1;0;0;0;1;0;1;-1;0;0;0]; [-2;0;0;2;1;0;0;2;0;-2;0;0;0;0];
   [-1;0;0;0;0;0;18;-16;0;0;0;0;0;0]; [-2;0;1;1;2;0;0;1;0;-2;0;0;0;0]; [-1;0;1;-1;1;0;18;-17;0;0;0;0;0;0];
   [-1;0;0;1;1;0;0;2;-2;0;0;0;0;0]; [0;0;0;0;0;0;-8;13;0;0;0;0;0;2]; [0;0;2;-2;2;0;-8;11;0;0;0;0;0;0];
   [0;0;0;0;0;0;-8;13;0;0;0;0;0;1]; [0;0;1;-1;1;0;-8;12;0;0;0;0;0;0]; [0;0;0;0;0;0;8;-13;0;0;0;0;0;0];
   [0;0;1;-1;1;0;8;-14;0;0;0;0;0;0]; [0;0;0;0;0;0;8;-13;0;0;0;0;0;1]; [-2;0;0;2;1;0;0;2;0;-4;5;0;0;0];
   [-2;0;0;2;2;0;3;-3;0;0;0;0;0;0]; [-2;0;0;2;0;0;0;2;0;-3;1;0;0;0]; [0;0;0;0;1;0;3;-5;0;2;0;0;0;0];
   [-2;0;0;2;0;0;0;2;0;-4;3;0;0;0]; [0;0;-1;1;0;0;0;0;2;0;0;0;0;0]; [0;0;0;0;1;0;0;-1;2;0;0;0;0;0];
   [0;0;1;-1;2;0;0;-2;2;0;0;0;0;0]; [-1;0;1;0;1;0;3;-5;0;0;0;0;0;0]; [-1;0;0;1;0;0;3;-4;0;0;0;0;0;0];
   [-2;0;0;2;0;0;0;2;0;-2;-2;0;0;0]; [-2;0;2;0;2;0;0;-5;9;0;0;0;0;0]; [0;0;1;-1;1;0;0;-1;0;0;0;-1;0;0];
   [0;0;0;0;0;0;0;0;0;0;0;1;0;0]; [0;0;1;-1;1;0;0;-1;0;0;0;0;2;0]; [0;0;0;0;0;0;0;0;0;0;0;0;2;1];
   [0;0;0;0;0;0;0;0;0;0;0;0;2;2]; [-1;0;0;1;0;0;0;3;-4;0;0;0;0;0]; [0;0;-1;1;0;0;0;1;0;0;2;0;0;0];
   [0;0;1;-1;2;0;0;-1;0;0;2;0;0;0]; [0;0;0;0;1;0;0;-9;17;0;0;0;0;0]; [0;0;0;0;2;0;-3;5;0;0;0;0;0;0];
   [0;0;1;-1;1;0;0;-1;0;-1;2;0;0;0]; [0;0;0;0;0;0;0;0;0;1;-2;0;0;0]; [1;0;0;-2;0;0;17;-16;0;-2;0;0;0;0];
   [0;0;1;-1;1;0;0;-1;0;1;-3;0;0;0]; [-2;0;0;2;1;0;0;5;-6;0;0;0;0;0]; [0;0;-2;2;0;0;0;9;-13;0;0;0;0;0];
   [0;0;1;-1;2;0;0;-1;0;0;1;0;0;0]; [0;0;0;0;1;0;0;0;0;0;1;0;0;0]; [0;0;-1;1;0;0;0;1;0;0;1;0;0;0];
   [0;0;-2;2;0;0;5;-6;0;0;0;0;0;0]; [0;0;-1;1;1;0;5;-7;0;0;0;0;0;0]; [-2;0;0;2;0;0;6;-8;0;0;0;0;0;0];
   [2;0;1;-3;1;0;-6;7;0;0;0;0;0;0]; [0;0;0;0;2;0;0;0;0;1;0;0;0;0]; [0;0;-1;1;1;0;0;1;0;1;0;0;0;0];
   [0;0;1;-1;1;0;0;-1;0;0;0;2;0;0]; [0;0;0;0;0;0;0;0;0;0;0;2;0;1]; [0;0;0;0;0;0;0;0;0;0;0;2;0;2];
   [0;0;0;0;0;0;0;-8;15;0;0;0;0;2]; [0;0;0;0;0;0;0;-8;15;0;0;0;0;1]; [0;0;1;-1;1;0;0;-9;15;0;0;0;0;0];
   [0;0;0;0;0;0;0;8;-15;0;0;0;0;0]; [1;0;-1;-1;0;0;0;8;-15;0;0;0;0;0]; [2;0;0;-2;0;0;2;-5;0;0;0;0;0;0];
   [-2;0;0;2;0;0;0;2;0;-5;5;0;0;0]; [2;0;0;-2;1;0;0;-6;8;0;0;0;0;0]; [2;0;0;-2;1;0;0;-2;0;3;0;0;0;0];
   [-2;0;1;1;0;0;0;1;0;-3;0;0;0;0]; [-2;0;1;1;1;0;0;1;0;-3;0;0;0;0]; [-2;0;0;2;0;0;0;2;0;-3;0;0;0;0];
   [-2;0;0;2;0;0;0;6;-8;0;0;0;0;0]; [-2;0;0;2;0;0;0;2;0;-1;-5;0;0;0]; [-1;0;0;1;0;0;0;1;0;-1;0;0;0;0];
   [-1;0;1;1;1;0;-20;20;0;0;0;0;0;0]; [1;0;0;-2;0;0;20;-21;0;0;0;0;0;0]; [0;0;0;0;1;0;0;8;-15;0;0;0;0;0];
   [0;0;2;-2;1;0;0;-10;15;0;0;0;0;0]; [0;0;-1;1;0;0;0;1;0;1;0;0;0;0]; [0;0;0;0;1;0;0;0;0;1;0;0;0;0];
   [0;0;1;-1;2;0;0;-1;0;1;0;0;0;0]; [0;0;1;-1;1;0;0;-1;0;-2;4;0;0;0]; [2;0;0;-2;1;0;-6;8;0;0;0;0;0;0];
   [0;0;-2;2;1;0;5;-6;0;0;0;0;0;0]; [0;0;0;0;0;0;0;0;0;0;-1;0;0;1]; [0;0;1;-1;1;0;0;-1;0;0;-1;0;0;0];
   [0;0;0;0;0;0;0;0;0;0;1;0;0;0]; [0;0;1;-1;1;0;0;-1;0;0;1;0;0;0]; [0;0;0;0;0;0;0;0;0;0;1;0;0;1];
   [0;0;0;0;0;0;0;0;0;0;1;0;0;2]; [0;0;2;-2;1;0;0;-9;13;0;0;0;0;0]; [0;0;0;0;1;0;0;7;-13;0;0;0;0;0];
   [-2;0;0;2;0;0;0;5;-6;0;0;0;0;0]; [0;0;0;0;0;0;0;9;-17;0;0;0;0;0]; [0;0;0;0;0;0;0;-9;17;0;0;0;0;2];
   [1;0;0;-1;1;0;0;-3;4;0;0;0;0;0]; [1;0;0;-1;1;0;-3;4;0;0;0;0;0;0]; [0;0;0;0;2;0;0;-1;2;0;0;0;0;0];
   [0;0;-1;1;1;0;0;0;2;0;0;0;0;0]; [0;0;-2;2;0;1;0;-2;0;0;0;0;0;0]; [0;0;0;0;0;0;3;-5;0;2;0;0;0;0];
   [-2;0;0;2;1;0;0;2;0;-3;1;0;0;0]; [-2;0;0;2;1;0;3;-3;0;0;0;0;0;0]; [0;0;0;0;1;0;8;-13;0;0;0;0;0;0];
   [0;0;-1;1;0;0;8;-12;0;0;0;0;0;0]; [0;0;2;-2;1;0;-8;11;0;0;0;0;0;0]; [-1;0;0;1;0;0;0;2;-2;0;0;0;0;0];
   [-1;0;0;0;1;0;18;-16;0;0;0;0;0;0]; [0;0;1;-1;1;0;0;-1;0;-1;1;0;0;0]; [0;0;0;0;1;0;3;-7;4;0;0;0;0;0];
   [-2;0;1;1;1;0;0;-3;7;0;0;0;0;0]; [0;0;1;-1;2;0;0;-1;0;-2;5;0;0;0]; [0;0;0;0;1;0;0;0;0;-2;5;0;0;0];
   [0;0;0;0;1;0;0;-4;8;-3;0;0;0;0]; [1;0;0;0;1;0;-10;3;0;0;0;0;0;0]; [0;0;2;-2;1;0;0;-2;0;0;0;0;0;0];
   [-1;0;0;0;1;0;10;-3;0;0;0;0;0;0]; [0;0;0;0;1;0;0;4;-8;3;0;0;0;0]; [0;0;0;0;1;0;0;0;0;2;-5;0;0;0];
   [0;0;-1;1;0;0;0;1;0;2;-5;0;0;0]; [2;0;-1;-1;1;0;0;3;-7;0;0;0;0;0]; [-2;0;0;2;0;0;0;2;0;0;-5;0;0;0];
   [0;0;0;0;1;0;-3;7;-4;0;0;0;0;0]; [-2;0;0;2;0;0;0;2;0;-2;0;0;0;0]; [1;0;0;0;1;0;-18;16;0;0;0;0;0;0];
   [-2;0;1;1;1;0;0;1;0;-2;0;0;0;0]; [0;0;1;-1;2;0;-8;12;0;0;0;0;0;0]; [0;0;0;0;1;0;-8;13;0;0;0;0;0;0];
   [0;0;0;0;0;0;0;1;-2;0;0;0;0;1]; [0;0;1;-1;1;0;0;0;-2;0;0;0;0;0]; [0;0;0;0;0;0;0;1;-2;0;0;0;0;0];
   [0;0;1;-1;1;0;0;-2;2;0;0;0;0;0]; [0;0;0;0;0;0;0;-1;2;0;0;0;0;1]; [-1;0;0;1;1;0;3;-4;0;0;0;0;0;0];
   [-1;0;0;1;1;0;0;3;-4;0;0;0;0;0]; [0;0;1;-1;1;0;0;-1;0;0;-2;0;0;0]; [0;0;1;-1;1;0;0;-1;0;0;2;0;0;0];
   [0;0;0;0;0;0;0;0;0;0;2;0;0;1]; [0;0;0;0;0;0;0;0;0;0;2;0;0;2]; [0;0;1;-1;0;0;3;-6;0;0;0;0;0;0];
   [0;0;0;0;1;0;-3;5;0;0;0;0;0;0]; [0;0;1;-1;2;0;-3;4;0;0;0;0;0;0]; [0;0;0;0;1;0;0;-2;4;0;0;0;0;0];
   [0;0;2;-2;1;0;-5;6;0;0;0;0;0;0]; [0;0;-1;1;0;0;5;-7;0;0;0;0;0;0]; [0;0;0;0;1;0;5;-8;0;0;0;0;0;0];
   [-2;0;0;2;1;0;6;-8;0;0;0;0;0;0]; [0;0;0;0;1;0;0;-8;15;0;0;0;0;0]; [-2;0;0;2;1;0;0;2;0;-3;0;0;0;0];
   [-2;0;0;2;1;0;0;6;-8;0;0;0;0;0]; [1;0;0;-1;1;0;0;-1;0;1;0;0;0;0]; [0;0;0;0;0;0;0;0;0;3;-5;0;0;0];
   [0;0;1;-1;1;0;0;-1;0;-1;0;0;0;0]; [0;0;0;0;0;0;0;0;0;-1;0;0;0;1]; [0;0;0;0;0;0;0;0;0;1;0;0;0;0];
   [0;0;0;0;0;0;0;0;0;1;0;0;0;1]; [0;0;1;-1;1;0;0;-1;0;1;0;0;0;0]; [0;0;0;0;0;0;0;0;0;1;0;0;0;1];
   [0;0;0;0;0;0;0;0;0;1;0;0;0;2]; [0;0;1;-1;2;0;0;-1;0;0;-1;0;0;0]; [0;0;0;0;1;0;0;0;0;0;-1;0;0;0];
   [0;0;-1;1;0;0;0;1;0;0;-1;0;0;0]; [0;0;0;0;0;0;0;-7;13;0;0;0;0;2]; [0;0;0;0;0;0;0;7;-13;0;0;0;0;0];
   [2;0;0;-2;1;0;0;-5;6;0;0;0;0;0]; [0;0;2;-2;1;0;0;-8;11;0;0;0;0;0]; [0;0;2;-2;1;-1;0;2;0;0;0;0;0;0];
   [-2;0;0;2;0;0;0;4;-4;0;0;0;0;0]; [0;0;0;0;0;0;0;0;0;2;-2;0;0;0]; [0;0;1;-1;1;0;0;-1;0;0;3;0;0;0];
   [0;0;0;0;0;0;0;0;0;0;3;0;0;1]; [0;0;0;0;0;0;0;0;0;0;3;0;0;2]; [-2;0;0;2;0;0;3;-3;0;0;0;0;0;0];
   [0;0;0;0;2;0;0;-4;8;-3;0;0;0;0]; [0;0;0;0;2;0;0;4;-8;3;0;0;0;0]; [2;0;0;-2;1;0;0;-2;0;2;0;0;0;0];
   [0;0;1;-1;2;0;0;-1;0;2;0;0;0;0]; [0;0;1;-1;2;0;0;0;-2;0;0;0;0;0]; [0;0;0;0;1;0;0;1;-2;0;0;0;0;0];
   [0;0;-1;1;0;0;0;2;-2;0;0;0;0;0]; [0;0;-1;1;0;0;0;1;0;0;-2;0;0;0]; [0;0;2;-2;1;0;0;-2;0;0;2;0;0;0];
   [0;0;1;-1;1;0;3;-6;0;0;0;0;0;0]; [0;0;0;0;0;0;3;-5;0;0;0;0;0;1]; [0;0;0;0;0;0;3;-5;0;0;0;0;0;0];
   [0;0;1;-1;1;0;-3;4;0;0;0;0;0;0]; [0;0;0;0;0;0;-3;5;0;0;0;0;0;1]; [0;0;0;0;0;0;-3;5;0;0;0;0;0;2];
   [0;0;2;-2;2;0;-3;3;0;0;0;0;0;0]; [0;0;0;0;0;0;-3;5;0;0;0;0;0;2]; [0;0;0;0;0;0;0;2;-4;0;0;0;0;1];
   [0;0;1;-1;1;0;0;1;-4;0;0;0;0;0]; [0;0;0;0;0;0;0;2;-4;0;0;0;0;0]; [0;0;0;0;0;0;0;-2;4;0;0;0;0;1];
   [0;0;1;-1;1;0;0;-3;4;0;0;0;0;0]; [0;0;0;0;0;0;0;-2;4;0;0;0;0;1]; [0;0;0;0;0;0;0;-2;4;0;0;0;0;2];
   [0;0;0;0;0;0;-5;8;0;0;0;0;0;2]; [0;0;2;-2;2;0;-5;6;0;0;0;0;0;0]; [0;0;0;0;0;0;-5;8;0;0;0;0;0;2];
   [0;0;0;0;0;0;-5;8;0;0;0;0;0;1]; [0;0;1;-1;1;0;-5;7;0;0;0;0;0;0]; [0;0;0;0;0;0;-5;8;0;0;0;0;0;1];
   [0;0;0;0;0;0;5;-8;0;0;0;0;0;0]; [0;0;1;-1;2;0;0;-1;0;-1;0;0;0;0]; [0;0;0;0;1;0;0;0;0;-1;0;0;0;0];
   [0;0;-1;1;0;0;0;1;0;-1;0;0;0;0]; [0;0;2;-2;1;0;0;-2;0;1;0;0;0;0]; [0;0;0;0;0;0;0;-6;11;0;0;0;0;2];
   [0;0;0;0;0;0;0;6;-11;0;0;0;0;0]; [0;0;0;0;0;-1;0;4;0;0;0;0;0;2]; [0;0;0;0;0;1;0;-4;0;0;0;0;0;0];
   [2;0;0;-2;1;0;-3;3;0;0;0;0;0;0]; [-2;0;0;2;0;0;0;2;0;0;-2;0;0;0]; [0;0;2;-2;1;0;0;-7;9;0;0;0;0;0];
   [0;0;0;0;0;0;0;0;0;4;-5;0;0;2]; [0;0;0;0;0;0;0;0;0;2;0;0;0;0]; [0;0;0;0;0;0;0;0;0;2;0;0;0;1];
   [0;0;1;-1;1;0;0;-1;0;2;0;0;0;0]; [0;0;0;0;0;0;0;0;0;2;0;0;0;1]; [0;0;0;0;0;0;0;0;0;2;0;0;0;2];
   [0;0;2;-2;2;0;0;-2;0;2;0;0;0;0]; [0;0;0;0;0;0;0;0;0;0;5;0;0;2]; [0;0;0;0;1;0;3;-5;0;0;0;0;0;0];
   [0;0;-1;1;0;0;3;-4;0;0;0;0;0;0]; [0;0;2;-2;1;0;-3;3;0;0;0;0;0;0]; [0;0;0;0;1;0;0;2;-4;0;0;0;0;0];
   [0;0;2;-2;1;0;0;-4;4;0;0;0;0;0]; [0;0;1;-1;2;0;-5;7;0;0;0;0;0;0]; [0;0;0;0;0;0;0;3;-6;0;0;0;0;0];
   [0;0;0;0;0;0;0;-3;6;0;0;0;0;1]; [0;0;1;-1;1;0;0;-4;6;0;0;0;0;0]; [0;0;0;0;0;0;0;-3;6;0;0;0;0;1];
   [0;0;0;0;0;0;0;-3;6;0;0;0;0;2]; [0;0;-1;1;0;0;2;-2;0;0;0;0;0;0]; [0;0;0;0;1;0;2;-3;0;0;0;0;0;0];
   [0;0;0;0;0;0;0;-5;9;0;0;0;0;2]; [0;0;0;0;0;0;0;-5;9;0;0;0;0;1]; [0;0;0;0;0;0;0;5;-9;0;0;0;0;0];
   [0;0;-1;1;0;0;0;1;0;-2;0;0;0;0]; [0;0;2;-2;1;0;0;-2;0;2;0;0;0;0]; [-2;0;1;1;1;0;0;1;0;0;0;0;0;0];
   [0;0;-2;2;0;0;3;-3;0;0;0;0;0;0]; [0;0;0;0;0;0;-6;10;0;0;0;0;0;1]; [0;0;0;0;0;0;-6;10;0;0;0;0;0;2];
   [0;0;0;0;0;0;-2;3;0;0;0;0;0;2]; [0;0;0;0;0;0;-2;3;0;0;0;0;0;1]; [0;0;1;-1;1;0;-2;2;0;0;0;0;0;0];
   [0;0;0;0;0;0;2;-3;0;0;0;0;0;0]; [0;0;0;0;0;0;2;-3;0;0;0;0;0;1]; [0;0;0;0;0;0;0;0;0;3;0;0;0;1];
   [0;0;1;-1;1;0;0;-1;0;3;0;0;0;0]; [0;0;0;0;0;0;0;0;0;3;0;0;0;1]; [0;0;0;0;0;0;0;0;0;3;0;0;0;2];
   [0;0;0;0;0;0;0;4;-8;0;0;0;0;0]; [0;0;0;0;0;0;0;-4;8;0;0;0;0;2]; [0;0;-2;2;0;0;0;2;0;-2;0;0;0;0];
   [0;0;0;0;0;0;0;-4;7;0;0;0;0;2]; [0;0;0;0;0;0;0;-4;7;0;0;0;0;1]; [0;0;0;0;0;0;0;4;-7;0;0;0;0;0];
   [0;0;0;0;1;0;-2;3;0;0;0;0;0;0]; [0;0;2;-2;1;0;0;-2;0;3;0;0;0;0]; [0;0;0;0;0;0;0;-5;10;0;0;0;0;2];
   [0;0;0;0;1;0;-1;2;0;0;0;0;0;0]; [0;0;0;0;0;0;0;0;0;4;0;0;0;2]; [0;0;0;0;0;0;0;-3;5;0;0;0;0;2];
   [0;0;0;0;0;0;0;-3;5;0;0;0;0;1]; [0;0;0;0;0;0;0;3;-5;0;0;0;0;0]; [0;0;0;0;0;0;1;-2;0;0;0;0;0;1];
   [0;0;1;-1;1;0;1;-3;0;0;0;0;0;0]; [0;0;0;0;0;0;1;-2;0;0;0;0;0;0]; [0;0;0;0;0;0;-1;2;0;0;0;0;0;1];
   [0;0;0;0;0;0;-1;2;0;0;0;0;0;2]; [0;0;0;0;0;0;-7;11;0;0;0;0;0;2]; [0;0;0;0;0;0;-7;11;0;0;0;0;0;1];
   [0;0;-2;2;0;0;4;-4;0;0;0;0;0;0]; [0;0;0;0;0;0;0;2;-3;0;0;0;0;0]; [0;0;2;-2;1;0;-4;4;0;0;0;0;0;0];
   [0;0;-1;1;0;0;4;-5;0;0;0;0;0;0]; [0;0;0;0;0;0;0;1;-1;0;0;0;0;0]; [0;0;0;0;0;0;-4;7;0;0;0;0;0;1];
   [0;0;1;-1;1;0;-4;6;0;0;0;0;0;0]; [0;0;0;0;0;0;-4;7;0;0;0;0;0;2]; [0;0;0;0;0;0;-4;6;0;0;0;0;0;2];
   [0;0;0;0;0;0;-4;6;0;0;0;0;0;1]; [0;0;1;-1;1;0;-4;5;0;0;0;0;0;0]; [0;0;0;0;0;0;-4;6;0;0;0;0;0;1];
   [0;0;0;0;0;0;4;-6;0;0;0;0;0;0]; [-2;0;0;2;0;0;2;-2;0;0;0;0;0;0]; [0;0;0;0;0;0;0;0;1;0;0;0;0;0];
   [0;0;-1;1;0;0;1;0;0;0;0;0;0;0]; [0;0;0;0;1;0;1;-1;0;0;0;0;0;0]; [0;0;0;0;0;0;0;-1;0;5;0;0;0;2];
   [0;0;0;0;0;0;0;1;-3;0;0;0;0;0]; [0;0;0;0;0;0;0;-1;3;0;0;0;0;2]; [0;0;0;0;0;0;0;-7;12;0;0;0;0;2];
   [0;0;0;0;0;0;-1;1;0;0;0;0;0;2]; [0;0;0;0;0;0;-1;1;0;0;0;0;0;1]; [0;0;1;-1;1;0;-1;0;0;0;0;0;0;0];
   [0;0;0;0;0;0;1;-1;0;0;0;0;0;0]; [0;0;0;0;0;0;1;-1;0;0;0;0;0;1]; [0;0;1;-1;1;0;1;-2;0;0;0;0;0;0];
   [0;0;0;0;0;0;0;-2;5;0;0;0;0;2]; [0;0;0;0;0;0;0;-1;0;4;0;0;0;2]; [0;0;0;0;0;0;0;1;0;-4;0;0;0;0];
   [0;0;0;0;1;0;-1;1;0;0;0;0;0;0]; [0;0;0;0;0;0;0;-6;10;0;0;0;0;2]; [0;0;0;0;0;0;0;-6;10;0;0;0;0;0];
   [0;0;2;-2;1;0;0;-3;0;3;0;0;0;0]; [0;0;0;0;0;0;0;-3;7;0;0;0;0;2]; [-2;0;0;2;0;0;4;-4;0;0;0;0;0;0];
   [0;0;0;0;0;0;0;-5;8;0;0;0;0;2]; [0;0;0;0;0;0;0;5;-8;0;0;0;0;0]; [0;0;0;0;0;0;0;-1;0;3;0;0;0;2];
   [0;0;0;0;0;0;0;-1;0;3;0;0;0;1]; [0;0;0;0;0;0;0;1;0;-3;0;0;0;0]; [0;0;0;0;0;0;2;-4;0;0;0;0;0;0];
   [0;0;0;0;0;0;-2;4;0;0;0;0;0;1]; [0;0;1;-1;1;0;-2;3;0;0;0;0;0;0]; [0;0;0;0;0;0;-2;4;0;0;0;0;0;2];
   [0;0;0;0;0;0;-6;9;0;0;0;0;0;2]; [0;0;0;0;0;0;-6;9;0;0;0;0;0;1]; [0;0;0;0;0;0;6;-9;0;0;0;0;0;0];
   [0;0;0;0;1;0;0;1;0;-2;0;0;0;0]; [0;0;2;-2;1;0;-2;2;0;0;0;0;0;0]; [0;0;0;0;0;0;0;-4;6;0;0;0;0;2];
   [0;0;0;0;0;0;0;4;-6;0;0;0;0;0]; [0;0;0;0;1;0;3;-4;0;0;0;0;0;0]; [0;0;0;0;0;0;0;-1;0;2;0;0;0;2];
   [0;0;0;0;0;0;0;1;0;-2;0;0;0;0]; [0;0;0;0;1;0;0;1;0;-1;0;0;0;0]; [0;0;0;0;0;0;-5;9;0;0;0;0;0;2];
   [0;0;0;0;0;0;0;3;-4;0;0;0;0;0]; [0;0;0;0;0;0;-3;4;0;0;0;0;0;2]; [0;0;0;0;0;0;-3;4;0;0;0;0;0;1];
   [0;0;0;0;0;0;3;-4;0;0;0;0;0;0]; [0;0;0;0;0;0;3;-4;0;0;0;0;0;1]; [0;0;0;0;1;0;0;2;-2;0;0;0;0;0];
   [0;0;0;0;1;0;0;-1;0;2;0;0;0;0]; [0;0;0;0;0;0;0;1;0;0;-3;0;0;0]; [0;0;0;0;0;0;0;1;0;1;-5;0;0;0];
   [0;0;0;0;0;0;0;-1;0;1;0;0;0;1]; [0;0;0;0;0;0;0;1;0;-1;0;0;0;0]; [0;0;0;0;0;0;0;1;0;-1;0;0;0;1];
   [0;0;0;0;0;0;0;1;0;-3;5;0;0;0]; [0;0;0;0;1;0;-3;4;0;0;0;0;0;0]; [0;0;0;0;0;0;0;1;0;0;-2;0;0;0];
   [0;0;0;0;0;0;0;2;-2;0;0;0;0;0]; [0;0;0;0;0;0;0;1;0;0;-1;0;0;0]; [0;0;0;0;1;0;0;-1;0;1;0;0;0;0];
   [0;0;0;0;1;0;0;-2;2;0;0;0;0;0]; [0;0;0;0;0;0;-8;14;0;0;0;0;0;2]; [0;0;0;0;0;0;0;1;0;2;-5;0;0;0];
   [0;0;0;0;0;0;0;5;-8;3;0;0;0;0]; [0;0;0;0;0;0;0;5;-8;3;0;0;0;2]; [0;0;0;0;0;0;0;-1;0;0;0;0;0;1];
   [0;0;0;0;0;0;0;1;0;0;0;0;0;0]; [0;0;0;0;0;0;0;3;-8;3;0;0;0;0]; [0;0;0;0;0;0;0;-3;8;-3;0;0;0;2];
   [0;0;0;0;0;0;0;1;0;-2;5;0;0;2]; [0;0;0;0;0;0;-8;12;0;0;0;0;0;2]; [0;0;0;0;0;0;-8;12;0;0;0;0;0;0];
   [0;0;0;0;0;0;0;1;0;1;-2;0;0;0]; [0;0;0;0;0;0;0;1;0;0;1;0;0;2]; [0;0;0;0;0;0;0;0;2;0;0;0;0;0];
   [0;0;0;0;0;0;0;0;2;0;0;0;0;2]; [0;0;0;0;0;0;0;1;0;0;2;0;0;2]; [0;0;2;-2;1;0;-5;5;0;0;0;0;0;0];
   [0;0;0;0;0;0;0;1;0;1;0;0;0;0]; [0;0;0;0;0;0;0;1;0;1;0;0;0;1]; [0;0;0;0;0;0;0;1;0;1;0;0;0;2];
   [0;0;0;0;0;0;3;-6;0;0;0;0;0;0]; [0;0;0;0;0;0;-3;6;0;0;0;0;0;1]; [0;0;0;0;0;0;-3;6;0;0;0;0;0;2];
   [0;0;0;0;0;0;0;-1;4;0;0;0;0;2]; [0;0;0;0;0;0;-5;7;0;0;0;0;0;2]; [0;0;0;0;0;0;-5;7;0;0;0;0;0;1];
   [0;0;1;-1;1;0;-5;6;0;0;0;0;0;0]; [0;0;0;0;0;0;5;-7;0;0;0;0;0;0]; [0;0;2;-2;1;0;0;-1;0;1;0;0;0;0];
   [0;0;0;0;0;0;0;-1;0;1;0;0;0;0]; [0;0;0;0;0;-1;0;3;0;0;0;0;0;2]; [0;0;0;0;0;0;0;1;0;2;0;0;0;2];
   [0;0;0;0;0;0;0;-2;6;0;0;0;0;2]; [0;0;0;0;1;0;2;-2;0;0;0;0;0;0]; [0;0;0;0;0;0;0;-6;9;0;0;0;0;2];
   [0;0;0;0;0;0;0;6;-9;0;0;0;0;0]; [0;0;0;0;0;0;-2;2;0;0;0;0;0;1]; [0;0;1;-1;1;0;-2;1;0;0;0;0;0;0];
   [0;0;0;0;0;0;2;-2;0;0;0;0;0;0]; [0;0;0;0;0;0;2;-2;0;0;0;0;0;1]; [0;0;0;0;0;0;0;1;0;3;0;0;0;2];
   [0;0;0;0;0;0;0;-5;7;0;0;0;0;2]; [0;0;0;0;0;0;0;5;-7;0;0;0;0;0]; [0;0;0;0;1;0;-2;2;0;0;0;0;0;0];
   [0;0;0;0;0;0;0;4;-5;0;0;0;0;0]; [0;0;0;0;0;0;1;-3;0;0;0;0;0;0]; [0;0;0;0;0;0;-1;3;0;0;0;0;0;1];
   [0;0;1;-1;1;0;-1;2;0;0;0;0;0;0]; [0;0;0;0;0;0;-1;3;0;0;0;0;0;2]; [0;0;0;0;0;0;-7;10;0;0;0;0;0;2];
   [0;0;0;0;0;0;-7;10;0;0;0;0;0;1]; [0;0;0;0;0;0;0;3;-3;0;0;0;0;0]; [0;0;0;0;0;0;-4;8;0;0;0;0;0;2];
   [0;0;0;0;0;0;-4;5;0;0;0;0;0;2]; [0;0;0;0;0;0;-4;5;0;0;0;0;0;1]; [0;0;0;0;0;0;4;-5;0;0;0;0;0;0];
   [0;0;0;0;0;0;0;1;1;0;0;0;0;2]; [0;0;0;0;0;0;0;-2;0;5;0;0;0;2]; [0;0;0;0;0;0;0;0;3;0;0;0;0;2];
   [0;0;0;0;0;0;1;0;0;0;0;0;0;0]; [0;0;0;0;0;0;1;0;0;0;0;0;0;2]; [0;0;0;0;0;0;-9;13;0;0;0;0;0;2];
   [0;0;0;0;0;0;0;-1;5;0;0;0;0;2]; [0;0;0;0;0;0;0;-2;0;4;0;0;0;2]; [0;0;0;0;0;0;0;2;0;-4;0;0;0;0];
   [0;0;0;0;0;0;0;-2;7;0;0;0;0;2]; [0;0;0;0;0;0;0;2;0;-3;0;0;0;0]; [0;0;0;0;0;0;-2;5;0;0;0;0;0;1];
   [0;0;0;0;0;0;-2;5;0;0;0;0;0;2]; [0;0;0;0;0;0;-6;8;0;0;0;0;0;2]; [0;0;0;0;0;0;-6;8;0;0;0;0;0;1];
   [0;0;0;0;0;0;6;-8;0;0;0;0;0;0]; [0;0;0;0;1;0;0;2;0;-2;0;0;0;0]; [0;0;0;0;0;0;0;-3;9;0;0;0;0;2];
   [0;0;0;0;0;0;0;5;-6;0;0;0;0;0]; [0;0;0;0;0;0;0;5;-6;0;0;0;0;2]; [0;0;0;0;0;0;0;2;0;-2;0;0;0;0];
   [0;0;0;0;0;0;0;2;0;-2;0;0;0;1]; [0;0;0;0;0;0;0;2;0;-2;0;0;0;2]; [0;0;0;0;0;0;-5;10;0;0;0;0;0;2];
   [0;0;0;0;0;0;0;4;-4;0;0;0;0;0]; [0;0;0;0;0;0;0;4;-4;0;0;0;0;2]; [0;0;0;0;0;0;-3;3;0;0;0;0;0;1];
   [0;0;0;0;0;0;3;-3;0;0;0;0;0;0]; [0;0;0;0;0;0;3;-3;0;0;0;0;0;1]; [0;0;0;0;0;0;3;-3;0;0;0;0;0;2];
   [0;0;0;0;0;0;0;2;0;0;-3;0;0;0]; [0;0;0;0;0;0;0;-5;13;0;0;0;0;2]; [0;0;0;0;0;0;0;2;0;-1;0;0;0;0];
   [0;0;0;0;0;0;0;2;0;-1;0;0;0;2]; [0;0;0;0;0;0;0;2;0;0;-2;0;0;0]; [0;0;0;0;0;0;0;2;0;0;-2;0;0;1];
   [0;0;0;0;0;0;0;3;-2;0;0;0;0;0]; [0;0;0;0;0;0;0;3;-2;0;0;0;0;2]; [0;0;0;0;0;0;0;2;0;0;-1;0;0;2];
   [0;0;0;0;0;0;0;-6;15;0;0;0;0;2]; [0;0;0;0;0;0;-8;15;0;0;0;0;0;2]; [0;0;0;0;0;0;-3;9;-4;0;0;0;0;2];
   [0;0;0;0;0;0;0;2;0;2;-5;0;0;2]; [0;0;0;0;0;0;0;-2;8;-1;-5;0;0;2]; [0;0;0;0;0;0;0;6;-8;3;0;0;0;2];
   [0;0;0;0;0;0;0;2;0;0;0;0;0;0]; [0;0;0;0;0;0;0;2;0;0;0;0;0;0]; [0;0;0;0;0;0;0;2;0;0;0;0;0;1];
   [0;0;1;-1;1;0;0;1;0;0;0;0;0;0]; [0;0;0;0;0;0;0;2;0;0;0;0;0;1]; [0;0;0;0;0;0;0;2;0;0;0;0;0;2];
   [0;0;0;0;0;0;0;-6;16;-4;-5;0;0;2]; [0;0;0;0;0;0;0;-2;8;-3;0;0;0;2]; [0;0;0;0;0;0;0;-2;8;-3;0;0;0;2];
   [0;0;0;0;0;0;0;6;-8;1;5;0;0;2]; [0;0;0;0;0;0;0;2;0;-2;5;0;0;2]; [0;0;0;0;0;0;3;-5;4;0;0;0;0;2];
   [0;0;0;0;0;0;-8;11;0;0;0;0;0;2]; [0;0;0;0;0;0;-8;11;0;0;0;0;0;1]; [0;0;0;0;0;0;-8;11;0;0;0;0;0;2];
   [0;0;0;0;0;0;0;11;0;0;0;0;0;2]; [0;0;0;0;0;0;0;2;0;0;1;0;0;2]; [0;0;0;0;0;0;3;-3;0;2;0;0;0;2];
   [0;0;2;-2;1;0;0;4;-8;3;0;0;0;0]; [0;0;1;-1;0;0;0;1;0;0;0;0;0;0]; [0;0;2;-2;1;0;0;-4;8;-3;0;0;0;0];
   [0;0;0;0;0;0;0;1;2;0;0;0;0;2]; [0;0;0;0;0;0;0;2;0;1;0;0;0;2]; [0;0;0;0;0;0;-3;7;0;0;0;0;0;2];
   [0;0;0;0;0;0;0;0;4;0;0;0;0;2]; [0;0;0;0;0;0;-5;6;0;0;0;0;0;2]; [0;0;0;0;0;0;-5;6;0;0;0;0;0;1];
   [0;0;0;0;0;0;5;-6;0;0;0;0;0;0]; [0;0;0;0;0;0;5;-6;0;0;0;0;0;2]; [0;0;0;0;0;0;0;2;0;2;0;0;0;2];
   [0;0;0;0;0;0;0;-1;6;0;0;0;0;2]; [0;0;0;0;0;0;0;7;-9;0;0;0;0;2]; [0;0;0;0;0;0;2;-1;0;0;0;0;0;0];
   [0;0;0;0;0;0;2;-1;0;0;0;0;0;2]; [0;0;0;0;0;0;0;6;-7;0;0;0;0;2]; [0;0;0;0;0;0;0;5;-5;0;0;0;0;2];
   [0;0;0;0;0;0;-1;4;0;0;0;0;0;1]; [0;0;0;0;0;0;-1;4;0;0;0;0;0;2]; [0;0;0;0;0;0;-7;9;0;0;0;0;0;2];
   [0;0;0;0;0;0;-7;9;0;0;0;0;0;1]; [0;0;0;0;0;0;0;4;-3;0;0;0;0;2]; [0;0;0;0;0;0;0;3;-1;0;0;0;0;2];
   [0;0;0;0;0;0;-4;4;0;0;0;0;0;1]; [0;0;0;0;0;0;4;-4;0;0;0;0;0;0]; [0;0;0;0;0;0;4;-4;0;0;0;0;0;1];
   [0;0;0;0;0;0;4;-4;0;0;0;0;0;2]; [0;0;0;0;0;0;0;2;1;0;0;0;0;2]; [0;0;0;0;0;0;0;-3;0;5;0;0;0;2];
   [0;0;0;0;0;0;1;1;0;0;0;0;0;0]; [0;0;0;0;0;0;1;1;0;0;0;0;0;1]; [0;0;0;0;0;0;1;1;0;0;0;0;0;2];
   [0;0;0;0;0;0;-9;12;0;0;0;0;0;2]; [0;0;0;0;0;0;0;3;0;-4;0;0;0;0]; [0;0;2;-2;1;0;1;-1;0;0;0;0;0;0];
   [0;0;0;0;0;0;0;7;-8;0;0;0;0;2]; [0;0;0;0;0;0;0;3;0;-3;0;0;0;0]; [0;0;0;0;0;0;0;3;0;-3;0;0;0;2];
   [0;0;0;0;0;0;-2;6;0;0;0;0;0;2]; [0;0;0;0;0;0;-6;7;0;0;0;0;0;1]; [0;0;0;0;0;0;6;-7;0;0;0;0;0;0];
   [0;0;0;0;0;0;0;6;-6;0;0;0;0;2]; [0;0;0;0;0;0;0;3;0;-2;0;0;0;0]; [0;0;0;0;0;0;0;3;0;-2;0;0;0;2];
   [0;0;0;0;0;0;0;5;-4;0;0;0;0;2]; [0;0;0;0;0;0;3;-2;0;0;0;0;0;0]; [0;0;0;0;0;0;3;-2;0;0;0;0;0;2];
   [0;0;0;0;0;0;0;3;0;-1;0;0;0;2]; [0;0;0;0;0;0;0;3;0;-1;0;0;0;2]; [0;0;0;0;0;0;0;3;0;0;-2;0;0;2];
   [0;0;0;0;0;0;0;4;-2;0;0;0;0;2]; [0;0;0;0;0;0;0;3;0;0;-1;0;0;2]; [0;0;2;-2;1;0;0;1;0;-1;0;0;0;0];
   [0;0;0;0;0;0;-8;16;0;0;0;0;0;2]; [0;0;0;0;0;0;0;3;0;2;-5;0;0;2]; [0;0;0;0;0;0;0;7;-8;3;0;0;0;2];
   [0;0;0;0;0;0;0;-5;16;-4;-5;0;0;2]; [0;0;0;0;0;0;0;3;0;0;0;0;0;2]; [0;0;0;0;0;0;0;-1;8;-3;0;0;0;2];
   [0;0;0;0;0;0;-8;10;0;0;0;0;0;2]; [0;0;0;0;0;0;-8;10;0;0;0;0;0;1]; [0;0;0;0;0;0;-8;10;0;0;0;0;0;2];
   [0;0;0;0;0;0;0;2;2;0;0;0;0;2]; [0;0;0;0;0;0;0;3;0;1;0;0;0;2]; [0;0;0;0;0;0;-3;8;0;0;0;0;0;2];
   [0;0;0;0;0;0;-5;5;0;0;0;0;0;1]; [0;0;0;0;0;0;5;-5;0;0;0;0;0;0]; [0;0;0;0;0;0;5;-5;0;0;0;0;0;1];
   [0;0;0;0;0;0;5;-5;0;0;0;0;0;2]; [0;0;0;0;0;0;2;0;0;0;0;0;0;0]; [0;0;0;0;0;0;2;0;0;0;0;0;0;1];
   [0;0;0;0;0;0;2;0;0;0;0;0;0;2]; [0;0;0;0;0;0;0;7;-7;0;0;0;0;2]; [0;0;0;0;0;0;0;7;-7;0;0;0;0;2];
   [0;0;0;0;0;0;0;6;-5;0;0;0;0;2]; [0;0;0;0;0;0;7;-8;0;0;0;0;0;0]; [0;0;0;0;0;0;0;5;-3;0;0;0;0;2];
   [0;0;0;0;0;0;4;-3;0;0;0;0;0;2]; [0;0;0;0;0;0;1;2;0;0;0;0;0;2]; [0;0;0;0;0;0;-9;11;0;0;0;0;0;2];
   [0;0;0;0;0;0;-9;11;0;0;0;0;0;1]; [0;0;0;0;0;0;0;4;0;-4;0;0;0;2]; [0;0;0;0;0;0;0;4;0;-3;0;0;0;2];
   [0;0;0;0;0;0;-6;6;0;0;0;0;0;1]; [0;0;0;0;0;0;6;-6;0;0;0;0;0;0]; [0;0;0;0;0;0;6;-6;0;0;0;0;0;1];
   [0;0;0;0;0;0;0;4;0;-2;0;0;0;2]; [0;0;0;0;0;0;0;6;-4;0;0;0;0;2]; [0;0;0;0;0;0;3;-1;0;0;0;0;0;0];
   [0;0;0;0;0;0;3;-1;0;0;0;0;0;1]; [0;0;0;0;0;0;3;-1;0;0;0;0;0;2]; [0;0;0;0;0;0;0;4;0;-1;0;0;0;2];
   [0;0;0;0;0;0;0;4;0;0;-2;0;0;2]; [0;0;0;0;0;0;0;5;-2;0;0;0;0;2]; [0;0;0;0;0;0;0;4;0;0;0;0;0;0];
   [0;0;0;0;0;0;8;-9;0;0;0;0;0;0]; [0;0;0;0;0;0;5;-4;0;0;0;0;0;2]; [0;0;0;0;0;0;2;1;0;0;0;0;0;2];
   [0;0;0;0;0;0;2;1;0;0;0;0;0;1]; [0;0;0;0;0;0;2;1;0;0;0;0;0;1]; [0;0;0;0;0;0;-7;7;0;0;0;0;0;1];
   [0;0;0;0;0;0;7;-7;0;0;0;0;0;0]; [0;0;0;0;0;0;4;-2;0;0;0;0;0;1]; [0;0;0;0;0;0;4;-2;0;0;0;0;0;2];
   [0;0;0;0;0;0;4;-2;0;0;0;0;0;0]; [0;0;0;0;0;0;4;-2;0;0;0;0;0;0]; [0;0;0;0;0;0;0;5;0;-4;0;0;0;2];
   [0;0;0;0;0;0;0;5;0;-3;0;0;0;2]; [0;0;0;0;0;0;0;5;0;-2;0;0;0;2]; [0;0;0;0;0;0;3;0;0;0;0;0;0;2];
   [0;0;0;0;0;0;-8;8;0;0;0;0;0;1]; [0;0;0;0;0;0;8;-8;0;0;0;0;0;0]; [0;0;0;0;0;0;5;-3;0;0;0;0;0;1];
   [0;0;0;0;0;0;5;-3;0;0;0;0;0;2]; [0;0;0;0;0;0;-9;9;0;0;0;0;0;1]; [0;0;0;0;0;0;-9;9;0;0;0;0;0;1];
   [0;0;0;0;0;0;-9;9;0;0;0;0;0;1]; [0;0;0;0;0;0;9;-9;0;0;0;0;0;0]; [0;0;0;0;0;0;6;-4;0;0;0;0;0;1];
   [0;0;0;0;0;0;0;6;0;0;0;0;0;2]; [0;0;0;0;0;0;0;6;0;0;0;0;0;0]; [0;0;0;0;0;0;0;6;0;0;0;0;0;0];
   [0;0;0;0;0;0;0;6;0;0;0;0;0;1]; [0;0;0;0;0;0;0;6;0;0;0;0;0;2]; [0;0;0;0;0;0;0;6;0;0;0;0;0;0];
   [0;0;0;0;0;0;0;6;0;0;0;0;0;1]; [0;0;0;0;0;0;0;6;0;0;0;0;0;2]; [0;0;0;0;0;0;0;0;0;0;0;0;0;2];
   [1;0;0;-2;0;0;0;2;0;-2;0;0;0;0]; [1;0;0;-2;0;0;2;-2;0;0;0;0;0;0]; [1;0;0;-2;0;0;0;1;0;-1;0;0;0;0];
   [1;0;0;-2;0;0;1;-1;0;0;0;0;0;0]; [-1;0;0;0;0;0;3;-3;0;0;0;0;0;0]; [-1;0;0;0;0;0;0;2;0;-2;0;0;0;0];
   [-1;0;0;2;0;0;0;4;-8;3;0;0;0;0]; [1;0;0;-2;0;0;0;4;-8;3;0;0;0;0]; [-2;0;0;2;0;0;0;4;-8;3;0;0;0;0];
   [-1;0;0;0;0;0;0;2;0;-3;0;0;0;0]; [-1;0;0;0;0;0;0;1;0;-1;0;0;0;0]; [-1;0;0;0;0;0;1;-1;0;0;0;0;0;0];
   [-1;0;0;2;0;0;2;-2;0;0;0;0;0;0]; [1;0;-1;1;0;0;0;1;0;0;0;0;0;0]; [-1;0;0;2;0;0;0;2;0;-3;0;0;0;0];
   [-2;0;0;0;0;0;0;2;0;-3;0;0;0;0]; [1;0;0;0;0;0;0;4;-8;3;0;0;0;0]; [-1;0;1;-1;1;0;0;-1;0;0;0;0;0;0];
   [1;0;1;-1;1;0;0;-1;0;0;0;0;0;0]; [-1;0;0;0;0;0;0;4;-8;3;0;0;0;0]; [-1;0;0;2;1;0;0;2;0;-2;0;0;0;0];
   [0;0;0;0;0;0;0;2;0;-2;0;0;0;0]; [-1;0;0;2;0;0;0;2;0;-2;0;0;0;0]; [-1;0;0;2;0;0;3;-3;0;0;0;0;0;0];
   [1;0;0;-2;1;0;0;-2;0;2;0;0;0;0]; [1;0;2;-2;2;0;-3;3;0;0;0;0;0;0]; [1;0;2;-2;2;0;0;-2;0;2;0;0;0;0];
   [1;0;0;0;0;0;1;-1;0;0;0;0;0;0]; [1;0;0;0;0;0;0;1;0;-1;0;0;0;0]; [0;0;0;-2;0;0;2;-2;0;0;0;0;0;0];
   [0;0;0;-2;0;0;0;1;0;-1;0;0;0;0]; [0;0;2;0;2;0;-2;2;0;0;0;0;0;0]; [0;0;2;0;2;0;0;-1;0;1;0;0;0;0];
   [0;0;2;0;2;0;-1;1;0;0;0;0;0;0]; [0;0;2;0;2;0;-2;3;0;0;0;0;0;0]; [0;0;0;2;0;0;0;2;0;-2;0;0;0;0];
   [0;0;1;1;2;0;0;1;0;0;0;0;0;0]; [1;0;2;0;2;0;0;1;0;0;0;0;0;0]; [-1;0;2;0;2;0;10;-3;0;0;0;0;0;0];
   [0;0;1;1;1;0;0;1;0;0;0;0;0;0]; [1;0;2;0;2;0;0;1;0;0;0;0;0;0]; [0;0;2;0;2;0;0;4;-8;3;0;0;0;0];
   [0;0;2;0;2;0;0;-4;8;-3;0;0;0;0]; [-1;0;2;0;2;0;0;-4;8;-3;0;0;0;0]; [2;0;2;-2;2;0;0;-2;0;3;0;0;0;0];
   [1;0;2;0;1;0;0;-2;0;3;0;0;0;0]; [0;0;1;1;0;0;0;1;0;0;0;0;0;0]; [-1;0;2;0;1;0;0;1;0;0;0;0;0;0];
   [-2;0;2;2;2;0;0;2;0;-2;0;0;0;0]; [0;0;2;0;2;0;2;-3;0;0;0;0;0;0]; [0;0;2;0;2;0;1;-1;0;0;0;0;0;0];
   [0;0;2;0;2;0;0;1;0;-1;0;0;0;0]; [0;0;2;0;2;0;2;-2;0;0;0;0;0;0]; [-1;0;2;2;2;0;0;-1;0;1;0;0;0;0];
   [1;0;2;0;2;0;-1;1;0;0;0;0;0;0]; [-1;0;2;2;2;0;0;2;0;-3;0;0;0;0]; [2;0;2;0;2;0;0;2;0;-3;0;0;0;0];
   [1;0;2;0;2;0;0;-4;8;-3;0;0;0;0]; [1;0;2;0;2;0;0;4;-8;3;0;0;0;0]; [1;0;1;1;1;0;0;1;0;0;0;0;0;0];
   [0;0;2;0;2;0;0;1;0;0;0;0;0;0]; [2;0;2;0;1;0;0;1;0;0;0;0;0;0]; [-1;0;2;2;2;0;0;2;0;-2;0;0;0;0];
   [-1;0;2;2;2;0;3;-3;0;0;0;0;0;0]; [1;0;2;0;2;0;1;-1;0;0;0;0;0;0]; [0;0;2;2;2;0;0;2;0;-2;0;0;0;0]].
Definition planetary_longitude_data : list (Z * Z) :=
  [(1440,0); (56,-117); (125,-43); (0,5); (3,-7); (3,0); (-114,0); (-219,89); (-3,0); (-462,1604);
   (99,0); (-3,0); (0,6); (3,0); (-12,0); (14,-218); (31,-481); (-491,128); (-3084,5123); (-1444,2409);
   (11,-24); (26,-9); (103,-60); (0,-13); (-26,-29); (9,-27); (12,0); (-7,0); (0,24); (284,0);
   (226,101); (0,-8); (0,-6); (5,0); (-41,175); (0,15); (425,212); (1200,598); (235,334); (11,-12);
   (5,-6); (-5,0); (6,0); (15,0); (13,0); (-6,-9); (266,-78); (-460,-435); (0,15); (-3,0);
   (0,131); (4,0); (0,3); (0,4); (0,3); (-17,-19); (-9,-11); (-6,0); (-16,8); (0,3);
   (11,24); (-3,-4); (3,0); (0,-8); (0,3); (0,5); (0,3); (-6,4); (-3,-5); (-5,0);
   (4,24); (-42,20); (-10,233); (-3,0); (78,-18); (0,3); (0,-3); (0,-4); (0,-8); (0,-5);
   (-7,0); (-14,8); (0,8); (0,19); (45,-22); (-3,0); (0,-3); (0,3); (3,5); (89,-16);
   (0,3); (-3,7); (-349,-62); (-15,22); (-3,0); (-53,0); (5,0); (0,-8); (15,-7); (-3,0);
   (-21,-78); (20,-70); (0,6); (5,3); (-17,-4); (0,6); (32,15); (174,84); (11,56); (-66,-12);
   (47,8); (0,8); (10,-22); (-3,0); (-24,12); (5,-6); (3,0); (4,3); (0,29); (-5,-4);
   (8,-3); (0,-3); (10,0); (3,0); (-5,0); (46,66); (-14,7); (0,3); (-5,0); (-68,-34);
   (0,14); (10,-6); (-5,-4); (-3,5); (76,17); (84,298); (3,0); (-3,0); (-3,0); (-82,292);
   (-73,17); (-9,-16); (3,0); (-3,0); (-9,-5); (-439,0); (57,-28); (0,-6); (-4,0); (-40,57);
   (23,7); (273,80); (-449,430); (-8,-47); (6,47); (0,23); (-3,0); (3,-4); (-48,-110); (51,114);
   (-133,0); (0,4); (-21,-6); (0,-3); (-11,-21); (-18,-436); (35,-7); (0,5); (11,-3); (-5,-3);
   (-53,-9); (0,3); (4,0); (0,-4); (-50,194); (-13,52); (-91,248); (6,49); (-6,-47); (0,5);
   (52,23); (-3,0); (0,5); (-4,0); (-4,8); (10,0); (3,0); (0,8); (0,8); (-4,0);
   (-4,0); (-8,4); (8,-4); (0,15); (-138,0); (0,-7); (0,-7); (54,0); (0,10); (-7,0);
   (-37,35); (0,4); (-4,9); (8,0); (-9,-14); (-3,-9); (-145,47); (-10,40); (11,-49); (-2150,0);
   (-12,0); (85,0); (4,0); (3,0); (-86,153); (-6,9); (9,-13); (-8,12); (-51,0); (-11,-268);
   (0,12); (0,7); (31,6); (140,27); (57,11); (-14,-39); (0,-6); (4,15); (0,4); (-3,0);
   (0,11); (9,6); (-4,10); (5,3); (16,0); (-3,0); (0,3); (7,0); (-25,22); (42,223);
   (-27,-143); (9,49); (-1166,0); (-5,0); (-6,0); (-8,0); (0,-4); (117,0); (-4,8); (3,0);
   (-5,0); (0,31); (-5,0); (4,0); (-4,0); (-24,-13); (3,0); (0,-32); (8,12); (3,0);
   (7,13); (-3,16); (50,0); (0,-5); (13,0); (0,5); (24,5); (5,-11); (30,-3); (18,0);
   (8,614); (3,-3); (6,17); (-3,-9); (0,6); (-127,21); (3,5); (-6,-10); (5,0); (16,9);
   (3,0); (0,22); (0,19); (7,0); (0,-5); (0,3); (-9,3); (17,0); (0,-3); (-20,34);
   (-10,0); (-4,0); (22,-87); (-4,0); (-3,-6); (-16,-3); (0,-3); (4,0); (-68,39); (27,0);
   (0,-4); (-25,0); (-12,-3); (3,0); (3,66); (490,0); (-22,93); (-7,28); (-3,13); (-46,14);
   (-5,0); (2,1); (0,-3); (-28,0); (5,0); (0,3); (-11,0); (0,3); (-3,0); (25,106);
   (5,21); (1485,0); (-7,-32); (0,5); (-6,-3); (30,-6); (-4,4); (-19,0); (0,4); (0,3);
   (4,0); (0,-3); (-3,0); (5,3); (0,11); (118,0); (0,-5); (-28,36); (5,-5); (14,-59);
   (0,9); (-458,0); (0,-45); (9,0); (0,-3); (0,-4); (11,0); (6,0); (-16,23); (0,-4);
   (-5,0); (-166,269); (15,0); (10,0); (-78,45); (0,-5); (7,0); (-5,328); (3,0); (5,0);
   (0,3); (-3,0); (-3,0); (0,-4); (-1223,-26); (0,7); (3,0); (0,3); (-6,20); (-368,0);
   (-75,0); (11,0); (3,0); (-3,0); (-13,-30); (21,3); (-3,0); (-4,0); (8,-27); (-19,-11);
   (-4,0); (0,5); (-6,0); (-8,0); (-1,0); (-14,0); (6,0); (-74,0); (0,-3); (4,0);
   (8,11); (0,3); (-262,0); (0,-4); (-7,0); (0,-27); (-19,-8); (202,0); (-8,35); (0,4);
   (16,-5); (5,0); (0,-3); (1,0); (-35,-48); (-3,-5); (6,0); (3,0); (0,-5); (12,55);
   (0,5); (-598,0); (-3,-13); (-5,-7); (3,0); (5,-7); (4,0); (16,-6); (8,-3); (8,-31);
   (0,3); (113,0); (0,-24); (4,0); (27,0); (-3,0); (0,-4); (5,0); (0,-3); (-13,0);
   (5,0); (-18,-10); (-4,-28); (-5,6); (-3,0); (-5,-9); (17,0); (11,4); (0,-6); (83,15);
   (-4,0); (0,-114); (117,0); (-5,19); (-3,0); (-3,0); (0,-3); (3,0); (0,-6); (393,3);
   (-4,21); (-6,0); (-3,8); (8,0); (18,-29); (8,34); (89,0); (3,12); (54,-15); (0,3);
   (3,0); (0,35); (-154,-30); (15,0); (0,4); (0,9); (80,-71); (0,-20); (11,5); (61,-96);
   (14,9); (-11,-6); (0,-3); (123,-415); (0,0); (-5,0); (7,-32); (0,-9); (0,-4); (-89,0);
   (0,-86); (0,0); (-123,-416); (0,-3); (12,-6); (-13,9); (0,-15); (3,0); (-62,-97); (-11,5);
   (0,-19); (-3,0); (0,4); (0,3); (0,4); (-85,-70); (163,-12); (-63,-16); (-21,-32); (0,-3);
   (3,0); (0,8); (3,10); (3,0); (0,-7); (0,-4); (6,19); (5,-173); (0,-7); (7,-12);
   (-3,0); (3,-4); (74,0); (-3,12); (26,-14); (19,0); (6,24); (83,0); (0,-10); (11,-3);
   (3,0); (3,0); (-4,0); (5,-23); (-339,0); (0,-10); (5,0); (3,0); (0,-4); (18,-3);
   (9,-11); (-8,0); (3,0); (0,9); (6,-9); (-4,-12); (67,-91); (30,-18); (0,0); (0,-114);
   (0,0); (517,16); (0,-7); (143,-3); (29,0); (-4,0); (-6,0); (5,12); (-25,0); (-3,0);
   (0,4); (-22,12); (50,0); (0,7); (0,3); (-4,4); (-5,-11); (0,4); (4,17); (59,0);
   (0,-4); (-8,0); (-3,0); (4,-15); (370,-8); (0,0); (0,3); (-6,3); (0,6); (-10,0);
   (0,9); (4,17); (34,0); (0,5); (-5,0); (-37,-7); (3,13); (40,0); (0,-3); (-184,-3);
   (-3,0); (-3,0); (0,-10); (31,-6); (-3,-32); (-7,0); (0,-8); (3,-4); (0,4); (0,3);
   (19,-23); (0,0); (0,3); (0,9); (28,0); (0,-7); (8,-4); (0,0); (0,3); (-3,0);
   (-9,0); (3,12); (17,-3); (0,7); (19,0); (0,-5); (14,-3); (0,0); (0,0); (0,5);
   (13,0); (0,-3); (2,9); (0,0); (8,0); (0,4); (6,0); (6,0); (0,3); (5,0);
   (3,0); (-3,0); (6,0); (7,0); (-4,0); (4,0); (6,0); (0,-4); (0,-4); (5,0);
   (-3,0); (4,0); (-5,0); (4,0); (0,3); (13,0); (21,11); (0,-5); (0,-5); (0,5);
   (0,-5); (-3,0); (20,10); (-34,0); (-19,0); (3,0); (-3,0); (-6,0); (-4,0); (3,0);
   (3,0); (4,0); (3,0); (6,0); (-8,0); (0,3); (-3,0); (0,-3); (126,-63); (-5,0);
   (-3,28); (5,0); (0,9); (0,9); (-126,-63); (3,0); (21,-11); (0,-4); (-21,-11); (-3,0);
   (0,3); (8,0); (-6,0); (-3,0); (3,0); (-3,0); (-5,0); (24,-12); (0,3); (0,3);
   (0,3); (-24,-12); (4,0); (13,0); (7,0); (3,0); (3,0)].
Definition planetary_obliquity_data : list (Z * Z) :=
  [(0,0); (-42,-40); (0,-54); (0,0); (-3,0); (0,-2); (0,61); (0,0); (0,0); (0,0);
   (0,-53); (0,2); (2,0); (0,0); (0,0); (117,8); (-257,-17); (0,0); (2735,1647); (-1286,-771);
   (-11,-9); (0,0); (0,0); (-7,0); (-16,14); (-14,-5); (0,-6); (0,0); (0,0); (0,-151);
   (0,0); (-2,0); (-3,0); (0,-3); (76,17); (6,0); (-133,269); (319,-641); (0,0); (-7,-6);
   (3,3); (0,3); (0,-3); (0,0); (0,-7); (0,0); (0,0); (-232,246); (7,0); (0,2);
   (0,0); (0,0); (0,0); (2,0); (0,0); (-10,9); (6,-5); (0,3); (0,0); (0,0);
   (11,-5); (-2,1); (0,-1); (-4,0); (0,0); (0,0); (2,0); (2,3); (0,0); (0,2);
   (13,-2); (0,0); (0,0); (0,1); (0,0); (1,0); (-1,0); (-2,1); (-4,-1); (3,0);
   (0,3); (3,6); (-4,0); (10,0); (0,0); (0,0); (0,0); (0,0); (3,-2); (-9,-48);
   (0,0); (4,2); (0,0); (0,0); (0,0); (0,0); (0,-3); (0,0); (-4,-8); (0,1);
   (0,0); (-37,-11); (3,0); (2,-2); (-2,9); (3,0); (-8,17); (45,-93); (0,0); (-6,35);
   (4,-25); (4,0); (-12,-5); (0,2); (0,0); (0,0); (0,-2); (1,-2); (15,0); (-2,2);
   (-1,-5); (0,0); (0,0); (0,-2); (0,3); (35,-25); (0,0); (2,0); (0,0); (-18,36);
   (7,0); (-3,-5); (-2,3); (2,1); (9,-41); (159,-45); (0,-1); (0,2); (0,1); (156,44);
   (9,39); (0,0); (-1,-2); (0,0); (-3,5); (0,0); (-15,-30); (-3,0); (0,2); (30,21);
   (3,-13); (43,-146); (0,0); (-25,4); (25,-3); (13,0); (0,2); (-2,-2); (-59,26); (61,-27);
   (0,57); (0,0); (-3,11); (-1,0); (-11,6); (-233,9); (0,0); (3,0); (-1,-6); (-1,3);
   (-5,28); (2,1); (0,-2); (0,0); (103,27); (28,7); (0,0); (26,-3); (-25,3); (3,0);
   (10,-23); (0,1); (3,0); (0,0); (3,2); (0,0); (0,-2); (4,0); (4,1); (0,0);
   (0,0); (2,4); (-2,-4); (7,0); (0,0); (-3,0); (-3,0); (0,-29); (4,0); (0,3);
   (19,20); (0,0); (0,0); (0,-4); (-8,5); (-5,3); (0,0); (21,5); (-26,-7); (0,932);
   (0,5); (0,-37); (0,-2); (0,-2); (0,0); (5,3); (-7,-5); (6,4); (0,22); (-116,5);
   (5,0); (3,0); (3,-17); (14,-75); (6,-30); (0,0); (-2,0); (8,-2); (0,0); (0,1);
   (5,0); (0,0); (4,2); (0,0); (0,-9); (0,0); (2,-1); (0,-3); (0,0); (119,-22);
   (-77,14); (26,-5); (0,505); (0,2); (0,3); (1,4); (0,0); (0,-63); (4,2); (0,-2);
   (0,2); (0,0); (1,3); (0,-2); (0,2); (-6,10); (0,0); (-17,0); (5,-3); (0,-1);
   (0,0); (0,0); (0,-27); (-3,0); (0,0); (3,1); (2,-11); (-5,-2); (-2,-16); (0,-9);
   (0,0); (-1,-2); (9,-3); (-5,2); (3,-1); (9,55); (0,0); (-4,3); (0,0); (4,-7);
   (0,-2); (0,0); (10,0); (0,-4); (-2,0); (1,0); (1,4); (0,-7); (-2,-1); (0,0);
   (1,5); (0,2); (0,0); (0,2); (-2,1); (-1,7); (-2,0); (0,0); (0,0); (0,-14);
   (0,0); (0,0); (-2,6); (0,-1); (29,-1); (0,-213); (49,12); (15,4); (7,2); (0,0);
   (0,0); (0,0); (0,0); (0,15); (0,-2); (0,0); (0,5); (1,0); (0,1); (57,-13);
   (11,-3); (0,0); (-17,4); (3,0); (-2,3); (-2,-13); (0,0); (0,10); (2,-1); (0,0);
   (0,-2); (-1,0); (0,0); (1,-2); (0,0); (0,-52); (-3,0); (0,0); (0,0); (-31,-8);
   (5,1); (0,198); (-20,0); (0,-5); (0,0); (-2,-1); (0,-6); (0,-2); (0,0); (-2,0);
   (0,2); (0,0); (0,-8); (0,-4); (0,0); (-2,0); (0,-4); (0,0); (0,-2); (0,-2);
   (1,0); (0,0); (0,0); (-2,0); (0,0); (3,0); (0,0); (2,0); (0,0); (0,0);
   (0,0); (0,-6); (0,-2); (0,1); (0,0); (0,0); (0,1); (0,2); (0,0); (0,0);
   (0,2); (2,0); (0,2); (0,0); (0,0); (0,6); (0,0); (0,32); (-1,0); (0,-2);
   (0,0); (2,0); (0,114); (0,0); (0,4); (-12,0); (-4,8); (0,-87); (19,5); (2,0);
   (0,0); (0,-3); (0,0); (0,0); (-21,15); (-2,1); (0,-3); (0,-1); (0,0); (29,-6);
   (3,0); (0,0); (-7,1); (-3,2); (0,-1); (0,0); (0,-2); (0,0); (0,0); (-16,-4);
   (1,0); (0,-49); (-10,0); (0,-2); (0,0); (0,1); (-2,0); (0,-2); (0,0); (0,6);
   (0,-2); (-4,8); (0,0); (3,2); (0,1); (-4,2); (0,-7); (0,0); (-2,0); (0,0);
   (0,2); (-49,0); (0,-51); (10,2); (0,0); (0,2); (-1,0); (0,0); (-2,0); (0,0);
   (11,2); (-1,3); (4,1); (0,0); (-13,-8); (18,-4); (0,0); (6,-1); (-7,-24); (0,0);
   (0,-1); (0,0); (-13,67); (0,0); (2,0); (0,0); (-31,-35); (-9,0); (2,-5); (-42,-27);
   (4,-6); (-3,5); (-1,0); (-180,-53); (0,-35); (0,0); (-17,-4); (-5,0); (2,0); (0,38);
   (-19,-6); (-19,6); (-180,53); (-1,0); (-3,-5); (4,6); (-7,0); (0,-1); (-42,27); (2,5);
   (-8,0); (0,1); (2,0); (0,0); (2,0); (-31,37); (-5,-72); (-7,28); (-14,9); (-1,0);
   (0,-2); (0,0); (4,-1); (0,-1); (-3,0); (-2,0); (0,0); (-75,-2); (-3,0); (-5,-3);
   (0,2); (-2,-1); (0,-32); (6,2); (-6,-11); (0,-8); (13,-3); (0,0); (-5,0); (-1,-5);
   (1,-1); (0,-1); (0,0); (-12,-3); (0,147); (-5,0); (0,0); (0,-1); (-2,0); (0,0);
   (-5,-4); (0,4); (0,-1); (0,0); (-4,-2); (0,0); (-39,-29); (-8,-13); (0,0); (-50,0);
   (0,23); (7,-224); (-3,0); (-1,-62); (0,-13); (0,2); (0,3); (5,-2); (0,11); (0,1);
   (2,0); (5,10); (0,-22); (4,0); (1,0); (2,2); (-5,2); (2,0); (9,-2); (0,0);
   (-2,0); (0,4); (0,0); (-8,-2); (0,-160); (-3,0); (1,0); (1,3); (0,0); (0,4);
   (4,0); (7,-2); (0,-15); (3,0); (0,2); (-3,16); (7,-2); (0,0); (-2,0); (-1,80);
   (0,1); (0,0); (-6,-1); (0,-13); (-14,1); (0,3); (-4,0); (0,0); (0,0); (1,0);
   (-10,2); (0,-10); (2,0); (5,-1); (0,0); (-4,0); (0,-4); (-2,0); (0,0); (0,1);
   (1,4); (5,-1); (-1,0); (4,0); (0,0); (-3,0); (0,-1); (-1,0); (0,-5); (3,0);
   (0,0); (-2,0); (4,3); (0,-4); (0,0); (2,0); (0,-3); (0,0); (1,0); (0,-2);
   (0,-1); (0,0); (0,0); (0,0); (0,0); (0,0); (0,0); (0,0); (0,0); (0,0);
   (0,0); (0,0); (0,0); (0,0); (0,0); (0,0); (0,0); (0,0); (-2,0); (3,0);
   (0,0); (0,2); (0,0); (0,0); (0,0); (0,-2); (0,1); (0,3); (0,0); (0,0);
   (0,0); (0,0); (0,-1); (0,-3); (0,3); (1,0); (0,0); (-2,0); (-27,-55); (1,2);
   (15,2); (1,-2); (4,1); (4,-1); (-27,55); (0,-1); (-6,-11); (0,0); (-6,11); (0,1);
   (1,0); (0,-4); (0,3); (0,1); (0,-1); (0,1); (0,2); (-5,-11); (1,0); (1,0);
   (2,0); (-5,10); (-1,-2); (0,-6); (0,-3); (0,-1); (0,-1)].
(** [ke0_t] and [ke1]; [se0_t_0] and [se0_t_1] in units of 1e-8 arcseconds. *)
Definition ke0_data : list (list Z) :=
  [[0;0;0;0;1;0;0;0;0;0;0;0;0;0]; [0;0;0;0;2;0;0;0;0;0;0;0;0;0]; [0;0;2;-2;3;0;0;0;0;0;0;0;0;0]; [0;0;2;-2;1;0;0;0;0;0;0;0;0;0];
   [0;0;2;-2;2;0;0;0;0;0;0;0;0;0]; [0;0;2;0;3;0;0;0;0;0;0;0;0;0]; [0;0;2;0;1;0;0;0;0;0;0;0;0;0]; [0;0;0;0;3;0;0;0;0;0;0;0;0;0];
   [0;1;0;0;1;0;0;0;0;0;0;0;0;0]; [0;1;0;0;-1;0;0;0;0;0;0;0;0;0]; [1;0;0;0;-1;0;0;0;0;0;0;0;0;0]; [1;0;0;0;1;0;0;0;0;0;0;0;0;0];
   [0;1;2;-2;3;0;0;0;0;0;0;0;0;0]; [0;1;2;-2;1;0;0;0;0;0;0;0;0;0]; [0;0;4;-4;4;0;0;0;0;0;0;0;0;0]; [0;0;1;-1;1;0;-8;12;0;0;0;0;0;0];
   [0;0;2;0;0;0;0;0;0;0;0;0;0;0]; [0;0;2;0;2;0;0;0;0;0;0;0;0;0]; [1;0;2;0;3;0;0;0;0;0;0;0;0;0]; [1;0;2;0;1;0;0;0;0;0;0;0;0;0];
   [0;0;2;-2;0;0;0;0;0;0;0;0;0;0]; [0;1;-2;2;-3;0;0;0;0;0;0;0;0;0]; [0;1;-2;2;-1;0;0;0;0;0;0;0;0;0]; [0;0;0;0;0;0;8;-13;0;0;0;0;0;-1];
   [0;0;0;2;0;0;0;0;0;0;0;0;0;0]; [2;0;-2;0;-1;0;0;0;0;0;0;0;0;0]; [1;0;0;-2;1;0;0;0;0;0;0;0;0;0]; [0;1;2;-2;2;0;0;0;0;0;0;0;0;0];
   [1;0;0;-2;-1;0;0;0;0;0;0;0;0;0]; [0;0;4;-2;4;0;0;0;0;0;0;0;0;0]; [0;0;2;-2;4;0;0;0;0;0;0;0;0;0]; [1;0;-2;0;-3;0;0;0;0;0;0;0;0;0];
   [1;0;-2;0;-1;0;0;0;0;0;0;0;0;0]].
Definition ke1_data : list Z := [0;0;0;0;1;0;0;0;0;0;0;0;0;0].
Definition se0_0_data : list Z := [264096;6352;1175;1121;-455;202;198;-172;-141;-126;-63;-63;46;45;36;-24;32;28;27;26;-21;19;18;-10;15;-14;14;-14;14;13;-11;11;11].
Definition se0_1_data : list Z := [-39;-2;1;1;0;0;0;0;-1;-1;0;0;0;0;0;-12;0;0;0;0;0;0;0;5;0;0;0;0;0;0;0;0;0].
