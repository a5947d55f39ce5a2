(** Vocabulary for the properties of osculating elements. *)
From Coq Require Import Reals ZArith List.
From Verif Require Import Real_Math Vector_Model Kepler_Model Elements_Model.
Import ListNotations.
Open Scope R_scope.

(** Entry [k] of every attribute of an array is the attribute of the elements [el]. *)
Definition lane (ar : elements_array) (k : nat) (el : elements) (mu : R) : Prop :=
  nth_error (ar_p ar) k = Some (el_p el) /\ nth_error (ar_e ar) k = Some (el_e el) /\ nth_error (ar_i ar) k = Some (el_i el) /\
  nth_error (ar_Om ar) k = Some (el_Om el) /\ nth_error (ar_w ar) k = Some (el_w el) /\ nth_error (ar_v ar) k = Some (el_v el) /\
  nth_error (ar_a ar) k = Some (a_of el) /\ nth_error (ar_b ar) k = Some (b_of el) /\ nth_error (ar_q ar) k = Some (q_of el) /\
  nth_error (ar_E ar) k = Some (eccentric_anomaly_el el) /\ nth_error (ar_M ar) k = Some (mean_anomaly el) /\
  nth_error (ar_n ar) k = Some (mean_motion_per_day el mu) /\ nth_error (ar_P ar) k = Some (period_in_days el mu) /\
  nth_error (ar_u ar) k = Some (argument_of_latitude el) /\ nth_error (ar_lp ar) k = Some (longitude_of_periapsis el) /\
  nth_error (ar_L ar) k = Some (mean_longitude el) /\ nth_error (ar_l ar) k = Some (true_longitude el) /\
  nth_error (ar_since ar) k = Some (days_since_periapsis el mu).
(** The bodies of each planetary system that have a mass of their own. *)
Definition members (system : Z) : list Z :=
  match system with
  | 0 => [10; 1; 2; 3; 4; 5; 6; 7; 8; 9]
  | 1 => [199] | 2 => [299] | 3 => [399; 301] | 4 => [499; 401; 402]
  | 5 => [599; 501; 502; 503; 504; 505; 506]
  | 6 => [699; 601; 602; 603; 604; 605; 606; 607; 608; 609; 610; 611; 612; 615; 616; 617]
  | 7 => [799; 701; 702; 703; 704; 705] | 8 => [899; 801] | 9 => [999; 901; 902; 903; 904; 905]
  | _ => []
  end%Z.
(** The attributes that do not depend on the axes. *)
Definition same_orbit (el el' : elements) : Prop := el_p el' = el_p el /\ el_e el' = el_e el /\ el_v el' = el_v el.
