(** The civil calendar, written from its usual rules and independent of the
    model: leap years, month lengths, and the day that follows a date. *)
From Coq Require Import ZArith Bool.
Open Scope Z_scope.

Inductive calendar := Gregorian | Julian.

Definition leap_year (c : calendar) (y : Z) : bool :=
  match c with
  | Julian => y mod 4 =? 0
  | Gregorian => (y mod 4 =? 0) && (negb (y mod 100 =? 0) || (y mod 400 =? 0))
  end.

Definition month_length (c : calendar) (y m : Z) : Z :=
  if m =? 2 then (if leap_year c y then 29 else 28)
  else if (m =? 4) || (m =? 6) || (m =? 9) || (m =? 11) then 30
  else 31.

Definition date := (Z * Z * Z)%type.

Definition valid_date (c : calendar) (d : date) : bool :=
  let '(y, m, dd) := d in
  (1 <=? m) && (m <=? 12) && (1 <=? dd) && (dd <=? month_length c y m).

Definition next_day (c : calendar) (d : date) : date :=
  let '(y, m, dd) := d in
  if dd <? month_length c y m then (y, m, dd + 1)
  else if m <? 12 then (y, m + 1, 1)
  else (y + 1, 1, 1).

(** Earlier in the calendar: lexicographic on year, month, day. *)
Definition date_lt (a b : date) : Prop :=
  let '(y1, m1, d1) := a in
  let '(y2, m2, d2) := b in
  y1 < y2 \/ (y1 = y2 /\ (m1 < m2 \/ (m1 = m2 /\ d1 < d2))).

(** A numbering of dates that counts days: consecutive days get consecutive
    numbers and 2000 January 1 (Gregorian) is day 2451545. *)
Definition counts_days (c : calendar) (anchor : date) (n0 : Z) (J : date -> Z) : Prop :=
  J anchor = n0 /\
  forall d, valid_date c d = true -> J (next_day c d) = J d + 1.

(** Which calendar is in force on a day, given the reform setting. *)
Definition in_force (cutoff : option Z) (jd : Z) : calendar :=
  match cutoff with
  | None => Gregorian
  | Some c => if jd <? c then Julian else Gregorian
  end.

(** Day number by counting: whole years, whole months, days. *)
Definition days_before_year (c : calendar) (y : Z) : Z :=
  match c with
  | Julian => 365 * (y - 1) + (y - 1) / 4
  | Gregorian => 365 * (y - 1) + (y - 1) / 4 - (y - 1) / 100 + (y - 1) / 400
  end.

Definition days_before_month (c : calendar) (y m : Z) : Z :=
  List.fold_right Z.add 0
    (List.map (fun k => month_length c y (Z.of_nat k)) (List.seq 1 (Z.to_nat (m - 1)))).

(** The day before 1 January of the year 1 is day 1721425 in the Gregorian
    and day 1721423 in the Julian calendar. *)
Definition day_number (c : calendar) (y m d : Z) : Z :=
  match c with Gregorian => 1721425 | Julian => 1721423 end
  + days_before_year c y + days_before_month c y m + d.

(** Dates that exist when the Julian calendar is used before day [c] and the
    Gregorian calendar from day [c] on. *)
Definition exists_under (cutoff : option Z) (d : date) : Prop :=
  match cutoff with
  | None => valid_date Gregorian d = true
  | Some c =>
      let '(y, m, dd) := d in
      (valid_date Julian d = true /\ day_number Julian y m dd < c) \/
      (valid_date Gregorian d = true /\ c <= day_number Gregorian y m dd)
  end.

Definition civil_day_number (cutoff : option Z) (d : date) : Z :=
  let '(y, m, dd) := d in
  match cutoff with
  | None => day_number Gregorian y m dd
  | Some c => if valid_date Julian d && (day_number Julian y m dd <? c)
              then day_number Julian y m dd else day_number Gregorian y m dd
  end.
