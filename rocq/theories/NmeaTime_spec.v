(** Specification vocabulary for C49: the calendar. *)
From Verif Require Import Base NmeaTime_model.

(** a UTC time of day, without leap second *)
Definition valid_utc (t : utc) : Prop :=
  0 <= u_year t < 65535 /\ 1 <= u_month t <= 12 /\ 1 <= u_day t <= days_in_month (u_year t) (u_month t) /\
  0 <= u_hours t < 24 /\ 0 <= u_minutes t < 60 /\ 0 <= u_seconds t < 60.
(** days since 1 January of year 0: whole years, whole months, day *)
Fixpoint days_of_years (n : nat) : Z := match n with O => 0 | S n => days_of_years n + (if leap (Z.of_nat n) then 366 else 365) end.
Fixpoint days_of_months (y : Z) (n : nat) : Z := match n with O => 0 | S n => days_of_months y n + days_in_month y (Z.of_nat n + 1) end.
Definition day_number (t : utc) : Z := days_of_years (Z.to_nat (u_year t)) + days_of_months (u_year t) (Z.to_nat (u_month t - 1)) + (u_day t - 1).
Definition second_number (t : utc) : Z := 86400 * day_number t + 3600 * u_hours t + 60 * u_minutes t + u_seconds t.
