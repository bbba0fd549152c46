(** The Gregorian calendar, by its rules. *)
From Coq Require Import ZArith Bool.
From Verif Require Import CronModel.
Local Open Scope Z_scope.

(** Every fourth year is a leap year, except centuries not divisible by 400. *)
Definition leap (y : Z) : bool :=
  (y mod 4 =? 0) && negb (y mod 100 =? 0) || (y mod 400 =? 0).

Definition month_len (y m : Z) : Z :=
  if m =? 2 then (if leap y then 29 else 28)
  else if (m =? 4) || (m =? 6) || (m =? 9) || (m =? 11) then 30 else 31.

(** The day after a date. *)
Definition next_date (d : date) : date :=
  if d_day d <? month_len (d_year d) (d_month d)
  then {| d_year := d_year d; d_month := d_month d; d_day := d_day d + 1 |}
  else if d_month d <? 12
  then {| d_year := d_year d; d_month := d_month d + 1; d_day := 1 |}
  else {| d_year := d_year d + 1; d_month := 1; d_day := 1 |}.

Definition valid_date (d : date) : Prop :=
  1 <= d_month d <= 12 /\ 1 <= d_day d <= month_len (d_year d) (d_month d).

(** A function from day numbers to dates is the calendar iff day 0 is 1 January
    1970 and consecutive days have consecutive dates. *)
Definition is_calendar (f : Z -> date) : Prop :=
  f 0 = {| d_year := 1970; d_month := 1; d_day := 1 |} /\
  forall z, f (z + 1) = next_date (f z).

(** Day 0 was a Thursday (4, Sunday being 0) and weekdays cycle. *)
Definition is_weekday (f : Z -> Z) : Prop :=
  f 0 = 4 /\ forall z, f (z + 1) = (if f z =? 6 then 0 else f z + 1).

(** Chronological order of dates. *)
Definition date_lt (a b : date) : Prop :=
  d_year a < d_year b \/
  (d_year a = d_year b /\ (d_month a < d_month b \/
  (d_month a = d_month b /\ d_day a < d_day b))).
