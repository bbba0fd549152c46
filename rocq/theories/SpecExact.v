(** When the next execution is the earliest one: the conditions, by the clock on the wall. *)
From Coq Require Import ZArith List.
From Verif Require Import CronModel SpecCal SpecSched.
Import ListNotations.
Local Open Scope Z_scope.

(** The hour and the minute on the wall clock. *)
Definition wall_hour (tz : zone) (t : instant) : Z := wall_sec tz t / 3600.
Definition wall_minute (tz : zone) (t : instant) : Z := wall_sec tz t mod 3600 / 60.

(** Every time of day of the expression is still ahead today. *)
Definition all_left_today (tz : zone) (d : timer_desc) (from : instant) : Prop :=
  forall h m, In h (td_hour d) -> In m (td_minute d) -> wall_sec tz from < h * 3600 + m * 60.

(** Today's weekday is not the only one of the list with nothing left today (see C18). *)
Definition week_kept (tz : zone) (d : timer_desc) (from : instant) : Prop :=
  ~ (td_weekday d = [weekday (wall_day tz from)] /\ none_left_today tz d from).

(** The search for a date comes to the day [z]: its day of the month is the next one of the
    list from today on (from tomorrow on if nothing is left today), its month is the next
    one of the list from this month on (from the next one on if the list of days started
    again), and if the list of months started again, [z] is at least 365 days away. *)
Definition date_found (tz : zone) (d : timer_desc) (from : instant) (z : Z) : Prop :=
  let today := civil (wall_day tz from) in
  exists tomorrow again again', (tomorrow = true <-> none_left_today tz d from) /\
    next_listed (d_day today + if tomorrow : bool then 1 else 0) (td_day d) (d_day (civil z)) again /\
    next_listed (d_month today + if again then 1 else 0) (td_month d) (d_month (civil z)) again' /\
    (again' = true -> wall_day tz from + 365 <= z).

(** The next matching date is found, or a matching weekday comes not later. *)
Definition date_kept (tz : zone) (d : timer_desc) (from : instant) : Prop :=
  date_restricted d -> forall z, first_date tz d from z ->
  date_found tz d from z \/
  weekday_restricted d /\ exists z', z' <= z /\ still_ahead tz d from z' /\ weekday_ok d z'.

(** Nothing is left today, or today is a matching day, or every time of day is still ahead.
    And if one listed minute of this hour has passed and another one has not, then today is
    a matching day and this hour is listed. *)
Definition time_kept (tz : zone) (d : timer_desc) (from : instant) : Prop :=
  (none_left_today tz d from \/ day_matches d (wall_day tz from) \/ all_left_today tz d from) /\
  (forall m m', In m (td_minute d) -> In m' (td_minute d) -> m <= wall_minute tz from < m' ->
     day_matches d (wall_day tz from) /\ In (wall_hour tz from) (td_hour d)).
