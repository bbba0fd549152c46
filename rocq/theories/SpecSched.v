(** When a cron expression is due: specification of execution times. *)
From Coq Require Import String ZArith List.
From Verif Require Import CronModel SpecStr SpecCron SpecCal.
Import ListNotations.
Local Open Scope Z_scope.

(** What the parser guarantees (see parse_element_range). *)
Definition field_ok (lo hi : Z) (S : list Z) : Prop :=
  S <> [] /\ increasing S /\ forall x, In x S -> lo <= x <= hi.
Definition desc_ok (d : timer_desc) : Prop :=
  field_ok 0 59 (td_minute d) /\ field_ok 0 23 (td_hour d) /\ field_ok 1 31 (td_day d) /\
  field_ok 1 12 (td_month d) /\ field_ok 0 6 (td_weekday d).

(** [s] is an expression for the timer [d] (see C15). *)
Definition spells (s : string) (d : timer_desc) : Prop :=
  exists l1 l2 l3 l4 l5,
    spaced s [field_text l1; field_text l2; field_text l3; field_text l4; field_text l5] /\
    field_valid 0 59 l1 /\ field_valid 0 23 l2 /\ field_valid 1 31 l3 /\ field_valid 1 12 l4 /\ field_valid 0 6 l5 /\
    field_means 0 59 l1 (td_minute d) /\ field_means 0 23 l2 (td_hour d) /\ field_means 1 31 l3 (td_day d) /\
    field_means 1 12 l4 (td_month d) /\ field_means 0 6 l5 (td_weekday d).

(** A field is restricted when it leaves out some value. *)
Definition restricted (lo hi : Z) (S : list Z) : Prop := exists x, lo <= x <= hi /\ ~ In x S.
Definition weekday_restricted (d : timer_desc) : Prop := restricted 0 6 (td_weekday d).
Definition date_restricted (d : timer_desc) : Prop :=
  restricted 1 31 (td_day d) \/ restricted 1 12 (td_month d).

Definition date_ok (d : timer_desc) (z : Z) : Prop :=
  In (d_day (civil z)) (td_day d) /\ In (d_month (civil z)) (td_month d).
Definition weekday_ok (d : timer_desc) (z : Z) : Prop := In (weekday z) (td_weekday d).

(** Cron's rule: if both day-of-month/month and weekday are restricted, either
    suffices; otherwise the restricted one decides. *)
Definition day_matches (d : timer_desc) (z : Z) : Prop :=
  (weekday_restricted d -> date_restricted d -> weekday_ok d z \/ date_ok d z) /\
  (~ weekday_restricted d -> date_restricted d -> date_ok d z) /\
  (weekday_restricted d -> ~ date_restricted d -> weekday_ok d z).

(** The wall clock at instant [t] shows day [z], [h]:[m]:00.0 *)
Definition at_wall (tz : zone) (t : instant) (z h m : Z) : Prop :=
  t mod NS = 0 /\ 0 <= h < 24 /\ 0 <= m < 60 /\
  t / NS + z_off tz (t / NS) = z * DAY + h * 3600 + m * 60.

(** The expression is due at instant [t]. *)
Definition due_at (tz : zone) (d : timer_desc) (t : instant) : Prop :=
  exists z h m, at_wall tz t z h m /\ In h (td_hour d) /\ In m (td_minute d) /\ day_matches d z.

(** Local wall clock of any instant: day, second of the day. *)
Definition wall_day (tz : zone) (t : instant) : Z := (t / NS + z_off tz (t / NS)) / DAY.
Definition wall_sec (tz : zone) (t : instant) : Z := (t / NS + z_off tz (t / NS)) mod DAY.

(** No time of day of the expression is left today: the wall clock is in or after
    the last matching minute. *)
Definition none_left_today (tz : zone) (d : timer_desc) (from : instant) : Prop :=
  forall h m, In h (td_hour d) -> In m (td_minute d) -> h * 3600 + m * 60 <= wall_sec tz from.

(** A zone without offset changes. *)
Definition fixed (o : Z) : zone := {| z_off := fun _ => o; z_offs := [o] |}.

(** All offsets that occur are listed. *)
Definition zone_ok (tz : zone) : Prop := forall s, In (z_off tz s) (z_offs tz).

(** The local wall clock time [w] (seconds) exists. *)
Definition exists_wall (tz : zone) (w : Z) : Prop := exists s, s + z_off tz s = w.

(** Instants chrono can represent, with [y] years of room to the end. *)
Definition in_calendar (t : instant) : Prop := MIN_SEC <= t / NS <= MAX_SEC.
Definition room (t : instant) (days : Z) : Prop := MIN_SEC <= t / NS /\ t / NS + days * DAY <= MAX_SEC.

(** [t] is the first instant after [from] at which the expression is due. *)
Definition earliest (tz : zone) (d : timer_desc) (from t : instant) : Prop :=
  from < t /\ due_at tz d t /\ forall t', from < t' -> due_at tz d t' -> t <= t'.

(** Longest possible length of a month (29 for February). *)
Definition longest (m : Z) : Z := month_len 2000 m.

(** Days that are still possible: from today, or from tomorrow if nothing is left today. *)
Definition still_ahead (tz : zone) (d : timer_desc) (from : instant) (z : Z) : Prop :=
  wall_day tz from <= z /\ (none_left_today tz d from -> wall_day tz from < z).

(** The next day with a matching date. *)
Definition first_date (tz : zone) (d : timer_desc) (from : instant) (z : Z) : Prop :=
  still_ahead tz d from z /\ date_ok d z /\ forall z', still_ahead tz d from z' -> date_ok d z' -> z <= z'.

(** The next matching date lies in this year; it lies in this month, or it is the first
    day of the list in a later month, that day exists in all listed months, and there is
    only this day in the list or no day of the list is left in this month. *)
Definition date_in_reach (tz : zone) (d : timer_desc) (from : instant) : Prop :=
  let today := civil (wall_day tz from) in
  exists z, first_date tz d from z /\ d_year (civil z) = d_year today /\
    (d_month (civil z) = d_month today \/
     exists x0, In x0 (td_day d) /\ (forall x, In x (td_day d) -> x0 <= x) /\
       (forall m, In m (td_month d) -> x0 <= month_len (d_year today) m) /\
       (td_day d = [x0] \/
        forall x, In x (td_day d) -> x < d_day today \/ (x = d_day today /\ none_left_today tz d from))).

(** The value of a list that is used from [k] on: the next one, or again the first one
    if none is left. *)
Definition next_listed (k : Z) (l : list Z) (x : Z) (again : bool) : Prop :=
  In x l /\ if again then forall y, In y l -> y < k /\ x <= y else k <= x /\ forall y, In y l -> k <= y -> x <= y.

(** The day and month looked for: the next listed day from today on, or from tomorrow on
    if nothing is left today; the next listed month from this one on, or from the next
    one on if the days start again. *)
Definition sought (tz : zone) (d : timer_desc) (from : instant) (day mon : Z) : Prop :=
  let today := civil (wall_day tz from) in
  exists tomorrow again again', (tomorrow = true <-> none_left_today tz d from) /\
    next_listed (d_day today + if tomorrow : bool then 1 else 0) (td_day d) day again /\
    next_listed (d_month today + if again then 1 else 0) (td_month d) mon again'.
