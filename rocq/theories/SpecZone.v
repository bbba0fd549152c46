(** Vocabulary for changes of the clocks. *)
From Coq Require Import ZArith List.
From Verif Require Import CronModel SpecSched.
Import ListNotations.
Local Open Scope Z_scope.

(** A zone as there are: all offsets that occur are listed, and they are less than a day. *)
Definition sane (tz : zone) : Prop := zone_ok tz /\ forall s, - DAY < z_off tz s < DAY.

(** The clocks are not changed, and show [o] seconds more than UTC, from three days before
    the instant [a] to three days after the instant [b]. *)
Definition calm (tz : zone) (o : Z) (a b : instant) : Prop :=
  forall s, a / NS - 3 * DAY <= s <= b / NS + 3 * DAY -> z_off tz s = o.

(** The weekday or the date decides on the day, not both. *)
Definition one_rule (d : timer_desc) : Prop := ~ (weekday_restricted d /\ date_restricted d).
