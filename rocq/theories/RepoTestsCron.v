(** The unit tests of /repo, src/runtime/cronjob.rs:378-928, run on CronModel.  They are
    no proofs of anything about cinit; they check that the model does what the authors
    of the code expect.  Names are those of the tests. *)
From Coq Require Import String Ascii ZArith List Bool.
From Verif Require Import Base RStr CronModel SpecSched.
Import ListNotations.
Local Open Scope string_scope.
Local Open Scope Z_scope.

(** UTC, and two zones with a constant offset; the tests say that they hold in any. *)
Definition some_zones : list zone := [fixed 0; fixed 7200; fixed (-12600)].
(** Europe/Zurich in 2025 (the changes at 1:00 UTC on 30 March and 26 October) *)
Definition zurich : zone :=
  {| z_off := fun t => if (1743296400 <=? t) && (t <? 1761440400) then 7200 else 3600; z_offs := [3600; 7200] |}.

(** [Local.with_ymd_and_hms(...).unwrap()], with the day counted since 1970 *)
Definition local (tz : zone) (day hour minute : Z) : instant :=
  match resolve tz (day * DAY + hour * 3600 + minute * 60) with Some t => t | None => -1 end.

(** [TimerDescription::parse(raw).unwrap().get_next_execution(from)] *)
Definition schedule (tz : zone) (raw : string) (from : instant) : outcome (option instant) :=
  match parse_timer raw with
  | Ret (Ok d) => match next_execution tz d from with Ret t => Ret (Some t) | Panic m => Panic m end
  | Ret (Err _) => Ret None
  | Panic m => Panic m
  end.

(** cronjob.rs:384 *)
Example test_parse_star : parse_element (Some "*") 5 8 = Ret (Ok [5; 6; 7; 8]).
Proof. vm_compute. reflexivity. Qed.
(** cronjob.rs:397 *)
Example test_parse_single_number : parse_element (Some "4") 0 99 = Ret (Ok [4]).
Proof. vm_compute. reflexivity. Qed.
(** cronjob.rs:407 *)
Example test_parse_interval : parse_element (Some "4-6") 0 99 = Ret (Ok [4; 5; 6]).
Proof. vm_compute. reflexivity. Qed.
(** cronjob.rs:419 *)
Example test_parse_interval_with_stepping : parse_element (Some "1-15/3") 0 99 = Ret (Ok [1; 4; 7; 10; 13]).
Proof. vm_compute. reflexivity. Qed.
(** cronjob.rs:433 *)
Example test_parse_star_with_stepping : parse_element (Some "*/3") 0 11 = Ret (Ok [0; 3; 6; 9]).
Proof. vm_compute. reflexivity. Qed.
(** cronjob.rs:446 *)
Example test_parse_enum : parse_element (Some "4,8,16,32,64") 0 99 = Ret (Ok [4; 8; 16; 32; 64]).
Proof. vm_compute. reflexivity. Qed.
(** cronjob.rs:460 *)
Example test_parse_two_intervals : parse_element (Some "4-6,44-46") 0 99 = Ret (Ok [4; 5; 6; 44; 45; 46]).
Proof. vm_compute. reflexivity. Qed.
(** cronjob.rs:475 *)
Example test_parse_complex : parse_element (Some "4,77,44-46,3,95-99") 0 99 = Ret (Ok [3; 4; 44; 45; 46; 77; 95; 96; 97; 98; 99]).
Proof. vm_compute. reflexivity. Qed.
(** cronjob.rs:495 *)
Example test_parse_none : parse_element None 0 99 = Ret (Err "Incomplete timer spec").
Proof. vm_compute. reflexivity. Qed.
(** cronjob.rs:504 *)
Example test_parse_empty : parse_element (Some "") 0 99 = Ret (Err "Incomplete timer spec").
Proof. vm_compute. reflexivity. Qed.
(** cronjob.rs:513 *)
Example test_parse_out_of_range : parse_element (Some "4") 0 3 = Ret (Err "Invalid range in timer spec").
Proof. vm_compute. reflexivity. Qed.
(** cronjob.rs:522 *)
Example test_parse_invalid_interval : parse_element (Some "4-3") 0 99 = Ret (Err "Interval end < begin").
Proof. vm_compute. reflexivity. Qed.
(** cronjob.rs:531 *)
Example test_parse_interval_out_of_range_right_overlap : parse_element (Some "2-4") 0 3 = Ret (Err "Invalid range in timer spec").
Proof. vm_compute. reflexivity. Qed.
(** cronjob.rs:540 *)
Example test_parse_interval_out_of_range_complete_right : parse_element (Some "4-5") 0 3 = Ret (Err "Invalid range in timer spec").
Proof. vm_compute. reflexivity. Qed.
(** cronjob.rs:549 *)
Example test_parse_interval_out_of_range_left_overlap : parse_element (Some "4-6") 5 7 = Ret (Err "Invalid range in timer spec").
Proof. vm_compute. reflexivity. Qed.
(** cronjob.rs:558 *)
Example test_parse_interval_out_of_range_complete_left : parse_element (Some "3-4") 5 7 = Ret (Err "Invalid range in timer spec").
Proof. vm_compute. reflexivity. Qed.
(** cronjob.rs:567 *)
Example test_parse_invalid_range : parse_element (Some "*") 9 7 = Ret (Err "Invalid range given").
Proof. vm_compute. reflexivity. Qed.
(** cronjob.rs:576 *)
Example test_parse_invalid_digit : parse_element (Some "a") 0 99 = Ret (Err "Invalid number").
Proof. vm_compute. reflexivity. Qed.
(** cronjob.rs:585 *)
Example test_parse_invalid_digit_in_interval : parse_element (Some "5-a") 0 99 = Ret (Err "Invalid number in end of interval").
Proof. vm_compute. reflexivity. Qed.
(** cronjob.rs:594 *)
Example test_parse_invalid_interval_with_stepping : parse_element (Some "1-15/x") 0 99 = Ret (Err "Invalid step number").
Proof. vm_compute. reflexivity. Qed.
(** cronjob.rs:603 *)
Example test_parse_invalid_digit_in_enum : parse_element (Some "5,a") 0 99 = Ret (Err "Invalid number").
Proof. vm_compute. reflexivity. Qed.
(** cronjob.rs:612 *)
Example test_parse_entire_cron_expression : parse_timer "1 2 3 4 5" = Ret (Ok {| td_minute := [1]; td_hour := [2]; td_day := [3]; td_month := [4]; td_weekday := [5] |}).
Proof. vm_compute. reflexivity. Qed.
(** cronjob.rs:630 *)
Example test_parse_entire_cron_expression_with_whitespace : parse_timer ("1 " ++ String LF "2 " ++ String "009" "3   4   5") = Ret (Ok {| td_minute := [1]; td_hour := [2]; td_day := [3]; td_month := [4]; td_weekday := [5] |}).
Proof. vm_compute. reflexivity. Qed.
(** cronjob.rs:648 *)
Example test_parse_too_short_expr : parse_timer "1 2 3 4" = Ret (Err "Incomplete timer spec").
Proof. vm_compute. reflexivity. Qed.
(** cronjob.rs:657 *)
Example test_parse_too_long_expr : parse_timer "1 2 3 4 5 6" = Ret (Err "Too many timer specs").
Proof. vm_compute. reflexivity. Qed.
(** cronjob.rs:666 *)
Example test_advance_by_one_minute : forall tz, In tz some_zones -> schedule tz "* * * * *" (local tz 165 12 30) = Ret (Some (local tz 165 12 30 + 1 * 60 * NS)).
Proof. intros tz [<-|[<-|[<-|[]]]]; vm_compute; reflexivity. Qed.
(** cronjob.rs:675 *)
Example test_advance_by_two_minutes : forall tz, In tz some_zones -> schedule tz "32 * * * *" (local tz 165 12 30) = Ret (Some (local tz 165 12 30 + 2 * 60 * NS)).
Proof. intros tz [<-|[<-|[<-|[]]]]; vm_compute; reflexivity. Qed.
(** cronjob.rs:684 *)
Example test_advance_wrap_around_minutes : forall tz, In tz some_zones -> schedule tz "29 * * * *" (local tz 165 12 30) = Ret (Some (local tz 165 12 30 + 59 * 60 * NS)).
Proof. intros tz [<-|[<-|[<-|[]]]]; vm_compute; reflexivity. Qed.
(** cronjob.rs:693 *)
Example test_advance_by_one_hour : forall tz, In tz some_zones -> schedule tz "30 * * * *" (local tz 165 12 30) = Ret (Some (local tz 165 12 30 + 1 * 3600 * NS)).
Proof. intros tz [<-|[<-|[<-|[]]]]; vm_compute; reflexivity. Qed.
(** cronjob.rs:702 *)
Example test_advance_by_two_hours : forall tz, In tz some_zones -> schedule tz "30 14 * * *" (local tz 165 12 30) = Ret (Some (local tz 165 12 30 + 2 * 3600 * NS)).
Proof. intros tz [<-|[<-|[<-|[]]]]; vm_compute; reflexivity. Qed.
(** cronjob.rs:711 *)
Example test_advance_wrap_around_hours : forall tz, In tz some_zones -> schedule tz "30 11 * * *" (local tz 165 12 30) = Ret (Some (local tz 165 12 30 + 23 * 3600 * NS)).
Proof. intros tz [<-|[<-|[<-|[]]]]; vm_compute; reflexivity. Qed.
(** cronjob.rs:720 *)
Example test_advance_by_one_day : forall tz, In tz some_zones -> schedule tz "30 12 * * *" (local tz 165 12 30) = Ret (Some (local tz 165 12 30 + 1 * 86400 * NS)).
Proof. intros tz [<-|[<-|[<-|[]]]]; vm_compute; reflexivity. Qed.
(** cronjob.rs:729 *)
Example test_advance_by_two_days : forall tz, In tz some_zones -> schedule tz "30 12 17 * *" (local tz 165 12 30) = Ret (Some (local tz 165 12 30 + 2 * 86400 * NS)).
Proof. intros tz [<-|[<-|[<-|[]]]]; vm_compute; reflexivity. Qed.
(** cronjob.rs:738 *)
Example test_advance_wrap_around_days : forall tz, In tz some_zones -> schedule tz "30 12 14 * *" (local tz 165 12 30) = Ret (Some (local tz 165 12 30 + 29 * 86400 * NS)).
Proof. intros tz [<-|[<-|[<-|[]]]]; vm_compute; reflexivity. Qed.
(** cronjob.rs:747 *)
Example test_advance_by_one_month : forall tz, In tz some_zones -> schedule tz "30 12 15 * *" (local tz 165 12 30) = Ret (Some (local tz 165 12 30 + 30 * 86400 * NS)).
Proof. intros tz [<-|[<-|[<-|[]]]]; vm_compute; reflexivity. Qed.
(** cronjob.rs:756 *)
Example test_advance_by_two_months : forall tz, In tz some_zones -> schedule tz "30 12 15 8 *" (local tz 165 12 30) = Ret (Some (local tz 165 12 30 + 61 * 86400 * NS)).
Proof. intros tz [<-|[<-|[<-|[]]]]; vm_compute; reflexivity. Qed.
(** cronjob.rs:765 *)
Example test_advance_wrap_around_months : forall tz, In tz some_zones -> schedule tz "30 12 15 6 *" (local tz 165 12 30) = Ret (Some (local tz 165 12 30 + 365 * 86400 * NS)).
Proof. intros tz [<-|[<-|[<-|[]]]]; vm_compute; reflexivity. Qed.
(** cronjob.rs:774 *)
Example test_advance_by_one_weekday : forall tz, In tz some_zones -> schedule tz "30 12 * * 2" (local tz 165 12 30) = Ret (Some (local tz 165 12 30 + 1 * 86400 * NS)).
Proof. intros tz [<-|[<-|[<-|[]]]]; vm_compute; reflexivity. Qed.
(** cronjob.rs:783 *)
Example test_advance_by_two_weekdays : forall tz, In tz some_zones -> schedule tz "30 12 * * 3" (local tz 165 12 30) = Ret (Some (local tz 165 12 30 + 2 * 86400 * NS)).
Proof. intros tz [<-|[<-|[<-|[]]]]; vm_compute; reflexivity. Qed.
(** cronjob.rs:792 *)
Example test_advance_wrap_around_weekdays : forall tz, In tz some_zones -> schedule tz "30 12 * * 0" (local tz 165 12 30) = Ret (Some (local tz 165 12 30 + 6 * 86400 * NS)).
Proof. intros tz [<-|[<-|[<-|[]]]]; vm_compute; reflexivity. Qed.
(** cronjob.rs:801 *)
Example test_advance_with_weekday_taking_precedence : forall tz, In tz some_zones -> schedule tz "30 12 17 6 2" (local tz 165 12 30) = Ret (Some (local tz 165 12 30 + 1 * 86400 * NS)).
Proof. intros tz [<-|[<-|[<-|[]]]]; vm_compute; reflexivity. Qed.
(** cronjob.rs:810 *)
Example test_advance_with_date_taking_precedence : forall tz, In tz some_zones -> schedule tz "30 12 16 6 3" (local tz 165 12 30) = Ret (Some (local tz 165 12 30 + 1 * 86400 * NS)).
Proof. intros tz [<-|[<-|[<-|[]]]]; vm_compute; reflexivity. Qed.
(** cronjob.rs:830 *)
Example test_fold_schedules_the_next_execution_to_the_earlier_option :
  schedule zurich "30 2 * * *" (local zurich 20387 0 0) = Ret (Some (local zurich 20387 0 0 + (2 * 3600 + 30 * 60) * NS)).
Proof. vm_compute. reflexivity. Qed.
(** cronjob.rs:855 *)
Example test_gap_schedules_the_next_execution_after_the_gap :
  schedule zurich "30 2 * * *" (local zurich 20177 0 0) = Ret (Some (local zurich 20177 0 0 + 2 * 3600 * NS)).
Proof. vm_compute. reflexivity. Qed.
(** cronjob.rs:867 *)
Example test_gap_in_three_days_schedules_the_next_execution_after_the_gap :
  schedule zurich "30 2 30 * *" (local zurich 20174 0 0) = Ret (Some (local zurich 20174 0 0 + (2 * 3600 + 3 * DAY) * NS)).
Proof. vm_compute. reflexivity. Qed.
(** cronjob.rs:879 *)
Example test_next_execution_after_gap_is_not_in_the_past :
  schedule zurich "30 2,14 * * *" (local zurich 20177 15 0) = Ret (Some (local zurich 20178 2 30)).
Proof. vm_compute. reflexivity. Qed.

(** cronjob.rs:911 *)
Definition every_minute : timer_desc :=
  {| td_minute := zrange 0 59; td_hour := zrange 0 23; td_day := zrange 1 31; td_month := zrange 1 12; td_weekday := zrange 0 6 |}.
Example test_cronjobs_at_same_time_are_both_executed :
  let now := local (fixed 0) 165 12 30 in
  let c := {| timers := [(1%nat, every_minute); (2%nat, every_minute)]; timer := [(now - 120 * NS, 2%nat); (now - 60 * NS, 1%nat)] |} in
  parse_timer "* * * * *" = Ret (Ok every_minute) /\
  match cron_pop (fixed 0) c now with
  | Ret (c1, Some a) => match cron_pop (fixed 0) c1 now with Ret (c2, Some b) => (a, b, length (timer c2)) = (2%nat, 1%nat, 2%nat) | _ => False end
  | _ => False
  end.
Proof. vm_compute. split; reflexivity. Qed.
