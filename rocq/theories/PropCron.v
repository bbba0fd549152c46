(** Properties C15 - C24: cron expressions and the cron scheduler. *)
From Coq Require Import String Ascii ZArith List Permutation Bool Lia.
From Verif Require Import Base RStr SpecStr CronModel SpecCron SpecCal SpecSched SpecTimer.
From Verif Require Import CronParseProofs CronTextProofs CalendarProofs CronNextProofs CronSchedProofs CronReachProofs CronTimerProofs.
Import ListNotations.
Local Open Scope string_scope.
Local Open Scope Z_scope.

(** The calendar computations used below are the Gregorian calendar. *)
Theorem C17_calendar : is_calendar civil /\ is_weekday weekday.
Proof. exact (conj civil_is_calendar weekday_is_weekday). Qed.
Print Assumptions C17_calendar.

(** * C15: cron expressions mean what they say *)
Theorem C15_timer_meaning s d : parse_timer s = Ret (Ok d) <->
  exists l1 l2 l3 l4 l5,
    spaced s [field_text l1; field_text l2; field_text l3; field_text l4; field_text l5] /\
    field_valid 0 59 l1 /\ field_valid 0 23 l2 /\ field_valid 1 31 l3 /\ field_valid 1 12 l4 /\ field_valid 0 6 l5 /\
    field_means 0 59 l1 (td_minute d) /\ field_means 0 23 l2 (td_hour d) /\ field_means 1 31 l3 (td_day d) /\
    field_means 1 12 l4 (td_month d) /\ field_means 0 6 l5 (td_weekday d).
Proof. exact (parse_timer_iff s d). Qed.
Print Assumptions C15_timer_meaning.

Example C15_example : parse_timer "*/20  8-10,12 1 */6	1-5/2" =
  Ret (Ok {| td_minute := [0; 20; 40]; td_hour := [8; 9; 10; 12]; td_day := [1]; td_month := [1; 7]; td_weekday := [1; 3; 5] |}).
Proof. vm_compute. reflexivity. Qed.

Theorem C15_field_accepts min max l : min <= max -> max <= 4294967295 -> field_valid min max l ->
  exists S, parse_element (Some (field_text l)) min max = Ret (Ok S) /\ field_means min max l S.
Proof.
  exact (fun H1 H2 H3 => parse_element_accepts min max l H1 H2 (proj1 H3) (proj2 H3)).
Qed.
Print Assumptions C15_field_accepts.

Theorem C15_field_rejects min max l : min <= max -> max <= 4294967295 -> l <> [] ->
  (forall i, In i l -> item_wf i /\ 0 < item_stride i) -> (exists i, In i l /\ ~ item_valid min max i) ->
  exists e, parse_element (Some (field_text l)) min max = Ret (Err e).
Proof. exact (parse_element_rejects min max l). Qed.
Print Assumptions C15_field_rejects.
Example C15_field_rejects_example :
  parse_element (Some (field_text [{| i_bounds := BRange {| n_plus := false; n_digits := "9" |} {| n_plus := false; n_digits := "3" |} None; i_step := None |}])) 0 23
  = Ret (Err "Interval end < begin") /\
  parse_element (Some "1,24") 0 23 = Ret (Err "Invalid range in timer spec").
Proof. split; vm_compute; reflexivity. Qed.

Theorem C15_accepted_set_in_range min max t S : max <= 4294967295 -> parse_element (Some t) min max = Ret (Ok S) ->
  S <> [] /\ increasing S /\ forall x, In x S -> min <= x <= max.
Proof. exact (parse_element_range min max t S). Qed.
Print Assumptions C15_accepted_set_in_range.

(** * C16: malformed expressions are rejected, never crash *)
(** Missing from the full claim: texts with a step of zero, see the refutation. *)
Theorem C16_no_panic_partial s : ~ occurs "/0" s -> ~ occurs "/+0" s -> forall m, parse_timer s <> Panic m.
Proof. exact (fun H1 H2 m Hp => match parse_timer_panic s m Hp with or_introl H => H1 H | or_intror H => H2 H end). Qed.
Print Assumptions C16_no_panic_partial.
Example C16_example : exists e, parse_timer "0 b - * */x" = Ret (Err e).
Proof. eexists. vm_compute. reflexivity. Qed.

Theorem C16_no_panic_refuted : exists s m, parse_timer s = Panic m.
Proof. exact (ex_intro _ "*/0 * * * *" (ex_intro _ _ eq_refl)). Qed.
Print Assumptions C16_no_panic_refuted.

(** * C17: the next execution matches the expression *)
Theorem C17_next_matches o s d from t : parse_timer s = Ret (Ok d) ->
  next_execution (fixed o) d from = Ret t -> due_at (fixed o) d t.
Proof. exact (fun Hp => next_execution_due o d from t (parse_timer_wf s d Hp)). Qed.
Print Assumptions C17_next_matches.
(** 12:29 on 1 March 2021 in a zone two hours ahead of UTC *)
Example C17_example :
  parse_timer "30 12 * * 1" = Ret (Ok monday_desc) /\
  next_execution (fixed 7200) monday_desc ((18687 * 86400 + 44940 - 7200) * NS) = Ret ((18687 * 86400 + 45000 - 7200) * NS).
Proof. split; vm_compute; reflexivity. Qed.

(** * C18: the next execution lies strictly in the future *)
(** The computed instant is in the future, except in exactly one situation: the
    weekday field names exactly one weekday, today is that day, and no time of the
    expression is left today. *)
Theorem C18_future_partial o s d from t : parse_timer s = Ret (Ok d) ->
  next_execution (fixed o) d from = Ret t ->
  (from < t <-> ~ (td_weekday d = [weekday (wall_day (fixed o) from)] /\ none_left_today (fixed o) d from)).
Proof. exact (fun Hp => next_execution_future_iff o d from t (parse_timer_wf s d Hp)). Qed.
Print Assumptions C18_future_partial.

(** At 12:31 on a Monday, "30 12 * * 1" is scheduled for 12:30 of the same day. *)
Theorem C18_future_refuted : exists o s d from t, parse_timer s = Ret (Ok d) /\
  next_execution (fixed o) d from = Ret t /\ t < from.
Proof.
  exists 0, "30 12 * * 1", monday_desc, ((18687 * 86400 + 45060) * NS), ((18687 * 86400 + 45000) * NS).
  split; [vm_compute; reflexivity|]. split; vm_compute; reflexivity.
Qed.
Print Assumptions C18_future_refuted.

(** * C19: a satisfiable expression always gets a next execution *)
(** Missing from the full claim: expressions combining a day and a month such that
    the day does not exist in the month, see the refutation. *)
Theorem C19_next_exists_partial o s d from : parse_timer s = Ret (Ok d) -> -86400 < o < 86400 ->
  (date_restricted d -> forall x y, In x (td_day d) -> In y (td_month d) -> x <= longest y) ->
  room from 4000 -> exists t, next_execution (fixed o) d from = Ret t.
Proof. exact (fun Hp => next_execution_exists o d from (parse_timer_wf s d Hp)). Qed.
Print Assumptions C19_next_exists_partial.
(** Exactly: there is a next execution iff the day and month looked for exist together
    in some year. *)
Theorem C19_exists_iff_partial o s d from : parse_timer s = Ret (Ok d) -> -86400 < o < 86400 -> room from 4000 ->
  ((exists t, next_execution (fixed o) d from = Ret t) <->
   (date_restricted d -> exists day mon, sought (fixed o) d from day mon /\ day <= longest mon)).
Proof. exact (fun Hp => next_execution_exists_iff o d from (parse_timer_wf s d Hp)). Qed.
Print Assumptions C19_exists_iff_partial.
(** "0 0 31 * *": on 1 March 31 March is looked for, on 15 April 31 April. *)
Example C19_iff_example :
  let d := {| td_minute := [0]; td_hour := [0]; td_day := [31]; td_month := zrange 1 12; td_weekday := zrange 0 6 |} in
  parse_timer "0 0 31 * *" = Ret (Ok d) /\ date_restricted d /\
  room (18687 * 86400 * NS) 4000 /\ sought (fixed 0) d (18687 * 86400 * NS) 31 3 /\ 31 <= longest 3 /\
  room (18732 * 86400 * NS) 4000 /\ sought (fixed 0) d (18732 * 86400 * NS) 31 4 /\ longest 4 < 31.
Proof.
  intros d. split; [vm_compute; reflexivity|]. split; [left; exists 1; split; [lia|vm_compute; intuition discriminate]|].
  assert (Hs : forall z m, civil z = {| d_year := 2021; d_month := m; d_day := d_day (civil z) |} -> 1 <= m <= 12 -> d_day (civil z) <= 30 ->
    wall_day (fixed 0) (z * 86400 * NS) = z -> none_left_today (fixed 0) d (z * 86400 * NS) -> sought (fixed 0) d (z * 86400 * NS) 31 m).
  { intros z m Hc Hm Hd Hw Hn. exists true, false, false. rewrite Hw, Hc. cbn [d_day d_month]. split; [split; auto|]. split.
    - split; [now left|]. split; [lia|]. intros y [<-|[]] _. lia.
    - split; [now apply zrange_In|]. split; [lia|]. intros y _ Hy. lia. }
  split; [vm_compute; split; discriminate|].
  split. { apply Hs; try (vm_compute; (reflexivity || discriminate)); [lia|]. intros h mi [<-|[]] [<-|[]]. vm_compute. discriminate. }
  split; [vm_compute; discriminate|]. split; [vm_compute; split; discriminate|].
  split. { apply Hs; try (vm_compute; (reflexivity || discriminate)); [lia|]. intros h mi [<-|[]] [<-|[]]. vm_compute. discriminate. }
  vm_compute. reflexivity.
Qed.
(** 29 February, from 1 March 2021 *)
Example C19_example :
  omap (fun t => civil (wall_day (fixed 0) t))
    (next_execution (fixed 0) {| td_minute := [0]; td_hour := [0]; td_day := [29]; td_month := [2]; td_weekday := zrange 0 6 |}
       (18687 * 86400 * NS)) = Ret {| d_year := 2024; d_month := 2; d_day := 29 |}.
Proof. vm_compute. reflexivity. Qed.

(** "0 0 31 * *" crashes whenever the computation starts in a 30 day month or in
    February, although the expression is satisfiable. *)
Theorem C19_next_exists_refuted : exists s d from m, parse_timer s = Ret (Ok d) /\ room from 4000 /\
  (exists z, date_ok d z) /\ next_execution (fixed 0) d from = Panic m.
Proof.
  exists "0 0 31 * *", {| td_minute := [0]; td_hour := [0]; td_day := [31]; td_month := zrange 1 12; td_weekday := zrange 0 6 |},
    (18732 * 86400 * NS).
  assert (Hp : parse_timer "0 0 31 * *" = Ret (Ok {| td_minute := [0]; td_hour := [0]; td_day := [31];
               td_month := zrange 1 12; td_weekday := zrange 0 6 |})) by (vm_compute; reflexivity).
  destruct (next_execution_crash 0 _ (18732 * 86400 * NS) (parse_timer_wf _ _ Hp)) as [m Hm].
  - vm_compute. discriminate.
  - reflexivity.
  - vm_compute. tauto.
  - intros y. replace (d_month (civil (wall_day (fixed 0) (18732 * 86400 * NS)))) with 4 by (vm_compute; reflexivity).
    vm_compute. reflexivity.
  - exists m. split; [exact Hp|]. split; [vm_compute; split; discriminate|]. split; [|exact Hm].
    exists 18992. vm_compute. tauto.
Qed.
Print Assumptions C19_next_exists_refuted.

(** * C20: no scheduled execution is skipped *)
(** Missing from the full claim: schedules that need a smaller unit to be reset
    when a larger one advances, or the year to be advanced, see the refutations. *)
Theorem C20_daily_partial o s d from t : parse_timer s = Ret (Ok d) ->
  ~ weekday_restricted d -> ~ date_restricted d ->
  ((exists m0, td_minute d = [m0]) \/ (forall h, 0 <= h <= 23 -> In h (td_hour d))) ->
  next_execution (fixed o) d from = Ret t -> earliest (fixed o) d from t.
Proof. exact (fun Hp => earliest_daily o d from t (parse_timer_wf s d Hp)). Qed.
Print Assumptions C20_daily_partial.

Theorem C20_weekly_partial o s d from t h0 m0 : parse_timer s = Ret (Ok d) ->
  td_hour d = [h0] -> td_minute d = [m0] -> weekday_restricted d -> ~ date_restricted d ->
  ~ (td_weekday d = [weekday (wall_day (fixed o) from)] /\ none_left_today (fixed o) d from) ->
  next_execution (fixed o) d from = Ret t -> earliest (fixed o) d from t.
Proof. exact (fun Hp => earliest_weekly o d from t h0 m0 (parse_timer_wf s d Hp)). Qed.
Print Assumptions C20_weekly_partial.

Theorem C20_monthly_partial o s d from t h0 m0 : parse_timer s = Ret (Ok d) ->
  td_hour d = [h0] -> td_minute d = [m0] -> ~ weekday_restricted d -> date_restricted d ->
  (forall x, In x (td_day d) -> x <= 28) -> (forall x, 1 <= x <= 12 -> In x (td_month d)) ->
  (d_month (civil (wall_day (fixed o) from)) < 12 \/
   exists x, In x (td_day d) /\ d_day (civil (wall_day (fixed o) from)) < x) ->
  next_execution (fixed o) d from = Ret t -> earliest (fixed o) d from t.
Proof. exact (fun Hp => earliest_monthly o d from t h0 m0 (parse_timer_wf s d Hp)). Qed.
Print Assumptions C20_monthly_partial.

Theorem C20_yearly_partial o s d from t h0 m0 day mon : parse_timer s = Ret (Ok d) ->
  td_hour d = [h0] -> td_minute d = [m0] -> td_day d = [day] -> td_month d = [mon] -> ~ weekday_restricted d ->
  let today := civil (wall_day (fixed o) from) in
  day <= month_len (d_year today) mon ->
  (d_month today < mon \/ (d_month today = mon /\ d_day today < day)) ->
  next_execution (fixed o) d from = Ret t -> earliest (fixed o) d from t.
Proof. exact (fun Hp => earliest_yearly o d from t h0 m0 day mon (parse_timer_wf s d Hp)). Qed.
Print Assumptions C20_yearly_partial.

(** "15 4 1,15 * *" from 15 January 2021, 04:15: 1 February 04:15 *)
Example C20_example :
  parse_timer "15 4 1,15 * *" = Ret (Ok {| td_minute := [15]; td_hour := [4]; td_day := [1; 15]; td_month := zrange 1 12; td_weekday := zrange 0 6 |}) /\
  next_execution (fixed 0) {| td_minute := [15]; td_hour := [4]; td_day := [1; 15]; td_month := zrange 1 12; td_weekday := zrange 0 6 |}
    ((18642 * 86400 + 15300) * NS) = Ret ((18659 * 86400 + 15300) * NS) /\
  civil 18642 = {| d_year := 2021; d_month := 1; d_day := 15 |} /\ civil 18659 = {| d_year := 2021; d_month := 2; d_day := 1 |}.
Proof. vm_compute. repeat split; reflexivity. Qed.

(** The classes above and many more, also with both weekday and date restricted: the
    next execution is the earliest one if
    - there is one minute value, or every hour is listed;
    - there is one time of day, or nothing is left today, or today is a matching day;
    - the weekday list is not just today's weekday with nothing left today;
    - the next matching date can be reached without resetting the day of the month or
      advancing the year.
    Each condition matters, see the refutations below and C18. *)
Theorem C20_earliest_partial o s d from t : parse_timer s = Ret (Ok d) ->
  ((exists m0, td_minute d = [m0]) \/ (forall h, 0 <= h <= 23 -> In h (td_hour d))) ->
  ((exists h0 m0, td_hour d = [h0] /\ td_minute d = [m0]) \/ none_left_today (fixed o) d from \/ day_matches d (wall_day (fixed o) from)) ->
  (weekday_restricted d -> ~ (td_weekday d = [weekday (wall_day (fixed o) from)] /\ none_left_today (fixed o) d from)) ->
  (date_restricted d -> date_in_reach (fixed o) d from) ->
  next_execution (fixed o) d from = Ret t -> earliest (fixed o) d from t.
Proof. exact (fun Hp => earliest_in_reach o d from t (parse_timer_wf s d Hp)). Qed.
Print Assumptions C20_earliest_partial.

(** "0 0 12 * 5" from Tuesday 10 August 2021: both weekday and date are restricted.
    The 12th is a Thursday, so it comes before Friday. *)
Example C20_earliest_example :
  let d := {| td_minute := [0]; td_hour := [0]; td_day := [12]; td_month := zrange 1 12; td_weekday := [5] |} in
  let from := 18849 * 86400 * NS in
  parse_timer "0 0 12 * 5" = Ret (Ok d) /\ date_in_reach (fixed 0) d from /\
  next_execution (fixed 0) d from = Ret (18851 * 86400 * NS) /\ earliest (fixed 0) d from (18851 * 86400 * NS).
Proof.
  intros d from. assert (Hp : parse_timer "0 0 12 * 5" = Ret (Ok d)) by (vm_compute; reflexivity).
  assert (Hr : date_in_reach (fixed 0) d from).
  { exists 18851. split; [|split; [vm_compute; reflexivity|left; vm_compute; reflexivity]].
    replace (wall_day (fixed 0) from) with 18849 by (vm_compute; reflexivity).
    split; [split; [vm_compute; discriminate|intros _; vm_compute; reflexivity]|].
    split; [vm_compute; tauto|]. intros z' [Hz _] Hok.
    replace (wall_day (fixed 0) from) with 18849 in Hz by (vm_compute; reflexivity).
    destruct (Z_lt_ge_dec z' 18851); [exfalso|lia].
    assert (z' = 18849 \/ z' = 18850) as [-> | ->] by lia; vm_compute in Hok; lia. }
  assert (Hn : next_execution (fixed 0) d from = Ret (18851 * 86400 * NS)) by (vm_compute; reflexivity).
  split; [exact Hp|]. split; [exact Hr|]. split; [exact Hn|].
  refine (C20_earliest_partial 0 _ d from _ Hp (or_introl (ex_intro _ 0 eq_refl))
            (or_introl (ex_intro _ 0 (ex_intro _ 0 (conj eq_refl eq_refl)))) _ (fun _ => Hr) Hn).
  clear. intros _ [H _]. revert H. vm_compute. discriminate.
Qed.

(** From 15 December 2021, "0 0 1 * *" waits until 1 January 2023. *)
Theorem C20_year_skipped_refuted : exists s d from t t', parse_timer s = Ret (Ok d) /\
  next_execution (fixed 0) d from = Ret t /\ from < t' < t /\ due_at (fixed 0) d t'.
Proof.
  exists "0 0 1 * *", {| td_minute := [0]; td_hour := [0]; td_day := [1]; td_month := zrange 1 12; td_weekday := zrange 0 6 |},
    (18976 * 86400 * NS), (19358 * 86400 * NS), (18993 * 86400 * NS).
  split; [vm_compute; reflexivity|]. split; [vm_compute; reflexivity|]. split; [vm_compute; split; reflexivity|].
  apply due_fixed. exists 18993, 0, 0. split; [lia|]. split; [lia|]. split; [reflexivity|].
  split; [now left|]. split; [now left|].
  assert (Hd : forall P : Prop, weekday_restricted {| td_minute := [0]; td_hour := [0]; td_day := [1]; td_month := zrange 1 12; td_weekday := zrange 0 6 |} -> P).
  { intros P (x & Hx & Hn). exfalso. apply Hn. now apply zrange_In. }
  split; [intros Hw; now apply Hd|]. split; [|intros Hw; now apply Hd].
  intros _ _. vm_compute. tauto.
Qed.
Print Assumptions C20_year_skipped_refuted.

(** From Tuesday 06:00, "0 0,12 * * 1" skips Monday 00:00. *)
Theorem C20_hour_not_reset_refuted : exists s d from t t', parse_timer s = Ret (Ok d) /\
  next_execution (fixed 0) d from = Ret t /\ from < t' < t /\ due_at (fixed 0) d t'.
Proof.
  exists "0 0,12 * * 1", {| td_minute := [0]; td_hour := [0; 12]; td_day := zrange 1 31; td_month := zrange 1 12; td_weekday := [1] |},
    ((18688 * 86400 + 21600) * NS), ((18694 * 86400 + 43200) * NS), (18694 * 86400 * NS).
  split; [vm_compute; reflexivity|]. split; [vm_compute; reflexivity|]. split; [vm_compute; split; reflexivity|].
  apply due_fixed. exists 18694, 0, 0. split; [lia|]. split; [lia|]. split; [reflexivity|].
  split; [now left|]. split; [now left|].
  assert (Hd : forall P : Prop, date_restricted {| td_minute := [0]; td_hour := [0; 12]; td_day := zrange 1 31; td_month := zrange 1 12; td_weekday := [1] |} -> P).
  { intros P [(x & Hx & Hn)|(x & Hx & Hn)]; exfalso; apply Hn; now apply zrange_In. }
  split; [intros _ Hw; now apply Hd|]. split; [intros _ Hw; now apply Hd|].
  intros _ _. vm_compute. tauto.
Qed.
Print Assumptions C20_hour_not_reset_refuted.

(** From 10:20, "15,30 9,17 * * *" skips 17:15. *)
Theorem C20_minute_not_reset_refuted : exists s d from t t', parse_timer s = Ret (Ok d) /\
  next_execution (fixed 0) d from = Ret t /\ from < t' < t /\ due_at (fixed 0) d t'.
Proof.
  exists "15,30 9,17 * * *", {| td_minute := [15; 30]; td_hour := [9; 17]; td_day := zrange 1 31; td_month := zrange 1 12; td_weekday := zrange 0 6 |},
    ((18688 * 86400 + 37200) * NS), ((18688 * 86400 + 63000) * NS), ((18688 * 86400 + 62100) * NS).
  split; [vm_compute; reflexivity|]. split; [vm_compute; reflexivity|]. split; [vm_compute; split; reflexivity|].
  apply due_fixed. exists 18688, 17, 15. split; [lia|]. split; [lia|]. split; [reflexivity|].
  split; [right; now left|]. split; [now left|].
  assert (Hd : forall P : Prop, date_restricted {| td_minute := [15; 30]; td_hour := [9; 17]; td_day := zrange 1 31; td_month := zrange 1 12; td_weekday := zrange 0 6 |} -> P).
  { intros P [(x & Hx & Hn)|(x & Hx & Hn)]; exfalso; apply Hn; now apply zrange_In. }
  split; [intros _ Hw; now apply Hd|]. split; [intros _ Hw; now apply Hd|].
  intros (x & Hx & Hn). exfalso. apply Hn. now apply zrange_In.
Qed.
Print Assumptions C20_minute_not_reset_refuted.

(** From 10 February 2021, "0 0 1,20 1,3 *" skips 1 March. *)
Theorem C20_day_not_reset_refuted : exists s d from t t', parse_timer s = Ret (Ok d) /\
  next_execution (fixed 0) d from = Ret t /\ from < t' < t /\ due_at (fixed 0) d t'.
Proof.
  exists "0 0 1,20 1,3 *", {| td_minute := [0]; td_hour := [0]; td_day := [1; 20]; td_month := [1; 3]; td_weekday := zrange 0 6 |},
    (18668 * 86400 * NS), (18706 * 86400 * NS), (18687 * 86400 * NS).
  split; [vm_compute; reflexivity|]. split; [vm_compute; reflexivity|]. split; [vm_compute; split; reflexivity|].
  apply due_fixed. exists 18687, 0, 0. split; [lia|]. split; [lia|]. split; [reflexivity|].
  split; [now left|]. split; [now left|].
  assert (Hd : forall P : Prop, weekday_restricted {| td_minute := [0]; td_hour := [0]; td_day := [1; 20]; td_month := [1; 3]; td_weekday := zrange 0 6 |} -> P).
  { intros P (x & Hx & Hn). exfalso. apply Hn. now apply zrange_In. }
  split; [intros Hw; now apply Hd|]. split; [|intros Hw; now apply Hd].
  intros _ _. vm_compute. tauto.
Qed.
Print Assumptions C20_day_not_reset_refuted.

(** From 28 February 2021, "0 0 * 2 *" waits for the next 29 February and skips two
    whole months of daily executions. *)
Theorem C20_short_month_refuted : exists s d from t t', parse_timer s = Ret (Ok d) /\
  next_execution (fixed 0) d from = Ret t /\ from < t' < t /\ due_at (fixed 0) d t'.
Proof.
  exists "0 0 * 2 *", {| td_minute := [0]; td_hour := [0]; td_day := zrange 1 31; td_month := [2]; td_weekday := zrange 0 6 |},
    (18686 * 86400 * NS), (19782 * 86400 * NS), (19024 * 86400 * NS).
  split; [vm_compute; reflexivity|]. split; [vm_compute; reflexivity|]. split; [vm_compute; split; reflexivity|].
  apply due_fixed. exists 19024, 0, 0. split; [lia|]. split; [lia|]. split; [reflexivity|].
  split; [now left|]. split; [now left|].
  assert (Hd : forall P : Prop, weekday_restricted {| td_minute := [0]; td_hour := [0]; td_day := zrange 1 31; td_month := [2]; td_weekday := zrange 0 6 |} -> P).
  { intros P (x & Hx & Hn). exfalso. apply Hn. now apply zrange_In. }
  split; [intros Hw; now apply Hd|]. split; [|intros Hw; now apply Hd].
  intros _ _. vm_compute. tauto.
Qed.
Print Assumptions C20_short_month_refuted.

(** * C21: daylight saving gaps and folds *)
(** In any zone: the day [z] is the local day reached [n] times 24 hours after the
    start (a matching day, unless the offset changed the local date in between);
    the execution [t] is the first instant of the first existing local minute at or
    after [z], [h]:[m].  [k] counts the minutes that do not exist; chrono zones never
    have gaps of more than 15840 minutes. *)
Theorem C21_gap_and_fold tz s d from t :
  zone_ok tz -> parse_timer s = Ret (Ok d) -> next_execution tz d from = Ret t ->
  exists n z h m k u,
    0 <= n /\ z = wall_day tz (from + n * DAY * NS) /\
    In h (td_hour d) /\ In m (td_minute d) /\
    (z = wall_day tz from + n -> day_matches d z) /\
    0 <= k <= 15840 /\ t = u * NS /\
    u + z_off tz u = z * DAY + h * 3600 + m * 60 + 60 * k /\
    (forall u', u' + z_off tz u' = z * DAY + h * 3600 + m * 60 + 60 * k -> u <= u') /\
    (forall j, 0 <= j < k -> ~ exists_wall tz (z * DAY + h * 3600 + m * 60 + 60 * j)).
Proof. exact (fun Hz Hp => next_execution_zone tz d from t Hz (parse_timer_wf s d Hp)). Qed.
Print Assumptions C21_gap_and_fold.

(** Central Europe 2021: 28 March 02:00 jumps to 03:00, 31 October 03:00 falls back
    to 02:00.  "30 2 * * *" runs at 03:00 in March and at the first 02:30 in October. *)
Definition berlin : zone :=
  {| z_off := fun s => if (1616893200 <=? s) && (s <? 1635642000) then 7200 else 3600; z_offs := [3600; 7200] |}.
Definition half_past_two : timer_desc :=
  {| td_minute := [30]; td_hour := [2]; td_day := zrange 1 31; td_month := zrange 1 12; td_weekday := zrange 0 6 |}.
Example C21_example :
  zone_ok berlin /\
  next_execution berlin half_past_two ((1616893200 - 36000) * NS) = Ret (1616893200 * NS) /\
  next_execution berlin half_past_two ((1635642000 - 36000) * NS) = Ret ((1635642000 - 1800) * NS).
Proof.
  split; [|vm_compute; split; reflexivity].
  intros x. unfold berlin; cbn [z_off z_offs]. destruct (_ && _); cbn; tauto.
Qed.

(** * C22: the scheduler never loses or duplicates a job *)
Theorem C22_conservation tz config clock c nows c' ids :
  NoDup (map fst config) -> with_jobs tz config clock = Ret (Ok c) -> queries tz c nows = Ret (c', ids) ->
  Permutation (map snd (timer c')) (map fst config) /\
  forall id, In id (map fst config) ->
    exists t, cron_next c' id = Ret t /\ In (t, id) (timer c') /\ forall t', In (t', id) (timer c') -> t' = t.
Proof. exact (cron_conservation tz config clock c nows c' ids). Qed.
Print Assumptions C22_conservation.
(** Three jobs on the same instant, one query. *)
Example C22_example :
  let every := Some "* * * * *" in
  exists c c', with_jobs (fixed 0) [(0%nat, every); (2%nat, every); (5%nat, every)] [0; 1; 2] = Ret (Ok c) /\
    timer c = [(60 * NS, 0%nat); (60 * NS + 1, 2%nat); (60 * NS + 2, 5%nat)] /\
    queries (fixed 0) c [60 * NS; 61 * NS] = Ret (c', [0%nat; 2%nat]) /\
    timer c' = [(60 * NS + 2, 5%nat); (120 * NS, 0%nat); (120 * NS + 1, 2%nat)].
Proof. cbn zeta. do 2 eexists. split; [vm_compute; reflexivity|]. repeat split; vm_compute; reflexivity. Qed.

(** * C23: due-job queries *)
Theorem C23_query tz config clock c0 nows c ids now c' r :
  NoDup (map fst config) -> with_jobs tz config clock = Ret (Ok c0) -> queries tz c0 nows = Ret (c, ids) ->
  cron_pop tz c now = Ret (c', r) ->
  match r with
  | None => c' = c /\ forall t id, In (t, id) (timer c) -> now < t
  | Some id => exists t d u k,
      In (t, id) (timer c) /\ t <= now /\ (forall t' id', In (t', id') (timer c) -> t <= t') /\
      timer_of c id = Some d /\ next_execution tz d now = Ret u /\
      0 <= k < Z.of_nat (length config) /\
      (forall j, 0 <= j < k -> exists id', id' <> id /\ In (u + j, id') (timer c)) /\
      (forall t' id', In (t', id') (timer c') <-> (id' = id /\ t' = u + k) \/ (id' <> id /\ In (t', id') (timer c)))
  end.
Proof. exact (cron_query tz config clock c0 nows c ids now c' r). Qed.
Print Assumptions C23_query.

(** The timer of a job is the one its configuration describes. *)
Theorem C23_timer_of tz config clock c0 nows c ids id raw :
  NoDup (map fst config) -> with_jobs tz config clock = Ret (Ok c0) -> queries tz c0 nows = Ret (c, ids) ->
  In (id, Some raw) config -> exists d, timer_of c id = Some d /\ parse_timer raw = Ret (Ok d).
Proof. exact (cron_timer_of tz config clock c0 nows c ids id raw). Qed.
Print Assumptions C23_timer_of.

(** A query can only fail if computing a next execution does. *)
Theorem C23_query_total tz config clock c0 nows c ids now :
  NoDup (map fst config) -> with_jobs tz config clock = Ret (Ok c0) -> queries tz c0 nows = Ret (c, ids) ->
  (forall id raw d, In (id, Some raw) config -> parse_timer raw = Ret (Ok d) -> exists u, next_execution tz d now = Ret u) ->
  exists r, cron_pop tz c now = Ret r.
Proof. exact (cron_query_total tz config clock c0 nows c ids now). Qed.
Print Assumptions C23_query_total.

(** * C24: cron scheduling never starves the event loop *)
(** Within one minute of the wall clock no job is returned twice, so the loop that
    starts due jobs ends after at most as many rounds as there are jobs - as long as
    no job is in the situation of C18. *)
Theorem C24_once_per_minute_partial o config clock c0 before c ids0 nows c' ids M :
  NoDup (map fst config) -> with_jobs (fixed o) config clock = Ret (Ok c0) -> queries (fixed o) c0 before = Ret (c, ids0) ->
  Forall (fun now => (now / NS + o) / 60 = M /\
    forall id raw d, In (id, Some raw) config -> parse_timer raw = Ret (Ok d) ->
       ~ (td_weekday d = [weekday (wall_day (fixed o) now)] /\ none_left_today (fixed o) d now)) nows ->
  queries (fixed o) c nows = Ret (c', ids) -> NoDup ids /\ incl ids (map fst config).
Proof. exact (cron_once_per_minute o config clock c0 before c ids0 nows c' ids M). Qed.
Print Assumptions C24_once_per_minute_partial.

(** "30 12 * * 1": every query from Monday 12:30 to midnight returns the job, so the
    loop does not end before midnight, however many rounds it makes. *)
Theorem C24_starvation_refuted : exists s c,
  with_jobs (fixed 0) [(0%nat, Some s)] [(18687 * 86400 + 44940) * NS] = Ret (Ok c) /\
  forall nows, Forall (fun now => (18687 * 86400 + 45000) * NS <= now < 18688 * 86400 * NS) nows ->
    exists c', queries (fixed 0) c nows = Ret (c', map (fun _ => 0%nat) nows).
Proof.
  exists "30 12 * * 1". eexists. split; [vm_compute; reflexivity|]. exact livelock_monday.
Qed.
Print Assumptions C24_starvation_refuted.
