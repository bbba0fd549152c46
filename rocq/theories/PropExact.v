(** Properties C20, C76, C98 and C99: exactly when the next execution is the earliest one. *)
From stdpp Require Import gmap strings.
From Coq Require Import Ascii ZArith List Bool Lia.
From Verif Require Import Base RStr CronModel ConfigModel ProcessModel EnvModel DepModel NotifyModel ManagerModel SysModel MainModel
  SpecCron SpecCal SpecSched SpecDep SpecMain SpecTimer SpecRun SpecLive SpecTick SpecZone SpecExact CronParseProofs CronTextProofs CronNextProofs CronSchedProofs CronTimerProofs
  CronExactProofs CronExactZone CronBothZone RunInv RunThms RunFinal RunExamples PropCron PropTick PropZone TickProofs ZoneRun KeptRun MissedRun.
From Verif Require Import SpecZone.
Import ListNotations.
Local Open Scope string_scope.
Local Open Scope list_scope.
Local Open Scope Z_scope.

(** * C20: exactly when no execution is skipped *)
(** In a zone without changes of the clocks, for every expression and every starting
    instant: what is chosen is the earliest time exactly if today's weekday is not the only
    one of the list with nothing left today, the search for the date comes to the next
    matching date (or a matching weekday comes not later), and the hour and the minute are
    those of the first time of the day. *)
Theorem C20_exact o s d from t : parse_timer s = Ret (Ok d) -> next_execution (fixed o) d from = Ret t ->
  (earliest (fixed o) d from t <-> week_kept (fixed o) d from /\ date_kept (fixed o) d from /\ time_kept (fixed o) d from).
Proof. exact (fun Hp => earliest_iff o d from t (parse_timer_wf s d Hp)). Qed.
Print Assumptions C20_exact.

(** "15,45 9,17 * * *": at 9:20 the next execution is the earliest one, at 10:20 it is not. *)
Definition twice_a_day : timer_desc :=
  {| td_minute := [15; 45]; td_hour := [9; 17]; td_day := zrange 1 31; td_month := zrange 1 12; td_weekday := zrange 0 6 |}.
Lemma full_not_restricted lo hi : ~ restricted lo hi (zrange lo hi).
Proof. intros (x & Hx & N). apply N. apply zrange_In. exact Hx. Qed.
Lemma twice_days z : day_matches twice_a_day z.
Proof.
  split; [intros X; destruct (full_not_restricted _ _ X)|].
  split; [intros _ [X|X]; destruct (full_not_restricted _ _ X)|intros X; destruct (full_not_restricted _ _ X)].
Qed.
Lemma twice_dates from : date_kept (fixed 0) twice_a_day from.
Proof. intros [X|X]; destruct (full_not_restricted _ _ X). Qed.
Lemma twice_week from : week_kept (fixed 0) twice_a_day from.
Proof. intros [X _]. apply (f_equal (@List.length Z)) in X. change (7%nat = 1%nat) in X. discriminate X. Qed.

Example C20_exact_example :
  let at_ h m := (18642 * 86400 + h * 3600 + m * 60) * NS in
  parse_timer "15,45 9,17 * * *" = Ret (Ok twice_a_day) /\
  next_execution (fixed 0) twice_a_day (at_ 9 20) = Ret (at_ 9 45) /\ earliest (fixed 0) twice_a_day (at_ 9 20) (at_ 9 45) /\
  next_execution (fixed 0) twice_a_day (at_ 10 20) = Ret (at_ 17 45) /\ ~ earliest (fixed 0) twice_a_day (at_ 10 20) (at_ 17 45).
Proof.
  intros at_. assert (P : parse_timer "15,45 9,17 * * *" = Ret (Ok twice_a_day)) by (vm_compute; reflexivity).
  assert (N1 : next_execution (fixed 0) twice_a_day (at_ 9 20) = Ret (at_ 9 45)) by (vm_compute; reflexivity).
  assert (N2 : next_execution (fixed 0) twice_a_day (at_ 10 20) = Ret (at_ 17 45)) by (vm_compute; reflexivity).
  split; [exact P|]. split; [exact N1|]. split; [|split; [exact N2|]].
  - apply (C20_exact 0 _ _ _ _ P N1). split; [apply twice_week|]. split; [apply twice_dates|].
    split; [right; left; apply twice_days|]. intros m m' _ _ _. split; [apply twice_days|]. left. vm_compute. reflexivity.
  - intros E. apply (C20_exact 0 _ _ _ _ P N2) in E as (_ & _ & _ & T).
    destruct (T 15 45) as [_ [H|[H|[]]]]; [left; reflexivity|right; left; reflexivity| | |].
    + replace (wall_minute (fixed 0) (at_ 10 20)) with 20 by (vm_compute; reflexivity). lia.
    + vm_compute in H. discriminate H.
    + vm_compute in H. discriminate H.
Qed.

(** * C98: the same in zones with changing clocks, away from the changes *)
(** The first time at which the timer is due is chosen exactly under these conditions.
    Missing from the full claim of C98: changes of the clocks in between, and timers
    restricted by weekday and date. *)
Theorem C98_exact_partial tz o s d from t : sane tz -> parse_timer s = Ret (Ok d) -> one_rule d -> room from 4000 -> calm tz o from t ->
  earliest tz d from t ->
  (next_execution tz d from = Ret t <-> week_kept tz d from /\ date_kept tz d from /\ time_kept tz d from).
Proof. exact (fun Sa Hp => calm_exact tz o d from t Sa (parse_timer_wf s d Hp)). Qed.
Print Assumptions C98_exact_partial.

(** "0 0 1,15 1 *" on 10 January 2021: the next date, 15 January, is found. *)
Definition january : timer_desc :=
  {| td_minute := [0]; td_hour := [0]; td_day := [1; 15]; td_month := [1]; td_weekday := zrange 0 6 |}.
Example C98_exact_example :
  let from := 18637 * 86400 * NS in let t := 18642 * 86400 * NS in
  sane (fixed 0) /\ parse_timer "0 0 1,15 1 *" = Ret (Ok january) /\ one_rule january /\ room from 4000 /\ calm (fixed 0) 0 from t /\
  civil 18642 = {| d_year := 2021; d_month := 1; d_day := 15 |} /\
  earliest (fixed 0) january from t /\ next_execution (fixed 0) january from = Ret t /\ date_found (fixed 0) january from 18642.
Proof.
  intros from t. assert (P : parse_timer "0 0 1,15 1 *" = Ret (Ok january)) by (vm_compute; reflexivity).
  assert (N : next_execution (fixed 0) january from = Ret t) by (vm_compute; reflexivity).
  assert (F : date_found (fixed 0) january from 18642).
  { exists true, false, false. split.
    - split; [|reflexivity]. intros _ h m [<-|[]] [<-|[]]. vm_compute. discriminate.
    - split; [|split; [|discriminate]].
      + split; [right; left; vm_compute; reflexivity|].
        replace (d_day (civil (wall_day (fixed 0) from)) + 1) with 11 by (vm_compute; reflexivity).
        replace (d_day (civil 18642)) with 15 by (vm_compute; reflexivity). split; [lia|]. cbn. lia.
      + split; [left; vm_compute; reflexivity|].
        replace (d_month (civil (wall_day (fixed 0) from)) + 0) with 1 by (vm_compute; reflexivity).
        replace (d_month (civil 18642)) with 1 by (vm_compute; reflexivity). split; [lia|]. cbn. lia. }
  split; [split; [left; reflexivity|intros x; cbn; unfold DAY; lia]|]. split; [exact P|].
  split; [intros [X _]; destruct (full_not_restricted _ _ X)|]. split; [vm_compute; split; discriminate|].
  split; [intros x _; reflexivity|]. split; [vm_compute; reflexivity|]. split; [|split; [exact N|exact F]].
  apply (C20_exact 0 _ _ _ _ P N). split; [intros [X _]; apply (f_equal (@List.length Z)) in X; change (7%nat = 1%nat) in X; discriminate X|]. split.
  - intros _ z (A & O & M). left. replace z with 18642; [exact F|].
    assert (z <= 18642).
    { apply M; [|vm_compute; tauto]. split; [vm_compute; discriminate|intros _; vm_compute; reflexivity]. }
    destruct A as [A1 A2]. replace (wall_day (fixed 0) from) with 18637 in * by (vm_compute; reflexivity).
    destruct (Z.eq_dec z 18642) as [->|Ne]; [reflexivity|]. exfalso.
    assert (z = 18637 \/ z = 18638 \/ z = 18639 \/ z = 18640 \/ z = 18641) as [->|[->|[->|[->| ->]]]] by lia; vm_compute in O; lia.
  - split; [left; intros h m [<-|[]] [<-|[]]; vm_compute; discriminate|].
    intros m m' [<-|[]] [<-|[]]. lia.
Qed.

(** The same for all timers, given that a time is chosen at all. *)
Theorem C98_exact_any_partial tz o s d from t u : sane tz -> parse_timer s = Ret (Ok d) -> room from 4000 -> calm tz o from t ->
  earliest tz d from t -> next_execution tz d from = Ret u ->
  (u = t <-> week_kept tz d from /\ date_kept tz d from /\ time_kept tz d from).
Proof. exact (fun Sa Hp => calm_exact_any tz o d from t u Sa (parse_timer_wf s d Hp)). Qed.
Print Assumptions C98_exact_any_partial.

(** What is chosen, for all timers: it is a time of the timer, in the future except on its
    only weekday with no time left, and the earliest one exactly under the conditions.
    Missing from the full claim: changes of the clocks in between. *)
Theorem C98_chosen_partial tz o s d from t : sane tz -> parse_timer s = Ret (Ok d) -> room from 4000 -> calm tz o from (Z.max from t) ->
  next_execution tz d from = Ret t ->
  due_at tz d t /\ (from < t <-> week_kept tz d from) /\
  (earliest tz d from t <-> week_kept tz d from /\ date_kept tz d from /\ time_kept tz d from).
Proof. exact (fun Sa Hp => chosen_exact tz o d from t Sa (parse_timer_wf s d Hp)). Qed.
Print Assumptions C98_chosen_partial.

(** "0 0 12 * 5" in Berlin on Tuesday 10 August 2021: Thursday the 12th. *)
Example C98_chosen_example :
  let d := {| td_minute := [0]; td_hour := [0]; td_day := [12]; td_month := zrange 1 12; td_weekday := [5] |} in
  let from := (18849 * 86400 - 7200) * NS in let t := (18851 * 86400 - 7200) * NS in
  sane berlin /\ parse_timer "0 0 12 * 5" = Ret (Ok d) /\ room from 4000 /\ calm berlin 7200 from (Z.max from t) /\
  next_execution berlin d from = Ret t /\ due_at berlin d t /\ from < t.
Proof.
  intros d from t. assert (P : parse_timer "0 0 12 * 5" = Ret (Ok d)) by (vm_compute; reflexivity).
  assert (R : room from 4000) by (vm_compute; split; discriminate).
  assert (C : calm berlin 7200 from (Z.max from t)).
  { intros x K. unfold from, t in K. rewrite Z.max_r in K by (vm_compute; discriminate).
    rewrite !Z.div_mul in K by (unfold NS; lia). unfold DAY in K. unfold berlin; cbn [z_off].
    destruct (Z.leb_spec 1616893200 x); [|lia]. destruct (Z.ltb_spec x 1635642000); [reflexivity|lia]. }
  assert (N : next_execution berlin d from = Ret t) by (vm_compute; reflexivity).
  split; [exact berlin_sane|]. split; [exact P|]. split; [exact R|]. split; [exact C|]. split; [exact N|].
  destruct (C98_chosen_partial berlin 7200 _ d from t berlin_sane P R C N) as (D & F & _). split; [exact D|].
  apply F. intros [X _]. vm_compute in X. discriminate X.
Qed.

(** * C76 and C99: cronjobs with any timer run on time *)
(** As [C76_on_time_partial] for all timers, if the conditions hold at the reading of the
    clock at which the next run was last decided.  Missing from the full claim: readings at
    which they do not hold (see [C20_exact] and [C76_missed_refuted]), and cinit not being
    there any more. *)
Theorem C76_any_on_time_partial k e configs s now r s' o id d m : reachable k e configs s -> s_pc s = AtSpawnCron ->
  sstep e s (CSpawnCron now r) = Some s' -> s_pc s' = AtPoll -> m_zone k = fixed o -> timer_is configs id d ->
  due_at (fixed o) d m -> (forall x, In x (m_clock k) -> x < m) -> m + cron_count configs <= now + 1 ->
  (forall b, last_reading (m_clock k) (s_hist s) id b -> b < m -> week_kept (fixed o) d b /\ date_kept (fixed o) d b /\ time_kept (fixed o) d b) ->
  exists h1 b ev h2, s_hist s' = h1 ++ EDue id b :: ev :: h2 /\ m <= b /\ tried configs h1 id ev.
Proof. exact (any_on_time k e configs s now r s' o id d m). Qed.
Print Assumptions C76_any_on_time_partial.

Theorem C99_any_on_time_partial k e configs s now r s' o id d m : reachable k e configs s -> s_pc s = AtSpawnCron ->
  sstep e s (CSpawnCron now r) = Some s' -> s_pc s' = AtPoll -> sane (m_zone k) -> timer_is configs id d ->
  due_at (m_zone k) d m -> (forall x, In x (m_clock k) -> x < m) -> m + cron_count configs <= now + 1 ->
  (forall b, last_reading (m_clock k) (s_hist s) id b -> b < m -> calm (m_zone k) o b m /\ room b 4000 /\
     week_kept (m_zone k) d b /\ date_kept (m_zone k) d b /\ time_kept (m_zone k) d b) ->
  exists h1 b ev h2, s_hist s' = h1 ++ EDue id b :: ev :: h2 /\ m <= b /\ tried configs h1 id ev.
Proof. exact (any_on_time_zone k e configs s now r s' o id d m). Qed.
Print Assumptions C99_any_on_time_partial.

(** Whatever the timer: a cronjob that is due has passed a time of its timer, which lies
    after the last reading and is the first one after it exactly under the conditions. *)
Theorem C99_any_never_early_partial k e configs s o h1 id b h2 : reachable k e configs s -> sane (m_zone k) -> s_hist s = h1 ++ EDue id b :: h2 ->
  (forall b0, last_reading (m_clock k) h1 id b0 -> calm (m_zone k) o b0 (Z.max b0 b) /\ room b0 4000) ->
  exists d b0 m, timer_is configs id d /\ last_reading (m_clock k) h1 id b0 /\ due_at (m_zone k) d m /\ m <= b /\
    (b0 < m <-> week_kept (m_zone k) d b0) /\
    (earliest (m_zone k) d b0 m <-> week_kept (m_zone k) d b0 /\ date_kept (m_zone k) d b0 /\ time_kept (m_zone k) d b0).
Proof. exact (any_never_early k e configs s o h1 id b h2). Qed.
Print Assumptions C99_any_never_early_partial.

(** "0,30 0,12 * * *" (two minutes, not every hour), read at 00:00: at 00:31 the run of
    00:30 has been tried. *)
Definition halves : timer_desc :=
  {| td_minute := [0; 30]; td_hour := [0; 12]; td_day := zrange 1 31; td_month := zrange 1 12; td_weekday := zrange 0 6 |}.
Definition halves_programs : list proc_config := [task "w" Oneshot [] []; task "j" (CronJob "0,30 0,12 * * *") [] ["w"]].
Example C76_any_example : exists s s' h, reachable (demo_machine halves_programs) demo_env halves_programs s /\ s_pc s = AtSpawnCron /\
  sstep demo_env s (CSpawnCron (RunExamples.minute 31) ForkFailed) = Some s' /\ s_pc s' = AtPoll /\ timer_is halves_programs 1 halves /\ ~ plain_timer halves /\
  due_at (fixed 0) halves (RunExamples.minute 30) /\ (forall x, In x (m_clock (demo_machine halves_programs)) -> x < RunExamples.minute 30) /\
  RunExamples.minute 30 + cron_count halves_programs <= RunExamples.minute 31 + 1 /\
  (forall b, (In b (m_clock (demo_machine halves_programs)) \/ In (EDue 1 b) (s_hist s)) -> b < RunExamples.minute 30 ->
     calm (fixed 0) 0 b (RunExamples.minute 30) /\ room b 4000 /\
     week_kept (fixed 0) halves b /\ date_kept (fixed 0) halves b /\ time_kept (fixed 0) halves b) /\
  s_hist s' = h ++ [EDue 1 (RunExamples.minute 31); ESkipped 1].
Proof.
  assert (Days : forall z, day_matches halves z).
  { intros z. split; [intros X; destruct (full_not_restricted _ _ X)|].
    split; [intros _ [X|X]; destruct (full_not_restricted _ _ X)|intros X; destruct (full_not_restricted _ _ X)]. }
  set (ops := [CHead; CSpawnDep (fork 10 20 21); CSpawnDep ForkFailed; CSpawnCron (RunExamples.minute 31) ForkFailed]).
  set (h := [EStart 0 10; EOpen 20 0 true; EOpen 21 0 false]).
  destruct (demo_state halves_programs ops (h ++ [EDue 1 (RunExamples.minute 31); ESkipped 1]) AtSpawnCron) as (s & D & H & P & R); [vm_compute; reflexivity|vm_compute; reflexivity|].
  destruct (demo_state halves_programs (ops ++ [CSpawnCron (RunExamples.minute 31) ForkFailed]) (h ++ [EDue 1 (RunExamples.minute 31); ESkipped 1]) AtPoll) as (s' & D' & H' & P' & _); [vm_compute; reflexivity|vm_compute; reflexivity|].
  replace (demo_configs halves_programs) with halves_programs in R by (vm_compute; reflexivity). rewrite (demo_snoc _ _ _ _ D) in D'.
  exists s, s', h. split; [exact R|]. split; [exact P|]. split; [exact D'|]. split; [exact P'|]. split; [|split; [|split; [|split; [|split; [|split]]]]].
  - apply timer_is_parse. exists (task "j" (CronJob "0,30 0,12 * * *") [] ["w"]), "0,30 0,12 * * *". split; [reflexivity|]. split; [reflexivity|]. vm_compute. reflexivity.
  - intros (_ & [(_ & [(m & X)|X])|(X & _)]); [discriminate X| |destruct (full_not_restricted _ _ X)]. specialize (X 5 ltac:(lia)). cbn in X. lia.
  - apply due_fixed. exists 18687, 0, 30. split; [lia|]. split; [lia|]. split; [vm_compute; reflexivity|]. split; [now left|]. split; [right; now left|apply Days].
  - intros x K. apply repeat_spec in K. subst x. reflexivity.
  - vm_compute. discriminate.
  - intros b B L. assert (b = midnight) as ->.
    { destruct B as [B|B]; [apply repeat_spec in B; exact B|]. rewrite H in B. cbn in B. repeat (destruct B as [B|B]; [try discriminate B|]); [|destruct B].
      injection B as <-. exfalso. revert L. vm_compute. discriminate. }
    split; [intros x _; reflexivity|]. split; [vm_compute; split; discriminate|].
    split; [intros [X _]; apply (f_equal (@List.length Z)) in X; change (7%nat = 1%nat) in X; discriminate X|].
    split; [intros [X|X]; destruct (full_not_restricted _ _ X)|]. split; [right; left; apply Days|].
    intros m m' _ _ _. split; [apply Days|]. left. vm_compute. reflexivity.
  - exact H'.
Qed.

(** * C76: runs that are left out, and runs that are too many *)
(** If the other two conditions fail at a reading of the clock, then the first time after it
    is left out: the job is not looked at again before a later time of its timer has come. *)
Theorem C76_left_out k e configs s o h1 id b0 h2 b h3 d : reachable k e configs s -> m_zone k = fixed o ->
  s_hist s = h1 ++ EDue id b0 :: h2 ++ EDue id b :: h3 -> (forall b', ~ In (EDue id b') h2) -> timer_is configs id d ->
  week_kept (fixed o) d b0 -> ~ (date_kept (fixed o) d b0 /\ time_kept (fixed o) d b0) ->
  exists t m, earliest (fixed o) d b0 t /\ due_at (fixed o) d m /\ t < m <= b.
Proof. exact (left_out k e configs s o h1 id b0 h2 b h3 d). Qed.
Print Assumptions C76_left_out.

(** The same in zones with changing clocks, away from the changes. *)
Theorem C99_left_out_partial k e configs s o h1 id b0 h2 b h3 d : reachable k e configs s -> sane (m_zone k) ->
  s_hist s = h1 ++ EDue id b0 :: h2 ++ EDue id b :: h3 -> (forall b', ~ In (EDue id b') h2) -> timer_is configs id d ->
  calm (m_zone k) o b0 (Z.max b0 b) -> room b0 4000 ->
  week_kept (m_zone k) d b0 -> ~ (date_kept (m_zone k) d b0 /\ time_kept (m_zone k) d b0) ->
  exists t m, earliest (m_zone k) d b0 t /\ due_at (m_zone k) d m /\ t < m <= b.
Proof. exact (left_out_zone k e configs s o h1 id b0 h2 b h3 d). Qed.
Print Assumptions C99_left_out_partial.

(** If the first condition fails, cinit does not come to wait: some cronjob is tried at once. *)
Theorem C76_at_once k e configs s now r s' o h1 id b0 h2 d : reachable k e configs s -> s_pc s = AtSpawnCron ->
  sstep e s (CSpawnCron now r) = Some s' -> m_zone k = fixed o -> s_hist s = h1 ++ EDue id b0 :: h2 -> (forall b', ~ In (EDue id b') h2) ->
  timer_is configs id d -> ~ week_kept (fixed o) d b0 -> b0 + cron_count configs <= now + 1 ->
  panicked s' \/ s_pc s' = AtSpawnCron /\ exists i ev, s_hist s' = s_hist s ++ EDue i now :: ev.
Proof. exact (at_once k e configs s now r s' o h1 id b0 h2 d). Qed.
Print Assumptions C76_at_once.

(** With a single weekday listed, once the last time of that day has been dealt with, cinit
    does nothing but try cronjobs until midnight, whatever happens around it. *)
Theorem C76_held k e configs s id d o z lo : reachable k e configs s -> s_pc s = AtSpawnCron -> m_zone k = fixed o -> timer_is configs id d ->
  td_weekday d = [weekday z] -> (z * DAY - o) * NS <= lo ->
  (forall h m, In h (td_hour d) -> In m (td_minute d) -> (z * DAY + h * 3600 + m * 60 - o) * NS + cron_count configs <= lo + 1) ->
  (forall i q now, timer_is configs i q -> lo <= now < ((z + 1) * DAY - o) * NS -> exists u, next_execution (fixed o) q now = Ret u) ->
  (exists b, last_reading [] (s_hist s) id b /\ lo <= b < ((z + 1) * DAY - o) * NS) ->
  forall ops s', execute e s ops = Some s' -> (forall now r, In (CSpawnCron now r) ops -> lo <= now < ((z + 1) * DAY - o) * NS) ->
  s_pc s' = AtSpawnCron /\ forall now, exists s'', sstep e s' (CSpawnCron now ForkFailed) = Some s''.
Proof. exact (held_weekday k e configs s id d o z lo). Qed.
Print Assumptions C76_held.

(** "15,45 9,17 * * *", looked at at 10:20 and then at 17:45: 17:15 is left out. *)
Definition twice_programs : list proc_config := [task "w" Oneshot [] []; task "j" (CronJob "15,45 9,17 * * *") [] ["w"]].
Example C76_left_out_example : exists s h, reachable (demo_machine twice_programs) demo_env twice_programs s /\
  s_hist s = h ++ EDue 1 (RunExamples.minute 620) :: [ESkipped 1] ++ EDue 1 (RunExamples.minute 1065) :: [ESkipped 1] /\ timer_is twice_programs 1 twice_a_day /\
  week_kept (fixed 0) twice_a_day (RunExamples.minute 620) /\
  ~ (date_kept (fixed 0) twice_a_day (RunExamples.minute 620) /\ time_kept (fixed 0) twice_a_day (RunExamples.minute 620)) /\
  due_at (fixed 0) twice_a_day (RunExamples.minute 1035).
Proof.
  set (ops := [CHead; CSpawnDep (fork 10 20 21); CSpawnDep ForkFailed; CSpawnCron (RunExamples.minute 620) ForkFailed; CSpawnCron (RunExamples.minute 1065) ForkFailed]).
  set (h := [EStart 0 10; EOpen 20 0 true; EOpen 21 0 false]).
  destruct (demo_state twice_programs ops (h ++ [EDue 1 (RunExamples.minute 620); ESkipped 1; EDue 1 (RunExamples.minute 1065); ESkipped 1]) AtSpawnCron) as (s & D & H & P & R); [vm_compute; reflexivity|vm_compute; reflexivity|].
  replace (demo_configs twice_programs) with twice_programs in R by (vm_compute; reflexivity).
  exists s, h. split; [exact R|]. split; [rewrite H; reflexivity|]. split; [|split; [apply twice_week|split]].
  - apply timer_is_parse. exists (task "j" (CronJob "15,45 9,17 * * *") [] ["w"]), "15,45 9,17 * * *". split; [reflexivity|]. split; [reflexivity|]. vm_compute. reflexivity.
  - intros (_ & _ & T). destruct (T 15 45) as [_ [X|[X|[]]]]; [left; reflexivity|right; left; reflexivity| | |].
    + replace (wall_minute (fixed 0) (RunExamples.minute 620)) with 20 by (vm_compute; reflexivity). lia.
    + vm_compute in X. discriminate X.
    + vm_compute in X. discriminate X.
  - apply due_fixed. exists 18687, 17, 15. split; [lia|]. split; [lia|]. split; [vm_compute; reflexivity|]. split; [right; now left|]. split; [now left|apply twice_days].
Qed.

(** "30 12 * * 1" on a Monday, from 12:30 on. *)
Definition mondays : timer_desc :=
  {| td_minute := [30]; td_hour := [12]; td_day := zrange 1 31; td_month := zrange 1 12; td_weekday := [1] |}.
Definition monday_programs : list proc_config := [task "w" Oneshot [] []; task "j" (CronJob "30 12 * * 1") [] ["w"]].
Example C76_held_example : exists s h, reachable (demo_machine monday_programs) demo_env monday_programs s /\ s_pc s = AtSpawnCron /\
  s_hist s = h ++ EDue 1 (RunExamples.minute 750) :: [ESkipped 1] /\ timer_is monday_programs 1 mondays /\ td_weekday mondays = [weekday 18687] /\
  ~ week_kept (fixed 0) mondays (RunExamples.minute 750) /\
  (18687 * DAY - 0) * NS <= RunExamples.minute 750 /\
  (forall hh m, In hh (td_hour mondays) -> In m (td_minute mondays) -> (18687 * DAY + hh * 3600 + m * 60 - 0) * NS + cron_count monday_programs <= RunExamples.minute 750 + 1) /\
  (forall i q now, timer_is monday_programs i q -> RunExamples.minute 750 <= now < ((18687 + 1) * DAY - 0) * NS -> exists u, next_execution (fixed 0) q now = Ret u) /\
  last_reading [] (s_hist s) 1 (RunExamples.minute 750).
Proof.
  set (ops := [CHead; CSpawnDep (fork 10 20 21); CSpawnDep ForkFailed; CSpawnCron (RunExamples.minute 750) ForkFailed]).
  set (h := [EStart 0 10; EOpen 20 0 true; EOpen 21 0 false]).
  destruct (demo_state monday_programs ops (h ++ [EDue 1 (RunExamples.minute 750); ESkipped 1]) AtSpawnCron) as (s & D & H & P & R); [vm_compute; reflexivity|vm_compute; reflexivity|].
  replace (demo_configs monday_programs) with monday_programs in R by (vm_compute; reflexivity).
  assert (Pt : parse_timer "30 12 * * 1" = Ret (Ok mondays)) by (vm_compute; reflexivity).
  exists s, h. split; [exact R|]. split; [exact P|]. split; [rewrite H; reflexivity|]. split.
  { apply timer_is_parse. exists (task "j" (CronJob "30 12 * * 1") [] ["w"]), "30 12 * * 1". split; [reflexivity|]. split; [reflexivity|exact Pt]. }
  split; [vm_compute; reflexivity|]. split.
  { intros W. apply W. split; [vm_compute; reflexivity|]. intros hh m [<-|[]] [<-|[]]. vm_compute. discriminate. }
  split; [vm_compute; discriminate|]. split; [intros hh m [<-|[]] [<-|[]]; vm_compute; discriminate|]. split.
  - intros i q now T B. apply timer_is_parse in T as (c & text & Hc & Ty & Hp).
    assert (q = mondays) as ->.
    { destruct i as [|[|i]]; cbn in Hc; [injection Hc as <-; discriminate Ty|injection Hc as <-; injection Ty as <-; congruence|destruct i; discriminate Hc]. }
    apply next_execution_exists_iff; [exact (parse_timer_wf _ _ Pt)|unfold DAY; lia| |intros [X|X]; destruct (full_not_restricted _ _ X)].
    assert (0 <= now / NS <= 18688 * DAY).
    { unfold RunExamples.minute, midnight in B. split; [apply Z.div_pos; unfold NS in *; lia|]. apply Z.div_le_upper_bound; unfold NS, DAY in *; lia. }
    unfold room, MIN_SEC, MAX_SEC, DAY in *. lia.
  - left. exists h, [ESkipped 1]. split; [rewrite H; reflexivity|]. intros b' [K|[]]. discriminate K.
Qed.

(** * C77: what the report says, for any timer *)
(** As [C77_next_run_partial], for all timers: exactly when the time shown lies in the
    future and exactly when it is the next time of the timer.  Missing from the full claim:
    readings at which the conditions do not hold.  (An execution with a report: [twins] in
    PropTick.) *)
Theorem C77_any_next_run_partial k e configs s rest s' o : reachable k e configs s -> m_zone k = fixed o ->
  s_pc s = AtEvents (EvIn (e_status e) :: rest) -> e_status e <> e_signal e -> sstep e s (CEvent (AAccept true)) = Some s' ->
  exists next, s_hist s' = s_hist s ++ [EReport (unlines ("programs:" :: flat_map (entry configs (s_hist s) (fun id => e_rfc3339 e (next id))) (seq 0 (length configs))))] /\
    forall id d, timer_is configs id d -> exists b m, last_reading (m_clock k) (s_hist s) id b /\ due_at (fixed o) d m /\
      m <= next id < m + cron_count configs /\ (b < m <-> week_kept (fixed o) d b) /\
      (earliest (fixed o) d b m <-> week_kept (fixed o) d b /\ date_kept (fixed o) d b /\ time_kept (fixed o) d b).
Proof. exact (reported_exact k e configs s rest s' o). Qed.
Print Assumptions C77_any_next_run_partial.
