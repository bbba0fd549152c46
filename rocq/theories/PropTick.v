(** Properties C76 and C77: cronjobs run when their timers say so, and the status report
    shows when that is. *)
From stdpp Require Import gmap strings.
From Coq Require Import Ascii ZArith List Bool Lia.
From Verif Require Import Base RStr CronModel ConfigModel ProcessModel EnvModel DepModel NotifyModel ManagerModel SysModel MainModel
  SpecDep SpecMain SpecText SpecSched SpecRun SpecLive SpecTick CronParseProofs CronSchedProofs RunInv RunThms RunFinal RunExamples TickProofs.
Import ListNotations.
Local Open Scope string_scope.
Local Open Scope list_scope.
Local Open Scope Z_scope.

(** * C76: cronjobs run on time *)
(** Whenever cinit is about to wait for events after looking at the clock, it has tried
    every cronjob at or after every time of its timer that has passed by then (plus one
    nanosecond per other cronjob).  Missing from the full claim: timers whose next time is
    miscalculated (see C20 and [C76_missed_refuted]), and cinit not being there any more
    (see [C76_cronjobs_alone_refuted]). *)
Theorem C76_on_time_partial k e configs s now r s' o id d m : reachable k e configs s -> s_pc s = AtSpawnCron ->
  sstep e s (CSpawnCron now r) = Some s' -> s_pc s' = AtPoll -> m_zone k = fixed o -> timer_is configs id d -> plain_timer d ->
  due_at (fixed o) d m -> (forall x, In x (m_clock k) -> x < m) -> m + cron_count configs <= now + 1 ->
  exists h1 b ev h2, s_hist s' = h1 ++ EDue id b :: ev :: h2 /\ m <= b /\ tried configs h1 id ev.
Proof. exact (on_time k e configs s now r s' o id d m). Qed.
Print Assumptions C76_on_time_partial.

(** A cronjob that is due is dealt with at once, in one of four ways. *)
Theorem C76_every_due_job_tried k e configs s h1 id b h2 : reachable k e configs s -> s_hist s = h1 ++ EDue id b :: h2 ->
  exists ev h3, h2 = ev :: h3 /\ tried configs h1 id ev.
Proof. exact (fun R => all_answered k e configs s R h1 id b h2). Qed.
Print Assumptions C76_every_due_job_tried.

(** It is never due before a time of its timer. *)
Theorem C76_never_early k e configs s o h1 id b h2 : reachable k e configs s -> m_zone k = fixed o -> s_hist s = h1 ++ EDue id b :: h2 ->
  exists d b0 m, timer_is configs id d /\ last_reading (m_clock k) h1 id b0 /\ due_at (fixed o) d m /\ m <= b /\
    ((forall w, td_weekday d <> [w]) -> b0 < m).
Proof. exact (never_early k e configs s o h1 id b h2). Qed.
Print Assumptions C76_never_early.

(** It is not due twice for the same time.  Missing from the full claim: timers with
    exactly one weekday (see [C76_again_refuted]). *)
Theorem C76_once_per_time_partial k e configs s o h1 id b0 h2 b h3 d : reachable k e configs s -> m_zone k = fixed o ->
  s_hist s = h1 ++ EDue id b0 :: h2 ++ EDue id b :: h3 -> (forall b', ~ In (EDue id b') h2) ->
  timer_is configs id d -> (forall w, td_weekday d <> [w]) -> exists m, due_at (fixed o) d m /\ b0 < m <= b.
Proof. exact (own_time k e configs s o h1 id b0 h2 b h3 d). Qed.
Print Assumptions C76_once_per_time_partial.

(** cinit ends without a reason to shut down only after it has tried every other program
    whose dependencies are completed. *)
Theorem C76_leaves_last_partial k e configs s code : reachable k e configs s -> s_pc s = Finished code ->
  (forall ev, In ev (s_hist s) -> ~ shutdown_trigger ev) -> forall id, startable configs (s_hist s) id -> attempted (s_hist s) id.
Proof. exact (leaving k e configs s code). Qed.
Print Assumptions C76_leaves_last_partial.

(** "*/5 * * * *" after a oneshot: at 00:07 the run of 00:05 has been tried (and left
    out), at 00:15 the one of 00:10 has been started. *)
Definition fives : timer_desc :=
  {| td_minute := [0; 5; 10; 15; 20; 25; 30; 35; 40; 45; 50; 55]; td_hour := zrange 0 23; td_day := zrange 1 31; td_month := zrange 1 12; td_weekday := zrange 0 6 |}.
Lemma fives_is : timer_is timed_pair 1 fives.
Proof. apply timer_is_parse. exists (task "j" (CronJob "*/5 * * * *") [] ["a"]), "*/5 * * * *". split; [reflexivity|]. split; [reflexivity|]. vm_compute. reflexivity. Qed.
Lemma full_field lo hi : ~ restricted lo hi (zrange lo hi).
Proof. intros (x & Hx & N). apply N. now apply zrange_In. Qed.
Lemma fives_plain : plain_timer fives.
Proof.
  split; [intros [K|K]; exact (full_field _ _ K)|]. left. split; [intros K; exact (full_field _ _ K)|]. right. intros h K. now apply zrange_In.
Qed.
Lemma fives_due n : In n (td_minute fives) -> due_at (fixed 0) fives (minute n).
Proof.
  intros K. apply due_fixed. exists 18687, 0, n. split; [lia|]. split; [cbn in K; lia|]. split; [unfold minute, midnight, NS, DAY; lia|].
  split; [apply zrange_In; lia|]. split; [exact K|].
  split; [intros X; destruct (full_field _ _ X)|]. split; [intros _ [X|X]; destruct (full_field _ _ X)|intros X; destruct (full_field _ _ X)].
Qed.
Example C76_example : exists s s', reachable (demo_machine timed_pair) demo_env timed_pair s /\ s_pc s = AtSpawnCron /\
  sstep demo_env s (CSpawnCron (minute 7) ForkFailed) = Some s' /\ s_pc s' = AtPoll /\ timer_is timed_pair 1 fives /\ plain_timer fives /\
  due_at (fixed 0) fives (minute 5) /\ (forall x, In x (m_clock (demo_machine timed_pair)) -> x < minute 5) /\ minute 5 + 2 <= minute 7 /\
  s_hist s' = firstn 5 timed_history.
Proof.
  destruct (demo_state timed_pair (firstn 10 timed_ops) (firstn 5 timed_history) AtSpawnCron) as (s & D & H & P & R); [vm_compute; reflexivity|vm_compute; reflexivity|].
  destruct (demo_state timed_pair (firstn 11 timed_ops) (firstn 5 timed_history) AtPoll) as (s' & D' & H' & P' & _); [vm_compute; reflexivity|vm_compute; reflexivity|].
  rewrite timed_configs in R. exists s, s'. split; [exact R|]. split; [exact P|].
  split; [rewrite <- (demo_snoc _ _ _ _ D); exact D'|]. split; [exact P'|]. split; [exact fives_is|]. split; [exact fives_plain|].
  split; [apply fives_due; cbn; tauto|]. split; [|split; [vm_compute; discriminate|exact H']].
  intros x K. apply repeat_spec in K. subst x. reflexivity.
Qed.
Example C76_history_example : exists s h1 h2 h3, reachable (demo_machine timed_pair) demo_env timed_pair s /\
  s_hist s = h1 ++ EDue 1 (minute 10) :: h2 ++ EDue 1 (minute 15) :: h3 /\ (forall b, ~ In (EDue 1 b) h2) /\
  (forall w, td_weekday fives <> [w]) /\ tried timed_pair h1 1 (EStart 1 11) /\ last_reading (m_clock (demo_machine timed_pair)) h1 1 (minute 7).
Proof.
  destruct timed_state as (s & _ & H & _ & R). rewrite timed_configs in R.
  exists s, (firstn 8 timed_history), (firstn 3 (skipn 9 timed_history)), (skipn 13 timed_history).
  assert (E : s_hist s = firstn 8 timed_history ++ EDue 1 (minute 10) :: firstn 3 (skipn 9 timed_history) ++ EDue 1 (minute 15) :: skipn 13 timed_history) by (rewrite H; reflexivity).
  split; [exact R|]. split; [exact E|]. split; [intros b K; cbn in K; repeat (destruct K as [K|K]; [discriminate K|]); exact K|].
  split; [intros w; vm_compute; discriminate|]. split.
  - destruct (C76_every_due_job_tried _ _ _ _ _ _ _ _ R E) as (ev & h & X & T). cbn in X. inversion X; subst. exact T.
  - left. exists (firstn 3 timed_history), (firstn 4 (skipn 4 timed_history)). split; [reflexivity|].
    intros b K; cbn in K; repeat (destruct K as [K|K]; [discriminate K|]); exact K.
Qed.

(** With nothing but cronjobs cinit exits after its first look at the clock. *)
Theorem C76_cronjobs_alone_refuted : exists k e configs s, reachable k e configs s /\ configs = [task "j" (CronJob "*/5 * * * *") [] []] /\
  s_pc s = Finished 0 /\ s_hist s = [EExit 0].
Proof.
  set (programs := [task "j" (CronJob "*/5 * * * *") [] []]).
  set (ops := [CHead; CSpawnDep ForkFailed] ++ no_start ++ batch [] [] ++ [CHead; CHead]).
  destruct (demo_state programs ops [EExit 0] (Finished 0)) as (s & _ & H & P & R); [vm_compute; reflexivity|vm_compute; reflexivity|].
  replace (demo_configs programs) with programs in R by (vm_compute; reflexivity). eauto 10.
Qed.
Print Assumptions C76_cronjobs_alone_refuted.

(** "0 0,12 * * 2", read on a Monday at 00:00: one minute into Tuesday the run of 00:00 has
    not been tried, although cinit is there. *)
Definition noons : timer_desc :=
  {| td_minute := [0]; td_hour := [0; 12]; td_day := zrange 1 31; td_month := zrange 1 12; td_weekday := [2] |}.
Theorem C76_missed_refuted : exists k e configs s now r s' id d m, reachable k e configs s /\ s_pc s = AtSpawnCron /\
  sstep e s (CSpawnCron now r) = Some s' /\ s_pc s' = AtPoll /\ m_zone k = fixed 0 /\ timer_is configs id d /\ due_at (fixed 0) d m /\
  (forall x, In x (m_clock k) -> x < m) /\ m + cron_count configs <= now + 1 /\ forall b, ~ In (EDue id b) (s_hist s').
Proof.
  set (programs := [task "w" Oneshot [] []; task "j" (CronJob "0 0,12 * * 2") [] []]).
  set (ops := [CHead; CSpawnDep ForkFailed; CSpawnDep (fork 10 20 21); CSpawnDep ForkFailed]).
  set (h := [EStart 0 10; EOpen 20 0 true; EOpen 21 0 false]).
  destruct (demo_state programs ops h AtSpawnCron) as (s & D & H & P & R); [vm_compute; reflexivity|vm_compute; reflexivity|].
  destruct (demo_state programs (ops ++ [CSpawnCron (minute 1441) ForkFailed]) h AtPoll) as (s' & D' & H' & P' & _); [vm_compute; reflexivity|vm_compute; reflexivity|].
  replace (demo_configs programs) with programs in R by (vm_compute; reflexivity). rewrite (demo_snoc _ _ _ _ D) in D'.
  exists (demo_machine programs), demo_env, programs, s, (minute 1441), ForkFailed, s', 1%nat, noons, (minute 1440).
  split; [exact R|]. split; [exact P|]. split; [exact D'|]. split; [exact P'|]. split; [reflexivity|]. split; [|split; [|split; [|split]]].
  - apply timer_is_parse. exists (task "j" (CronJob "0 0,12 * * 2") [] []), "0 0,12 * * 2". split; [reflexivity|]. split; [reflexivity|]. vm_compute. reflexivity.
  - apply due_fixed. exists 18688, 0, 0. split; [lia|]. split; [lia|]. split; [vm_compute; reflexivity|]. split; [now left|]. split; [now left|].
    assert (N : ~ date_restricted noons) by (intros [X|X]; exact (full_field _ _ X)).
    split; [intros _ X; contradiction|]. split; [intros _ X; contradiction|]. intros _ _. vm_compute. tauto.
  - intros x K. apply repeat_spec in K. subst x. reflexivity.
  - vm_compute. discriminate.
  - rewrite H'. intros b K. cbn in K. repeat (destruct K as [K|K]; [discriminate K|]). exact K.
Qed.
Print Assumptions C76_missed_refuted.

(** "30 12 * * 1" on a Monday: due at 12:30 and again at 12:31, as often as cinit looks. *)
Theorem C76_again_refuted : exists k e configs s h1 id b0 b h3 d, reachable k e configs s /\ m_zone k = fixed 0 /\
  s_hist s = h1 ++ EDue id b0 :: ESkipped id :: EDue id b :: h3 /\ timer_is configs id d /\ forall m, due_at (fixed 0) d m -> ~ b0 < m <= b.
Proof.
  set (programs := [task "w" Oneshot [] []; task "j" (CronJob "30 12 * * 1") [] ["w"]]).
  set (ops := [CHead; CSpawnDep (fork 10 20 21); CSpawnDep ForkFailed; CSpawnCron (minute 750) ForkFailed; CSpawnCron (minute 751) ForkFailed]).
  set (h := [EStart 0 10; EOpen 20 0 true; EOpen 21 0 false]).
  destruct (demo_state programs ops (h ++ [EDue 1 (minute 750); ESkipped 1; EDue 1 (minute 751); ESkipped 1]) AtSpawnCron) as (s & D & H & P & R); [vm_compute; reflexivity|vm_compute; reflexivity|].
  replace (demo_configs programs) with programs in R by (vm_compute; reflexivity).
  exists (demo_machine programs), demo_env, programs, s, h, 1%nat, (minute 750), (minute 751), [ESkipped 1],
    {| td_minute := [30]; td_hour := [12]; td_day := zrange 1 31; td_month := zrange 1 12; td_weekday := [1] |}.
  split; [exact R|]. split; [reflexivity|]. split; [rewrite H; reflexivity|]. split.
  - apply timer_is_parse. exists (task "j" (CronJob "30 12 * * 1") [] ["w"]), "30 12 * * 1". split; [reflexivity|]. split; [reflexivity|]. vm_compute. reflexivity.
  - intros m K. apply due_fixed in K. destruct K as (z & hh & mi & _ & _ & -> & [<-|[]] & [<-|[]] & _). unfold minute, midnight, NS, DAY. lia.
Qed.
Print Assumptions C76_again_refuted.

(** * C77: when the next run is, in the status report *)
(** For every cronjob the report shows a time of its timer (plus less than one nanosecond
    per cronjob) that lies after the last decision about it; for plain timers it is the
    first one.  Missing from the full claim: the other timers, see C18 and C20. *)
Theorem C77_next_run_partial k e configs s rest s' o : reachable k e configs s -> m_zone k = fixed o ->
  s_pc s = AtEvents (EvIn (e_status e) :: rest) -> e_status e <> e_signal e -> sstep e s (CEvent (AAccept true)) = Some s' ->
  exists next, s_hist s' = s_hist s ++ [EReport (unlines ("programs:" :: flat_map (entry configs (s_hist s) (fun id => e_rfc3339 e (next id))) (seq 0 (length configs))))] /\
    forall id d, timer_is configs id d -> exists b m, last_reading (m_clock k) (s_hist s) id b /\ due_at (fixed o) d m /\
      m <= next id < m + cron_count configs /\ ((forall w, td_weekday d <> [w]) -> b < m) /\ (plain_timer d -> earliest (fixed o) d b m).
Proof. exact (reported_schedule k e configs s rest s' o). Qed.
Print Assumptions C77_next_run_partial.

(** Two cronjobs and a program: the second cronjob is shown one nanosecond later. *)
Definition twins : list proc_config :=
  [task "w" Oneshot [] []; task "i" (CronJob "*/5 * * * *") [] []; task "j" (CronJob "*/5 * * * *") [] []].
Definition twin_ops : list op :=
  [CHead; CSpawnDep ForkFailed; CSpawnDep ForkFailed; CSpawnDep (fork 10 20 21)] ++ no_start ++ [CPoll (Some [EvIn 4])].
Definition twin_report : string := unlines
  ["programs:"; "  - name: 'w'"; "    state: 'running'"; "    pid: 10";
   "  - name: 'i'"; "    state: 'sleeping'"; "    scheduled_at: '" +:+ show_Z (minute 5) +:+ "'";
   "  - name: 'j'"; "    state: 'sleeping'"; "    scheduled_at: '" +:+ show_Z (minute 5 + 1) +:+ "'"].
Example C77_example : exists s s', reachable (demo_machine twins) demo_env twins s /\ s_pc s = AtEvents [EvIn (e_status demo_env)] /\
  sstep demo_env s (CEvent (AAccept true)) = Some s' /\ s_hist s' = s_hist s ++ [EReport twin_report] /\ timer_is twins 2 fives /\ plain_timer fives /\
  m_zone (demo_machine twins) = fixed 0 /\ earliest (fixed 0) fives midnight (minute 5).
Proof.
  destruct (demo_state twins twin_ops [EStart 0 10; EOpen 20 0 true; EOpen 21 0 false] (AtEvents [EvIn 4])) as (s & D & H & P & R); [vm_compute; reflexivity|vm_compute; reflexivity|].
  destruct (demo_state twins (twin_ops ++ [CEvent (AAccept true)]) [EStart 0 10; EOpen 20 0 true; EOpen 21 0 false; EReport twin_report] (AtEvents [])) as (s' & D' & H' & _); [vm_compute; reflexivity|vm_compute; reflexivity|].
  replace (demo_configs twins) with twins in R by (vm_compute; reflexivity). rewrite (demo_snoc _ _ _ _ D) in D'. exists s, s'. rewrite H', H.
  split; [exact R|]. split; [exact P|]. split; [exact D'|]. split; [reflexivity|]. split.
  { apply timer_is_parse. exists (task "j" (CronJob "*/5 * * * *") [] []), "*/5 * * * *". split; [reflexivity|]. split; [reflexivity|]. vm_compute. reflexivity. }
  split; [exact fives_plain|]. split; [reflexivity|]. split; [vm_compute; reflexivity|]. split; [apply fives_due; cbn; tauto|].
  intros t L K. apply due_fixed in K. destruct K as (z & h & m & Hh & Hm & -> & _ & Im & _). unfold minute, midnight, NS, DAY in *. cbn in Im. lia.
Qed.

(** "0 0,12 * * 2", on a Monday: the report shows Tuesday 12:00 instead of Tuesday 00:00. *)
Definition wrong_report : string := unlines
  ["programs:"; "  - name: 'w'"; "    state: 'running'"; "    pid: 10";
   "  - name: 'j'"; "    state: 'sleeping'"; "    scheduled_at: '" +:+ show_Z (minute (1440 + 720)) +:+ "'"].
Theorem C77_wrong_time_refuted : exists k e configs s s', reachable k e configs s /\ s_pc s = AtEvents [EvIn (e_status e)] /\
  sstep e s (CEvent (AAccept true)) = Some s' /\ s_hist s' = s_hist s ++ [EReport wrong_report] /\ m_zone k = fixed 0 /\ timer_is configs 1 noons /\
  last_reading (m_clock k) (s_hist s) 1 midnight /\ due_at (fixed 0) noons (minute 1440) /\ midnight < minute 1440 < minute (1440 + 720).
Proof.
  set (programs := [task "w" Oneshot [] []; task "j" (CronJob "0 0,12 * * 2") [] []]).
  set (ops := [CHead; CSpawnDep ForkFailed; CSpawnDep (fork 10 20 21)] ++ no_start ++ [CPoll (Some [EvIn 4])]).
  set (h := [EStart 0 10; EOpen 20 0 true; EOpen 21 0 false]).
  destruct (demo_state programs ops h (AtEvents [EvIn 4])) as (s & D & H & P & R); [vm_compute; reflexivity|vm_compute; reflexivity|].
  destruct (demo_state programs (ops ++ [CEvent (AAccept true)]) (h ++ [EReport wrong_report]) (AtEvents [])) as (s' & D' & H' & _); [vm_compute; reflexivity|vm_compute; reflexivity|].
  replace (demo_configs programs) with programs in R by (vm_compute; reflexivity). rewrite (demo_snoc _ _ _ _ D) in D'.
  exists (demo_machine programs), demo_env, programs, s, s'. rewrite H', H.
  split; [exact R|]. split; [exact P|]. split; [exact D'|]. split; [reflexivity|]. split; [reflexivity|]. split; [|split; [|split]].
  - apply timer_is_parse. exists (task "j" (CronJob "0 0,12 * * 2") [] []), "0 0,12 * * 2". split; [reflexivity|]. split; [reflexivity|]. vm_compute. reflexivity.
  - right. split; [intros b K; cbn in K; repeat (destruct K as [K|K]; [discriminate K|]); exact K|left; reflexivity].
  - apply due_fixed. exists 18688, 0, 0. split; [lia|]. split; [lia|]. split; [vm_compute; reflexivity|]. split; [now left|]. split; [now left|].
    assert (N : ~ date_restricted noons) by (intros [X|X]; exact (full_field _ _ X)).
    split; [intros _ X; contradiction|]. split; [intros _ X; contradiction|]. intros _ _. vm_compute. tauto.
  - vm_compute. split; reflexivity.
Qed.
Print Assumptions C77_wrong_time_refuted.
