(** Properties C98 and C99: cronjobs across changes of the clocks. *)
From stdpp Require Import gmap strings.
From Coq Require Import Ascii ZArith List Bool Lia.
From Verif Require Import Base RStr CronModel ConfigModel ProcessModel EnvModel DepModel NotifyModel ManagerModel SysModel MainModel
  SpecDep SpecMain SpecText SpecCal SpecSched SpecRun SpecLive SpecTick SpecZone CronParseProofs CronTextProofs CronNextProofs CronSchedProofs CronTimerProofs
  MainProofs DepProofs RunInv RunThms RunFinal PropCron PropDep PropMain RunExamples PropTick TickProofs ZoneProofs ZoneRun.
From Verif Require Import SpecZone.
Import ListNotations.
Local Open Scope string_scope.
Local Open Scope list_scope.
Local Open Scope Z_scope.
Ltac Zify.zify_post_hook ::= Z.div_mod_to_equations.

(** * C98: the time of the next run in zones with changing clocks *)
(** If the clocks do not change between three days before now and three days after the
    first time at which the timer is due, that time is chosen, under the conditions of
    [C20_earliest_partial].  Missing from the full claim: changes of the clocks in between
    (see the refutations), and timers restricted by weekday and date. *)
Theorem C98_next_partial tz o s d from t : sane tz -> parse_timer s = Ret (Ok d) -> one_rule d -> room from 4000 -> calm tz o from t ->
  ((exists m0, td_minute d = [m0]) \/ (forall h, 0 <= h <= 23 -> In h (td_hour d))) ->
  ((exists h0 m0, td_hour d = [h0] /\ td_minute d = [m0]) \/ none_left_today tz d from \/ day_matches d (wall_day tz from)) ->
  (weekday_restricted d -> ~ (td_weekday d = [weekday (wall_day tz from)] /\ none_left_today tz d from)) ->
  (date_restricted d -> date_in_reach tz d from) ->
  earliest tz d from t -> next_execution tz d from = Ret t.
Proof. exact (fun Sa Hp => calm_next tz o d from t Sa (parse_timer_wf s d Hp)). Qed.
Print Assumptions C98_next_partial.

(** Without such conditions on the timer: what is chosen is a time of the timer, and it is
    in the future except on the only weekday of the timer with no time left that day. *)
Theorem C98_matches_partial tz o s d from t : sane tz -> parse_timer s = Ret (Ok d) -> one_rule d -> MIN_SEC <= from / NS ->
  calm tz o from (Z.max from t) -> next_execution tz d from = Ret t ->
  due_at tz d t /\ (from < t <-> ~ (td_weekday d = [weekday (wall_day tz from)] /\ none_left_today tz d from)).
Proof. exact (fun Sa Hp => calm_matches tz o d from t Sa (parse_timer_wf s d Hp)). Qed.
Print Assumptions C98_matches_partial.

Lemma berlin_sane : sane berlin.
Proof.
  split; [intros x|intros x]; unfold berlin; cbn [z_off z_offs]; destruct (_ && _); cbn; unfold DAY; auto; lia.
Qed.
(** "30 23 * * *": daily at 23:30 *)
Definition daily (h m : Z) : timer_desc :=
  {| td_minute := [m]; td_hour := [h]; td_day := zrange 1 31; td_month := zrange 1 12; td_weekday := zrange 0 6 |}.
Lemma daily_plain h m : plain_timer (daily h m).
Proof. split; [intros [K|K]; exact (full_field _ _ K)|]. left. split; [intros K; exact (full_field _ _ K)|]. left. exists m. reflexivity. Qed.
Lemma daily_days h m z : day_matches (daily h m) z.
Proof.
  split; [intros X; destruct (full_field _ _ X)|]. split; [intros _ [X|X]; destruct (full_field _ _ X)|intros X; destruct (full_field _ _ X)].
Qed.
Lemma berlin_due h m t z : at_wall berlin t z h m -> due_at berlin (daily h m) t.
Proof. intros A. exists z, h, m. split; [exact A|]. split; [now left|]. split; [now left|apply daily_days]. Qed.

(** 23:30 on 1 July 2021 in Berlin, asked on that day at 12:00. *)
Example C98_example :
  let from := (18809 * 86400 + 36000) * NS in let t := (18809 * 86400 + 77400) * NS in
  sane berlin /\ parse_timer "30 23 * * *" = Ret (Ok (daily 23 30)) /\ one_rule (daily 23 30) /\ room from 4000 /\ calm berlin 7200 from t /\
  calm berlin 7200 from (Z.max from t) /\ earliest berlin (daily 23 30) from t /\ next_execution berlin (daily 23 30) from = Ret t.
Proof.
  cbv zeta. assert (C : calm berlin 7200 ((18809 * 86400 + 36000) * NS) ((18809 * 86400 + 77400) * NS)).
  { intros x K. rewrite !Z.div_mul in K by (unfold NS; lia). unfold DAY in K. unfold berlin; cbn [z_off].
    destruct (Z.leb_spec 1616893200 x); [|lia]. destruct (Z.ltb_spec x 1635642000); [reflexivity|lia]. }
  split; [exact berlin_sane|]. split; [vm_compute; reflexivity|]. split; [apply plain_one_rule, daily_plain|]. split; [vm_compute; split; discriminate|].
  split; [exact C|]. split; [exact C|]. split; [|vm_compute; reflexivity].
  apply (calm_earliest berlin 7200 _ _ _ _ C); [reflexivity|].
  apply (plain_earliest 7200 "30 23 * * *"); [vm_compute; reflexivity|apply daily_plain|vm_compute; reflexivity].
Qed.

(** "30 23 * * *" at 23:30 on the day before the clocks go forward: the next run is two
    days later, the one of the next day is left out. *)
Theorem C98_skipped_refuted : exists tz s d from t t', sane tz /\ parse_timer s = Ret (Ok d) /\ plain_timer d /\
  next_execution tz d from = Ret t /\ from < t' /\ due_at tz d t' /\ t' + 86400 * NS <= t.
Proof.
  exists berlin, "30 23 * * *", (daily 23 30), (1616884200 * NS), (1617053400 * NS), (1616967000 * NS).
  split; [exact berlin_sane|]. split; [vm_compute; reflexivity|]. split; [apply daily_plain|]. split; [vm_compute; reflexivity|]. split; [reflexivity|].
  split; [|vm_compute; discriminate]. apply (berlin_due 23 30 _ 18714). vm_compute. repeat split; discriminate.
Qed.
Print Assumptions C98_skipped_refuted.

(** "30 0 * * *" at 00:30 on the day on which the clocks go back: the next run is now. *)
Theorem C98_now_refuted : exists tz s d from, sane tz /\ parse_timer s = Ret (Ok d) /\ plain_timer d /\ next_execution tz d from = Ret from.
Proof.
  exists berlin, "30 0 * * *", (daily 0 30), (1635633000 * NS).
  split; [exact berlin_sane|]. split; [vm_compute; reflexivity|]. split; [apply daily_plain|]. vm_compute. reflexivity.
Qed.
Print Assumptions C98_now_refuted.

(** "30 0 * * 1,2" on the Tuesday before: the next run is on Sunday, which is neither a
    Monday nor a Tuesday. *)
Definition mon_tue : timer_desc :=
  {| td_minute := [30]; td_hour := [0]; td_day := zrange 1 31; td_month := zrange 1 12; td_weekday := [1; 2] |}.
Theorem C98_wrong_day_refuted : exists tz s d from t, sane tz /\ parse_timer s = Ret (Ok d) /\ weekday_restricted d /\ ~ date_restricted d /\
  next_execution tz d from = Ret t /\ from < t /\ ~ weekday_ok d (wall_day tz t) /\ ~ due_at tz d t.
Proof.
  exists berlin, "30 0 * * 1,2", mon_tue, (1635201000 * NS), (1635633000 * NS).
  assert (W : weekday_restricted mon_tue) by (exists 0; split; [lia|]; vm_compute; intros [K|[K|[]]]; discriminate).
  assert (D : ~ date_restricted mon_tue) by (intros [K|K]; exact (full_field _ _ K)).
  assert (N : ~ weekday_ok mon_tue (wall_day berlin (1635633000 * NS))) by (vm_compute; intros [K|[K|[]]]; discriminate).
  split; [exact berlin_sane|]. split; [vm_compute; reflexivity|]. split; [exact W|]. split; [exact D|]. split; [vm_compute; reflexivity|].
  split; [reflexivity|]. split; [exact N|]. intros (z & h & m & (_ & Hh & Hm & A) & _ & _ & _ & _ & M). apply N.
  specialize (M W D). replace (wall_day berlin (1635633000 * NS)) with z; [exact M|]. unfold wall_day. rewrite A. clear - Hh Hm. unfold DAY. apply (Z.div_unique _ _ _ (h * 3600 + m * 60)); lia.
Qed.
Print Assumptions C98_wrong_day_refuted.

(** "* * * * *" in the hour that is repeated: a minute before the clocks go back, the next
    run is an hour and a minute later; in the repeated hour, it is almost an hour ago. *)
Definition always : timer_desc :=
  {| td_minute := zrange 0 59; td_hour := zrange 0 23; td_day := zrange 1 31; td_month := zrange 1 12; td_weekday := zrange 0 6 |}.
Theorem C98_repeated_hour_refuted : exists tz s d from from' t t', sane tz /\ parse_timer s = Ret (Ok d) /\ plain_timer d /\
  (forall n, due_at tz d (n * 60 * NS)) /\ next_execution tz d from = Ret t /\ t = from + 61 * 60 * NS /\ next_execution tz d from' = Ret t' /\ t' = from' - 59 * 60 * NS.
Proof.
  exists berlin, "* * * * *", always, ((1635642000 - 60) * NS), (1635642000 * NS). eexists. eexists.
  split; [exact berlin_sane|]. split; [vm_compute; reflexivity|].
  split; [split; [intros [K|K]; exact (full_field _ _ K)|]; left; split; [intros K; exact (full_field _ _ K)|]; right; intros h K; now apply zrange_In|].
  split; [|split; [vm_compute; reflexivity|]; split; [reflexivity|]; split; [vm_compute; reflexivity|reflexivity]].
  intros n. assert (O : exists j, z_off berlin (n * 60) = 60 * j).
  { unfold berlin; cbn [z_off]. destruct (_ && _); [exists 120|exists 60]; reflexivity. }
  destruct O as [j O]. set (w := n + j). exists (w / 1440), (w mod 1440 / 60), (w mod 60).
  assert (0 <= w mod 1440 < 1440) by (apply Z.mod_pos_bound; lia). assert (0 <= w mod 60 < 60) by (apply Z.mod_pos_bound; lia).
  assert (0 <= w mod 1440 / 60 < 24) by (split; [apply Z.div_pos; lia|apply Z.div_lt_upper_bound; lia]).
  split; [|split; [apply zrange_In; lia|]; split; [apply zrange_In; lia|]].
  - split; [rewrite Z.mod_mul by (unfold NS; lia); reflexivity|]. split; [lia|]. split; [lia|]. rewrite Z.div_mul by (unfold NS; lia). rewrite O. unfold DAY, w in *. lia.
  - split; [intros X; destruct (full_field _ _ X)|]. split; [intros _ [X|X]; destruct (full_field _ _ X)|intros X; destruct (full_field _ _ X)].
Qed.
Print Assumptions C98_repeated_hour_refuted.

(** * C99: cronjobs and the event loop in zones with changing clocks *)
(** As [C76_on_time_partial], if the clocks have not changed since three days before the
    cronjob's last time was dealt with, and do not change until three days after the time
    in question.  Missing from the full claim: a change of the clocks in between (see
    [C99_missed_refuted] and [C99_held_refuted]), and what is missing from C76. *)
Theorem C99_on_time_partial k e configs s now r s' o id d m : reachable k e configs s -> s_pc s = AtSpawnCron ->
  sstep e s (CSpawnCron now r) = Some s' -> s_pc s' = AtPoll -> sane (m_zone k) -> timer_is configs id d -> plain_timer d ->
  due_at (m_zone k) d m -> (forall x, In x (m_clock k) -> x < m) -> m + cron_count configs <= now + 1 ->
  (forall b, last_reading (m_clock k) (s_hist s) id b -> b < m -> calm (m_zone k) o b m /\ room b 4000) ->
  exists h1 b ev h2, s_hist s' = h1 ++ EDue id b :: ev :: h2 /\ m <= b /\ tried configs h1 id ev.
Proof. exact (zone_on_time k e configs s now r s' o id d m). Qed.
Print Assumptions C99_on_time_partial.

(** Nor is it due before a time of its timer then. *)
Theorem C99_never_early_partial k e configs s o h1 id b h2 : reachable k e configs s -> sane (m_zone k) -> s_hist s = h1 ++ EDue id b :: h2 ->
  (forall d, timer_is configs id d -> one_rule d) ->
  (forall b0, last_reading (m_clock k) h1 id b0 -> calm (m_zone k) o b0 (Z.max b0 b) /\ room b0 0) ->
  exists d b0 m, timer_is configs id d /\ last_reading (m_clock k) h1 id b0 /\ due_at (m_zone k) d m /\ m <= b /\
    ((forall w, td_weekday d <> [w]) -> b0 < m).
Proof. exact (zone_never_early k e configs s o h1 id b h2). Qed.
Print Assumptions C99_never_early_partial.

(** In any zone: while the next time of some cronjob does not lie in the future, cinit does
    nothing but try that cronjob, whatever the programs and everybody else do. *)
Theorem C99_held_partial k e configs s id d lo hi : reachable k e configs s -> s_pc s = AtSpawnCron -> timer_is configs id d ->
  (forall i q now, timer_is configs i q -> lo <= now < hi -> exists u, next_execution (m_zone k) q now = Ret u) ->
  (forall now u, lo <= now < hi -> next_execution (m_zone k) d now = Ret u -> u + cron_count configs <= lo + 1) ->
  (exists b, last_reading [] (s_hist s) id b /\ lo <= b < hi) ->
  forall ops s', execute e s ops = Some s' -> (forall now r, In (CSpawnCron now r) ops -> lo <= now < hi) ->
  s_pc s' = AtSpawnCron /\ forall now, exists s'', sstep e s' (CSpawnCron now ForkFailed) = Some s''.
Proof. exact (held k e configs s id d lo hi). Qed.
Print Assumptions C99_held_partial.

(** ** Executions in a zone *)
Definition zone_machine (tz : zone) (now : instant) (programs : list proc_config) : machine :=
  let k := demo_machine programs in
  {| m_release := m_release k; m_uid := m_uid k; m_yaml := m_yaml k; m_drain := m_drain k; m_files := m_files k; m_world := m_world k;
     m_order := m_order k; m_toposort := m_toposort k; m_zone := tz; m_clock := repeat now 10; m_sockets := m_sockets k; m_epoll := m_epoll k; m_setup := m_setup k |}.
Definition zone_env (tz : zone) : env :=
  {| e_zone := tz; e_signal := 3; e_status := 4; e_notify := 5; e_order := fun l => l; e_rfc3339 := show_Z |}.
Definition zone_demo (tz : zone) (now : instant) (programs : list proc_config) (ops : list op) : option sys :=
  match run (zone_machine tz now programs) with
  | Ret (EntersLoop configs a) => execute (zone_env tz) (initial (a_processes a) (a_dep a) (a_cron a) demo_others) ops
  | _ => None
  end.
Definition zone_configs (tz : zone) (now : instant) (programs : list proc_config) : list proc_config :=
  match run (zone_machine tz now programs) with Ret (EntersLoop configs _) => configs | _ => [] end.
Lemma zone_reachable tz now programs ops h p : history (zone_demo tz now programs ops) = h -> place (zone_demo tz now programs ops) = Some p ->
  exists s, zone_demo tz now programs ops = Some s /\ s_hist s = h /\ s_pc s = p /\
    reachable (zone_machine tz now programs) (zone_env tz) (zone_configs tz now programs) s.
Proof.
  destruct (zone_demo tz now programs ops) as [s|] eqn:X; cbn; [|discriminate]. intros H1 H2. exists s. split; [reflexivity|]. split; [exact H1|].
  split; [now inversion H2|]. unfold zone_demo in X. unfold zone_configs.
  destruct (run (zone_machine tz now programs)) as [[c|configs a]|msg] eqn:E; try discriminate.
  exists (initial (a_processes a) (a_dep a) (a_cron a) demo_others), ops. split; [|exact X].
  split; [|split; [reflexivity|split; [intros l; apply Permutation_refl|exists a, demo_others; split; [exact E|split; [apply demo_plausible|reflexivity]]]]].
  split; [intros x; apply Permutation_refl|]. split; [intros l; apply Permutation_refl|].
  split; [exact find_cycle_ok|]. intros (q & es & n & K & _). inversion K.
Qed.
Lemma zone_snoc tz now programs ops s o : zone_demo tz now programs ops = Some s -> zone_demo tz now programs (ops ++ [o]) = sstep (zone_env tz) s o.
Proof. unfold zone_demo. destruct (run _) as [[c|configs a]|m]; try discriminate. apply execute_snoc. Qed.

(** A service and a nightly cronjob. *)
Definition nightly (timer : string) : list proc_config := [task "w" Oneshot [] []; task "j" (CronJob timer) [] []].
Definition serve : list op := [CHead; CSpawnDep ForkFailed; CSpawnDep (fork 10 20 21); CSpawnDep ForkFailed].
Definition served : list event := [EStart 0 10; EOpen 20 0 true; EOpen 21 0 false].

(** Started on 1 July at 12:00 in Berlin; at 23:31 the run of 23:30 has been tried. *)
Example C99_example : exists s s', let k := zone_machine berlin ((18809 * 86400 + 36000) * NS) (nightly "30 23 * * *") in
  let m := (18809 * 86400 + 77400) * NS in
  reachable k (zone_env berlin) (nightly "30 23 * * *") s /\ s_pc s = AtSpawnCron /\
  sstep (zone_env berlin) s (CSpawnCron (m + 60 * NS) ForkFailed) = Some s' /\ s_pc s' = AtPoll /\ sane (m_zone k) /\ timer_is (nightly "30 23 * * *") 1 (daily 23 30) /\
  plain_timer (daily 23 30) /\ due_at (m_zone k) (daily 23 30) m /\ (forall x, In x (m_clock k) -> x < m) /\
  m + cron_count (nightly "30 23 * * *") <= m + 60 * NS + 1 /\
  (forall b, last_reading (m_clock k) (s_hist s) 1 b -> b < m -> calm (m_zone k) 7200 b m /\ room b 4000) /\ s_hist s' = served ++ [EDue 1 (m + 1); EStartFail 1].
Proof.
  set (from := (18809 * 86400 + 36000) * NS). set (m := (18809 * 86400 + 77400) * NS).
  set (ops := serve ++ [CSpawnCron (m + 1) ForkFailed]). set (h := served ++ [EDue 1 (m + 1); EStartFail 1]).
  destruct (zone_reachable berlin from (nightly "30 23 * * *") ops h AtSpawnCron) as (s & D & H & P & R); [vm_compute; reflexivity|vm_compute; reflexivity|].
  destruct (zone_reachable berlin from (nightly "30 23 * * *") (ops ++ [CSpawnCron (m + 60 * NS) ForkFailed]) h AtPoll) as (s' & D' & H' & P' & _); [vm_compute; reflexivity|vm_compute; reflexivity|].
  replace (zone_configs berlin from (nightly "30 23 * * *")) with (nightly "30 23 * * *") in R by (vm_compute; reflexivity).
  rewrite (zone_snoc _ _ _ _ _ _ D) in D'. exists s, s'. cbv zeta. split; [exact R|]. split; [exact P|]. split; [exact D'|]. split; [exact P'|].
  split; [exact berlin_sane|]. split; [apply timer_is_parse; eexists; eexists; split; [reflexivity|]; split; [reflexivity|vm_compute; reflexivity]|]. split; [apply daily_plain|].
  split; [apply (berlin_due 23 30 _ 18809); vm_compute; repeat split; discriminate|].
  split; [intros x K; apply repeat_spec in K; subst x; reflexivity|]. split; [vm_compute; discriminate|]. split; [|exact H'].
  intros b L B. assert (b = m + 1) as ->; [|unfold m in B; lia].
  destruct L as [(h1 & h2 & Eh & U)|[U _]].
  - rewrite H in Eh. unfold h, served in Eh. cbn [app] in Eh.
    do 4 (destruct h1 as [|? h1]; [cbn [app] in Eh; inversion Eh; reflexivity || discriminate|cbn [app] in Eh; apply (f_equal (@tl _)) in Eh; cbn [tl] in Eh]).
    destruct h1 as [|? h1]; cbn [app] in Eh; [discriminate|]. apply (f_equal (@tl _)) in Eh; cbn [tl] in Eh. destruct h1; discriminate.
  - exfalso. apply (U (m + 1)). rewrite H. unfold h, served. cbn. tauto.
Qed.

(** "30 23 * * *", started at 23:30 on the day before the clocks go forward: at 23:31 of the
    next day the run of 23:30 has not been tried. *)
Theorem C99_missed_refuted : exists k e configs s now r s' id d m, reachable k e configs s /\ s_pc s = AtSpawnCron /\
  sstep e s (CSpawnCron now r) = Some s' /\ s_pc s' = AtPoll /\ sane (m_zone k) /\ timer_is configs id d /\ plain_timer d /\ due_at (m_zone k) d m /\
  (forall x, In x (m_clock k) -> x < m) /\ m + cron_count configs <= now + 1 /\ forall b, ~ In (EDue id b) (s_hist s').
Proof.
  set (from := 1616884200 * NS). set (programs := nightly "30 23 * * *").
  destruct (zone_reachable berlin from programs serve served AtSpawnCron) as (s & D & H & P & R); [vm_compute; reflexivity|vm_compute; reflexivity|].
  destruct (zone_reachable berlin from programs (serve ++ [CSpawnCron (1616967060 * NS) ForkFailed]) served AtPoll) as (s' & D' & H' & P' & _); [vm_compute; reflexivity|vm_compute; reflexivity|].
  replace (zone_configs berlin from programs) with programs in R by (vm_compute; reflexivity).
  rewrite (zone_snoc _ _ _ _ _ _ D) in D'.
  exists (zone_machine berlin from programs), (zone_env berlin), programs, s, (1616967060 * NS), ForkFailed, s', 1%nat, (daily 23 30), (1616967000 * NS).
  split; [exact R|]. split; [exact P|]. split; [exact D'|]. split; [exact P'|]. split; [exact berlin_sane|].
  split; [apply timer_is_parse; eexists; eexists; split; [reflexivity|]; split; [reflexivity|vm_compute; reflexivity]|]. split; [apply daily_plain|].
  split; [apply (berlin_due 23 30 _ 18714); vm_compute; repeat split; discriminate|].
  split; [intros x K; apply repeat_spec in K; subst x; reflexivity|]. split; [vm_compute; discriminate|].
  rewrite H'. unfold served. intros b K. cbn in K. repeat (destruct K as [K|K]; [discriminate K|]). exact K.
Qed.
Print Assumptions C99_missed_refuted.

(** Between 00:30 and 01:00 on the day on which the clocks go back, the next time of
    "30 0 * * *" is 00:30. *)
Definition october : Z := 18931 * 86400 - 7200.
Lemma october_night now : (october + 1800) * NS <= now < (october + 3600) * NS -> next_execution berlin (daily 0 30) now = Ret ((october + 1800) * NS).
Proof.
  intros [H1 H2]. assert (U : october + 1800 <= utc_sec now < october + 3600).
  { unfold utc_sec. split; [apply Z.div_le_lower_bound; [reflexivity|lia]|apply Z.div_lt_upper_bound; [reflexivity|lia]]. }
  unfold october in *.
  assert (Off : z_off berlin (utc_sec now) = 7200).
  { unfold berlin; cbn [z_off]. destruct (Z.leb_spec 1616893200 (utc_sec now)); [|lia]. destruct (Z.ltb_spec (utc_sec now) 1635642000); [reflexivity|lia]. }
  assert (LS : 18931 * 86400 + 1800 <= local_sec berlin now < 18931 * 86400 + 3600) by (unfold local_sec; rewrite Off; lia).
  assert (LD : local_day berlin now = 18931) by (unfold local_day, DAY; lia).
  assert (LH : local_hour berlin now = 0) by (unfold local_hour, DAY; lia).
  assert (LM : 30 <= local_minute berlin now) by (unfold local_minute; lia).
  assert (LN : local_day berlin (now + 1 * DAY * NS) = 18931).
  { unfold local_day, local_sec. rewrite utc_sec_add. assert (O2 : z_off berlin (utc_sec now + 1 * DAY) = 3600).
    { unfold berlin, DAY; cbn [z_off]. destruct (Z.ltb_spec (utc_sec now + 1 * 86400) 1635642000); [lia|]. rewrite andb_false_r. reflexivity. }
    rewrite O2. unfold DAY. lia. }
  set (p := {| p_min := 30; p_c1 := 1; p_hour := 0; p_c2 := 1; p_wd := 1; p_c5 := 0; p_day := 1; p_c3 := 1; p_mon := 11; p_c4 := 0; p_week := 1; p_date := 0; p_n := 1 |}).
  assert (Ok : desc_ok (daily 0 30)) by (apply (parse_timer_wf "30 0 * * *"); vm_compute; reflexivity).
  assert (Pl : plan_ok berlin (daily 0 30) now p).
  { unfold plan_ok. rewrite LD, LH. cbn [p p_min p_c1 p_hour p_c2 p_wd p_c5 p_day p_c3 p_mon p_c4 p_week p_date p_n daily td_minute td_hour td_weekday td_day td_month].
    change (d_day (civil 18931)) with 31. change (d_month (civil 18931)) with 10. change (weekday 18931) with 0.
    replace (date_relevant _) with false by (vm_compute; reflexivity).
    split; [split; [now left|right; split; [reflexivity|]; split; intros y [<-|[]]; lia]|].
    split; [split; [now left|right; split; [reflexivity|]; split; intros y [<-|[]]; lia]|].
    split; [split; [apply zrange_In; lia|left; split; [reflexivity|]; split; [lia|]; intros y K L; lia]|].
    split; [split; [apply zrange_In; lia|right; split; [reflexivity|]; split; intros y K; apply zrange_In in K; lia]|].
    split; [split; [apply zrange_In; lia|left; split; [reflexivity|]; split; [lia|]; intros y K L; lia]|].
    split; [reflexivity|]. split; reflexivity. }
  unfold next_execution. rewrite (nominal_plan _ _ _ _ Ok Pl).
  - cbn [obind p p_n p_hour p_min]. rewrite LN. vm_compute. reflexivity.
  - cbn [p p_n]. unfold MAX_SEC, DAY. lia.
Qed.

(** On that night a cinit with this cronjob does nothing else between 00:30 and 01:00: it
    starts no program, forwards no signal, answers nobody and takes note of no end. *)
Theorem C99_held_refuted : exists k e configs s lo, sane (m_zone k) /\ reachable k e configs s /\ configs = nightly "30 0 * * *" /\
  forall ops s', execute e s ops = Some s' -> (forall now r, In (CSpawnCron now r) ops -> lo <= now < lo + 30 * 60 * NS) ->
  s_pc s' = AtSpawnCron /\ forall now, exists s'', sstep e s' (CSpawnCron now ForkFailed) = Some s''.
Proof.
  set (from := (october - 3600) * NS). set (programs := nightly "30 0 * * *"). set (lo := (october + 1800) * NS).
  destruct (zone_reachable berlin from programs (serve ++ [CSpawnCron lo ForkFailed]) (served ++ [EDue 1 lo; EStartFail 1]) AtSpawnCron) as (s & D & H & P & R); [vm_compute; reflexivity|vm_compute; reflexivity|].
  replace (zone_configs berlin from programs) with programs in R by (vm_compute; reflexivity).
  exists (zone_machine berlin from programs), (zone_env berlin), programs, s, lo.
  split; [exact berlin_sane|]. split; [exact R|]. split; [reflexivity|].
  assert (T : timer_is programs 1 (daily 0 30)) by (apply timer_is_parse; eexists; eexists; split; [reflexivity|]; split; [reflexivity|vm_compute; reflexivity]).
  assert (Hi : lo + 30 * 60 * NS = (october + 3600) * NS) by reflexivity.
  intros ops s' X K. apply (C99_held_partial _ _ _ s 1 (daily 0 30) lo (lo + 30 * 60 * NS) R P T) with (ops := ops); [| | |exact X|exact K].
  - intros i q now T' N. apply timer_is_parse in T'. destruct T' as (c & text & Hc & Ty & Hp). rewrite Hi in N. destruct i as [|[|i]]; cbn in Hc; [inversion Hc; subst c; discriminate Ty| |destruct i; discriminate].
    inversion Hc; subst c. cbn in Ty. inversion Ty; subst text. assert (q = daily 0 30) as ->.
    { assert (E : parse_timer "30 0 * * *" = Ret (Ok (daily 0 30))) by (vm_compute; reflexivity). congruence. }
    exists lo. apply october_night. exact N.
  - intros now u N E. rewrite Hi in N. cbn [m_zone zone_machine] in E. rewrite (october_night now N) in E. inversion E; subst u. vm_compute. discriminate.
  - exists lo. split; [|rewrite Hi; vm_compute; split; [discriminate|reflexivity]]. left. exists served, [EStartFail 1]. split; [exact H|]. intros b [B|[]]; discriminate.
Qed.
Print Assumptions C99_held_refuted.
