(** Vocabulary for the schedule of cronjobs. *)
From stdpp Require Import gmap strings.
From Coq Require Import ZArith List Bool.
From Verif Require Import Base RStr CronModel ConfigModel ProcessModel ManagerModel SysModel SpecDep SpecSched SpecRun.
Import ListNotations.
Local Open Scope list_scope.
Local Open Scope Z_scope.

(** The reading of the clock at which it was last decided when a cronjob runs next: when
    it was last due, or before that when the configuration was read ([clock]). *)
Definition last_reading (clock : list instant) (h : list event) (id : nat) (b : instant) : Prop :=
  (exists h1 h2, h = h1 ++ EDue id b :: h2 /\ forall b', ~ In (EDue id b') h2) \/
  ((forall b', ~ In (EDue id b') h) /\ In b clock).

(** What cinit does with a cronjob that is due: it leaves it alone while a dependency is
    not completed or while the job is not sleeping, and otherwise forks. *)
Definition tried (configs : list proc_config) (h : list event) (id : nat) (ev : event) : Prop :=
  (~ deps_met configs h id /\ ev = ESkipped id) \/
  (deps_met configs h id /\ v_state (view_of configs h id) <> Sleeping /\ ev = ERefused id) \/
  (deps_met configs h id /\ v_state (view_of configs h id) = Sleeping /\ (ev = EStartFail id \/ exists pid, ev = EStart id pid)).

(** Timers of every day (with one minute, or with every hour), and timers of one time of
    day on several weekdays. *)
Definition plain_timer (d : timer_desc) : Prop :=
  ~ date_restricted d /\
  ((~ weekday_restricted d /\ ((exists m, td_minute d = [m]) \/ forall h, 0 <= h <= 23 -> In h (td_hour d))) \/
   (weekday_restricted d /\ (exists h m, td_hour d = [h] /\ td_minute d = [m]) /\ forall w, td_weekday d <> [w])).

(** The program is a cronjob with this timer. *)
Definition timer_is (configs : list proc_config) (id : nat) (d : timer_desc) : Prop :=
  exists c text, nth_error configs id = Some c /\ pc_type c = CronJob text /\ spells text d.

(** How many of the programs are cronjobs. *)
Definition cron_count (configs : list proc_config) : Z :=
  Z.of_nat (length (List.filter (fun c => is_cronjob (pc_type c)) configs)).
