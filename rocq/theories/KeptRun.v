(** Proofs about cronjobs with any timer and the event loop. *)
From stdpp Require Import gmap strings.
From Coq Require Import Ascii ZArith List Bool Lia Permutation.
From Verif Require Import Base RStr CronModel ConfigModel ProcessModel EnvModel DepModel NotifyModel ManagerModel SysModel
  MainModel SpecDep SpecMain SpecTimer SpecSched SpecCal SpecRun SpecLive SpecTick DepProofs CronParseProofs CronTextProofs CronNextProofs CronSchedProofs CronReachProofs CronTimerProofs
  MainProofs RunStep RunInv RunFlow RunHist RunAlive RunStream RunClaims RunLife RunThms RunFinal RunSteps RunSteps2 RunView RunSteps3 RunSteps4 RunReport RunSteps5 RunLive TickProofs SpecZone ZoneProofs ZoneRun
  SpecExact CronExactProofs CronExactZone CronBothZone.
Import ListNotations.
Local Open Scope string_scope.
Local Open Scope list_scope.
Local Open Scope Z_scope.

(** What was planned for a cronjob when cinit waits again. *)
Lemma waited k e configs s now r s' id d : reachable k e configs s -> s_pc s = AtSpawnCron ->
  sstep e s (CSpawnCron now r) = Some s' -> s_pc s' = AtPoll -> timer_is configs id d ->
  s_hist s' = s_hist s /\ exists b u, last_reading (m_clock k) (s_hist s) id b /\ next_execution (m_zone k) d b = Ret u /\ now + 1 < u + cron_count configs.
Proof.
  intros R P E P' T.
  assert (NP : ~ panicked s) by (unfold panicked; rewrite P; auto). assert (NP' : ~ panicked s') by (unfold panicked; rewrite P'; auto).
  destruct (cron_round R now r s' P E NP') as [[Es Fut]|(i & cc & tx & dd & t & u & j & evs & X)].
  2:{ exfalso. destruct X as (_ & _ & _ & _ & _ & _ & _ & _ & _ & _ & _ & X & _). congruence. }
  destruct (planned _ _ _ _ _ _ R NP T) as (b & u & j & B1 & B2 & B3 & B4). assert (F := Fut _ _ B4).
  split; [subst s'; reflexivity|]. exists b, u. split; [exact B1|]. split; [exact B2|]. lia.
Qed.

Lemma kept_on_time k e configs s now r s' id d m : reachable k e configs s -> s_pc s = AtSpawnCron ->
  sstep e s (CSpawnCron now r) = Some s' -> s_pc s' = AtPoll -> timer_is configs id d ->
  (forall x, In x (m_clock k) -> x < m) -> m + cron_count configs <= now + 1 ->
  (forall b u, last_reading (m_clock k) (s_hist s) id b -> b < m -> next_execution (m_zone k) d b = Ret u -> u <= m) ->
  exists h1 b ev h2, s_hist s' = h1 ++ EDue id b :: ev :: h2 /\ m <= b /\ tried configs h1 id ev.
Proof.
  intros R P E P' T Cl Le Ke. destruct (waited _ _ _ _ _ _ _ _ _ R P E P' T) as (Eh' & b & u & B1 & B2 & B3).
  assert (m <= b). { destruct (Z.lt_ge_cases b m) as [K|K]; [|exact K]. specialize (Ke b u B1 K B2). lia. }
  destruct B1 as [(h1 & h2 & Eh & _)|[_ B1]]; [|specialize (Cl _ B1); lia].
  destruct (all_answered _ _ _ _ R _ _ _ _ Eh) as (ev & h3 & -> & A). exists h1, b, ev, h3. rewrite Eh', Eh. auto.
Qed.

Theorem any_on_time k e configs s now r s' o id d m : reachable k e configs s -> s_pc s = AtSpawnCron ->
  sstep e s (CSpawnCron now r) = Some s' -> s_pc s' = AtPoll -> m_zone k = fixed o -> timer_is configs id d ->
  due_at (fixed o) d m -> (forall x, In x (m_clock k) -> x < m) -> m + cron_count configs <= now + 1 ->
  (forall b, last_reading (m_clock k) (s_hist s) id b -> b < m -> week_kept (fixed o) d b /\ date_kept (fixed o) d b /\ time_kept (fixed o) d b) ->
  exists h1 b ev h2, s_hist s' = h1 ++ EDue id b :: ev :: h2 /\ m <= b /\ tried configs h1 id ev.
Proof.
  intros R P E P' Z T Du Cl Le Ke. apply (kept_on_time k e configs s now r s' id d m R P E P' T Cl Le).
  intros b u B L N. rewrite Z in N. apply timer_is_parse in T. destruct T as (c & text & _ & _ & Hp).
  destruct (proj2 (earliest_iff o d b u (parse_timer_wf _ _ Hp) N) (Ke b B L)) as (_ & _ & Early). exact (Early m L Du).
Qed.

Theorem any_on_time_zone k e configs s now r s' o id d m : reachable k e configs s -> s_pc s = AtSpawnCron ->
  sstep e s (CSpawnCron now r) = Some s' -> s_pc s' = AtPoll -> sane (m_zone k) -> timer_is configs id d ->
  due_at (m_zone k) d m -> (forall x, In x (m_clock k) -> x < m) -> m + cron_count configs <= now + 1 ->
  (forall b, last_reading (m_clock k) (s_hist s) id b -> b < m -> calm (m_zone k) o b m /\ room b 4000 /\
     week_kept (m_zone k) d b /\ date_kept (m_zone k) d b /\ time_kept (m_zone k) d b) ->
  exists h1 b ev h2, s_hist s' = h1 ++ EDue id b :: ev :: h2 /\ m <= b /\ tried configs h1 id ev.
Proof.
  intros R P E P' Sa T Du Cl Le Ke. apply (kept_on_time k e configs s now r s' id d m R P E P' T Cl Le).
  intros b u B L N. apply timer_is_parse in T. destruct T as (c & text & _ & _ & Hp). destruct (Ke b B L) as (C & Rm & K).
  exact (proj1 (kept_not_later (m_zone k) o d b m u Sa (parse_timer_wf _ _ Hp) Rm C L Du K N)).
Qed.

Theorem any_never_early k e configs s o h1 id b h2 : reachable k e configs s -> sane (m_zone k) -> s_hist s = h1 ++ EDue id b :: h2 ->
  (forall b0, last_reading (m_clock k) h1 id b0 -> calm (m_zone k) o b0 (Z.max b0 b) /\ room b0 4000) ->
  exists d b0 m, timer_is configs id d /\ last_reading (m_clock k) h1 id b0 /\ due_at (m_zone k) d m /\ m <= b /\
    (b0 < m <-> week_kept (m_zone k) d b0) /\
    (earliest (m_zone k) d b0 m <-> week_kept (m_zone k) d b0 /\ date_kept (m_zone k) d b0 /\ time_kept (m_zone k) d b0).
Proof.
  intros R Sa E Ca. destruct (proj2 (ticking _ _ _ _ R) _ _ _ E) as (d & b0 & u & T & L & N & Le). rewrite (zone_of _ _ _ _ R) in N.
  exists d, b0, u. split; [exact T|]. apply timer_is_parse in T. destruct T as (c & text & _ & _ & Hp). split; [exact L|].
  destruct (Ca b0 L) as [C Rm]. assert (C' : calm (m_zone k) o b0 (Z.max b0 u)) by (apply (calm_sub _ _ _ (Z.max b0 b)); [exact C|lia]).
  destruct (chosen_exact (m_zone k) o d b0 u Sa (parse_timer_wf _ _ Hp) Rm C' N) as (Du & Fu & Ex).
  split; [exact Du|]. split; [exact Le|]. split; [exact Fu|exact Ex].
Qed.
