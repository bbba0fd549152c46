(** Proofs about runs of cronjobs that are left out. *)
From stdpp Require Import gmap strings.
From Coq Require Import Ascii ZArith List Bool Lia.
From Verif Require Import Base RStr CronModel ConfigModel ProcessModel EnvModel DepModel NotifyModel ManagerModel SysModel
  MainModel SpecDep SpecMain SpecTimer SpecSched SpecCal SpecRun SpecLive SpecTick CronParseProofs CronTextProofs CronNextProofs CronSchedProofs CronTimerProofs
  RunStep RunInv RunFlow RunHist RunAlive RunStream RunClaims RunLife RunThms RunFinal RunSteps RunSteps2 RunView RunSteps3 RunSteps4 RunReport RunSteps5 TickProofs SpecZone ZoneProofs ZoneRun SpecExact CronExactProofs CronExactZone CronBothZone KeptRun.
Import ListNotations.
Local Open Scope list_scope.
Local Open Scope Z_scope.

Lemma restricted_dec lo hi l : restricted lo hi l \/ ~ restricted lo hi l.
Proof.
  destruct (existsb (fun x => negb (existsb (Z.eqb x) l)) (zrange lo hi)) eqn:E.
  - left. apply existsb_exists in E as (x & I & N). exists x. apply zrange_In in I. split; [lia|]. intros K.
    apply negb_true_iff in N. assert (existsb (Z.eqb x) l = true); [|congruence]. apply existsb_exists. exists x. split; [exact K|apply Z.eqb_refl].
  - right. intros (x & I & N). assert (existsb (fun x => negb (existsb (Z.eqb x) l)) (zrange lo hi) = true); [|congruence].
    apply existsb_exists. exists x. split; [apply zrange_In; lia|]. apply negb_true_iff. destruct (existsb (Z.eqb x) l) eqn:F; [|reflexivity].
    apply existsb_exists in F as (y & J & F). apply Z.eqb_eq in F. subst y. contradiction.
Qed.
Lemma day_matches_dec d z : day_matches d z \/ ~ day_matches d z.
Proof.
  assert (W : weekday_restricted d \/ ~ weekday_restricted d) by apply restricted_dec.
  assert (D : date_restricted d \/ ~ date_restricted d).
  { unfold date_restricted. destruct (restricted_dec 1 31 (td_day d)); [tauto|]. destruct (restricted_dec 1 12 (td_month d)); tauto. }
  assert (I : forall x l, In x l \/ ~ In x l) by (intros x l; destruct (in_dec Z.eq_dec x l); tauto).
  unfold day_matches, weekday_ok, date_ok.
  pose proof (I (weekday z) (td_weekday d)). pose proof (I (d_day (civil z)) (td_day d)). pose proof (I (d_month (civil z)) (td_month d)). tauto.
Qed.
Lemma due_dec tz d t : due_at tz d t \/ ~ due_at tz d t.
Proof.
  assert (W : forall z h m, at_wall tz t z h m -> t mod NS = 0 /\ (t / NS + z_off tz (t / NS)) mod 60 = 0 /\ z = (t / NS + z_off tz (t / NS)) / DAY /\
     h = (t / NS + z_off tz (t / NS)) mod DAY / 3600 /\ m = (t / NS + z_off tz (t / NS)) mod 3600 / 60).
  { intros z h m (A & Hh & Hm & E). split; [exact A|]. rewrite E. unfold DAY. repeat split; Z.div_mod_to_equations; lia. }
  remember (t / NS + z_off tz (t / NS)) as s eqn:Es.
  destruct (Z.eq_dec (t mod NS) 0) as [A|A]; [|right; intros (z & h & m & X & _); apply W in X; tauto].
  destruct (Z.eq_dec (s mod 60) 0) as [B|B]; [|right; intros (z & h & m & X & _); apply W in X; tauto].
  destruct (in_dec Z.eq_dec (s mod DAY / 3600) (td_hour d)) as [H|H];
    [|right; intros (z & h & m & X & Ih & _); apply W in X as (_ & _ & _ & -> & _); contradiction].
  destruct (in_dec Z.eq_dec (s mod 3600 / 60) (td_minute d)) as [M|M];
    [|right; intros (z & h & m & X & _ & Im & _); apply W in X as (_ & _ & _ & _ & ->); contradiction].
  destruct (day_matches_dec d (s / DAY)) as [D|D];
    [|right; intros (z & h & m & X & _ & _ & Dm); apply W in X as (_ & _ & -> & _); contradiction].
  left. exists (s / DAY), (s mod DAY / 3600), (s mod 3600 / 60). split; [|auto].
  split; [exact A|]. rewrite <- Es. unfold DAY. repeat split; Z.div_mod_to_equations; lia.
Qed.

Lemma least (P : Z -> Prop) (a : Z) (n : nat) : (forall x, P x \/ ~ P x) ->
  (forall x, a < x <= a + Z.of_nat n -> ~ P x) \/ exists x, a < x <= a + Z.of_nat n /\ P x /\ forall y, a < y -> P y -> x <= y.
Proof.
  intros D. induction n as [|n IH].
  - left. intros x K. lia.
  - destruct IH as [N|(x & K & Px & M)]; [|right; exists x; split; [lia|auto]].
    destruct (D (a + Z.of_nat (S n))) as [Y|Y].
    + right. exists (a + Z.of_nat (S n)). split; [lia|]. split; [exact Y|]. intros y Ly Py.
      destruct (Z.le_gt_cases y (a + Z.of_nat n)) as [L|L]; [destruct (N y ltac:(lia) Py)|lia].
    + left. intros x K. destruct (Z.eq_dec x (a + Z.of_nat (S n))) as [->|Ne]; [exact Y|apply N; lia].
Qed.
Lemma first_due tz d from u : from < u -> due_at tz d u -> exists t, earliest tz d from t /\ t <= u.
Proof.
  intros L Du. destruct (least (due_at tz d) from (Z.to_nat (u - from)) (due_dec tz d)) as [N|(t & K & Dt & M)].
  - destruct (N u ltac:(lia) Du).
  - exists t. split; [split; [lia|auto]|lia].
Qed.

Lemma left_out_next o d from u : desc_ok d -> next_execution (fixed o) d from = Ret u -> week_kept (fixed o) d from ->
  ~ (date_kept (fixed o) d from /\ time_kept (fixed o) d from) -> exists t, earliest (fixed o) d from t /\ t < u.
Proof.
  intros Ok N W K. pose proof (next_execution_due o d from u Ok N) as Du.
  assert (F : from < u). { apply (next_execution_future_iff o d from u Ok N). exact W. }
  destruct (first_due (fixed o) d from u F Du) as (t & E & L). exists t. split; [exact E|].
  destruct (Z.eq_dec t u) as [->|Ne]; [|lia]. exfalso. apply K. apply (earliest_iff o d from u Ok N) in E. tauto.
Qed.

Lemma timer_is_one configs id d d' : timer_is configs id d -> timer_is configs id d' -> d = d'.
Proof.
  intros T T'. apply timer_is_parse in T as (c & x & A & B & C). apply timer_is_parse in T' as (c' & x' & A' & B' & C'). congruence.
Qed.

Theorem left_out k e configs s o h1 id b0 h2 b h3 d : reachable k e configs s -> m_zone k = fixed o ->
  s_hist s = h1 ++ EDue id b0 :: h2 ++ EDue id b :: h3 -> (forall b', ~ In (EDue id b') h2) -> timer_is configs id d ->
  week_kept (fixed o) d b0 -> ~ (date_kept (fixed o) d b0 /\ time_kept (fixed o) d b0) ->
  exists t m, earliest (fixed o) d b0 t /\ due_at (fixed o) d m /\ t < m <= b.
Proof.
  intros R Z E No T W K. change (EDue id b0 :: h2 ++ EDue id b :: h3) with ((EDue id b0 :: h2) ++ EDue id b :: h3) in E. rewrite app_assoc in E.
  destruct (proj2 (ticking _ _ _ _ R) _ _ _ E) as (d' & b' & u & T' & L' & N & Le). rewrite (zone_of _ _ _ _ R), Z in N.
  assert (d' = d) as -> by exact (timer_is_one _ _ _ _ T' T).
  assert (b' = b0) as -> by exact (reading_between _ _ _ _ _ _ No L').
  apply timer_is_parse in T as (c & text & _ & _ & Hp). pose proof (parse_timer_wf _ _ Hp) as Ok.
  destruct (left_out_next o d b0 u Ok N W K) as (t & Et & L). exists t, u. split; [exact Et|]. split; [exact (next_execution_due o d b0 u Ok N)|lia].
Qed.

Theorem left_out_zone k e configs s o h1 id b0 h2 b h3 d : reachable k e configs s -> sane (m_zone k) ->
  s_hist s = h1 ++ EDue id b0 :: h2 ++ EDue id b :: h3 -> (forall b', ~ In (EDue id b') h2) -> timer_is configs id d ->
  calm (m_zone k) o b0 (Z.max b0 b) -> room b0 4000 ->
  week_kept (m_zone k) d b0 -> ~ (date_kept (m_zone k) d b0 /\ time_kept (m_zone k) d b0) ->
  exists t m, earliest (m_zone k) d b0 t /\ due_at (m_zone k) d m /\ t < m <= b.
Proof.
  intros R Sa E No T C Rm W K. change (EDue id b0 :: h2 ++ EDue id b :: h3) with ((EDue id b0 :: h2) ++ EDue id b :: h3) in E. rewrite app_assoc in E.
  destruct (proj2 (ticking _ _ _ _ R) _ _ _ E) as (d' & b' & u & T' & L' & N & Le). rewrite (zone_of _ _ _ _ R) in N.
  assert (d' = d) as -> by exact (timer_is_one _ _ _ _ T' T).
  assert (b' = b0) as -> by exact (reading_between _ _ _ _ _ _ No L').
  apply timer_is_parse in T as (c & text & _ & _ & Hp).
  assert (C' : calm (m_zone k) o b0 (Z.max b0 u)) by (apply (calm_sub _ _ _ (Z.max b0 b)); [exact C|lia]).
  destruct (chosen_exact (m_zone k) o d b0 u Sa (parse_timer_wf _ _ Hp) Rm C' N) as (Du & Fu & Ex).
  assert (F : b0 < u) by exact (proj2 Fu W). destruct (first_due _ d b0 u F Du) as (t & Et & L).
  exists t, u. split; [exact Et|]. split; [exact Du|]. split; [|exact Le].
  destruct (Z.eq_dec t u) as [->|Ne]; [|lia]. exfalso. apply K. exact (proj2 (proj1 Ex Et)).
Qed.

Theorem at_once k e configs s now r s' o h1 id b0 h2 d : reachable k e configs s -> s_pc s = AtSpawnCron ->
  sstep e s (CSpawnCron now r) = Some s' -> m_zone k = fixed o -> s_hist s = h1 ++ EDue id b0 :: h2 -> (forall b', ~ In (EDue id b') h2) ->
  timer_is configs id d -> ~ week_kept (fixed o) d b0 -> b0 + cron_count configs <= now + 1 ->
  panicked s' \/ s_pc s' = AtSpawnCron /\ exists i ev, s_hist s' = s_hist s ++ EDue i now :: ev.
Proof.
  intros R P E Z Eh No T W L.
  assert (D : panicked s' \/ ~ panicked s') by (unfold panicked; destruct (s_pc s'); auto).
  destruct D as [D|NP']; [left; exact D|right].
  assert (NP : ~ panicked s) by (unfold panicked; rewrite P; auto).
  destruct (cron_round R now r s' P E NP') as [[Es Fut]|(i & cc & tx & dd & t & u & j & evs & X)].
  2:{ destruct X as (_ & _ & _ & _ & _ & _ & _ & _ & _ & _ & X & Y & _). split; [exact Y|]. exists i, evs. exact X. }
  exfalso. assert (P' : s_pc s' = AtPoll) by (rewrite Es; reflexivity).
  destruct (waited _ _ _ _ _ _ _ _ _ R P E P' T) as (_ & b & u & B & N & Lt).
  rewrite Eh in B. assert (b = b0) as -> by exact (reading_between _ _ _ _ _ _ No B). rewrite Z in N.
  apply timer_is_parse in T as (c & text & _ & _ & Hp). pose proof (parse_timer_wf _ _ Hp) as Ok.
  assert (~ b0 < u) by (intros X; apply W; apply (next_execution_future_iff o d b0 u Ok N); exact X). lia.
Qed.

Theorem held_weekday k e configs s id d o z lo : reachable k e configs s -> s_pc s = AtSpawnCron -> m_zone k = fixed o -> timer_is configs id d ->
  td_weekday d = [weekday z] -> (z * DAY - o) * NS <= lo ->
  (forall h m, In h (td_hour d) -> In m (td_minute d) -> (z * DAY + h * 3600 + m * 60 - o) * NS + cron_count configs <= lo + 1) ->
  (forall i q now, timer_is configs i q -> lo <= now < ((z + 1) * DAY - o) * NS -> exists u, next_execution (fixed o) q now = Ret u) ->
  (exists b, last_reading [] (s_hist s) id b /\ lo <= b < ((z + 1) * DAY - o) * NS) ->
  forall ops s', execute e s ops = Some s' -> (forall now r, In (CSpawnCron now r) ops -> lo <= now < ((z + 1) * DAY - o) * NS) ->
  s_pc s' = AtSpawnCron /\ forall now, exists s'', sstep e s' (CSpawnCron now ForkFailed) = Some s''.
Proof.
  intros R P Z T Wd L0 L1 Hall Hb ops s' X H.
  refine (held k e configs s id d lo (((z + 1) * DAY - o) * NS) R P T _ _ Hb ops s' X H).
  { rewrite Z. exact Hall. }
  rewrite Z. intros now u B N. pose proof T as T0. apply timer_is_parse in T0 as (c & text & _ & _ & Hp). pose proof (parse_timer_wf _ _ Hp) as Ok.
  assert (C0 : 0 < cron_count configs).
  { destruct (planned _ _ _ _ _ _ R ltac:(unfold panicked; rewrite P; auto) T) as (b & u0 & j & _ & _ & B3 & _). lia. }
  assert (S1 : z * DAY - o <= now / NS < (z + 1) * DAY - o).
  { split; [apply Z.div_le_lower_bound; [unfold NS; lia|lia]|apply Z.div_lt_upper_bound; [unfold NS; lia|lia]]. }
  assert (Wz : wall_day (fixed o) now = z). { unfold wall_day. cbn [fixed z_off]. symmetry. apply (Z.div_unique _ _ _ (now / NS + o - z * DAY)); unfold DAY in *; lia. }
  assert (Ws : wall_sec (fixed o) now = now / NS + o - z * DAY). { unfold wall_sec. cbn [fixed z_off]. symmetry. apply (Z.mod_unique _ _ z); unfold DAY in *; lia. }
  pose proof (next_execution_due o d now u Ok N) as Du. apply due_fixed in Du as (zu & h & m & Hh & Hm & Eu & Ih & Im & _).
  assert (Le : u <= now).
  { destruct (Z.le_gt_cases u now) as [K|K]; [exact K|]. exfalso. apply (next_execution_future_iff o d now u Ok N); [lia|]. rewrite Wz. split; [exact Wd|].
    intros h' m' Ih' Im'. rewrite Ws. specialize (L1 h' m' Ih' Im').
    assert (z * DAY + h' * 3600 + m' * 60 - o <= now / NS) by (apply Z.div_le_lower_bound; [unfold NS; lia|lia]). lia. }
  specialize (L1 h m Ih Im). assert (zu <= z).
  { destruct (Z.le_gt_cases zu z) as [K|K]; [exact K|]. exfalso. assert ((z + 1) * DAY <= zu * DAY) by (unfold DAY; lia). unfold NS in *. lia. }
  assert (zu * DAY <= z * DAY) by (unfold DAY; lia). unfold NS in *. lia.
Qed.

Theorem reported_exact k e configs s rest s' o : reachable k e configs s -> m_zone k = fixed o ->
  s_pc s = AtEvents (EvIn (e_status e) :: rest) -> e_status e <> e_signal e -> sstep e s (CEvent (AAccept true)) = Some s' ->
  exists next, s_hist s' = s_hist s ++ [EReport (unlines ("programs:"%string :: flat_map (entry configs (s_hist s) (fun id => e_rfc3339 e (next id))) (seq 0 (length configs))))] /\
    forall id d, timer_is configs id d -> exists b m, last_reading (m_clock k) (s_hist s) id b /\ due_at (fixed o) d m /\
      m <= next id < m + cron_count configs /\ (b < m <-> week_kept (fixed o) d b) /\
      (earliest (fixed o) d b m <-> week_kept (fixed o) d b /\ date_kept (fixed o) d b /\ time_kept (fixed o) d b).
Proof.
  intros R Z P N E. assert (NP : ~ panicked s) by (unfold panicked; rewrite P; auto).
  assert (G := so_good _ _ _ (wh_sound _ _ _ (whole_of R NP))).
  destruct (report_text R rest s' P N E) as (next & Nx & H & _). exists next. split; [exact H|].
  intros id d T. destruct (planned _ _ _ _ _ _ R NP T) as (b & u & j & B1 & B2 & B3 & B4).
  apply timer_is_parse in T as (c & text & Hc & Ty & Hp). pose proof (parse_timer_wf _ _ Hp) as Ok.
  assert (J : cronjob configs id) by (exists c, text; auto). specialize (Nx _ J). rewrite B4 in Nx. injection Nx as Ej. rewrite Z in B2.
  exists b, u. split; [exact B1|]. split; [exact (next_execution_due o d b u Ok B2)|]. split; [lia|].
  split; [exact (next_execution_future_iff o d b u Ok B2)|exact (earliest_iff o d b u Ok B2)].
Qed.
