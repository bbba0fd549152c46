(** Proofs about cronjobs and the event loop across changes of the clocks. *)
From stdpp Require Import gmap strings.
From Coq Require Import Ascii ZArith List Bool Lia Permutation.
From Verif Require Import Base RStr CronModel ConfigModel ProcessModel EnvModel DepModel NotifyModel ManagerModel SysModel
  MainModel SpecDep SpecMain SpecTimer SpecSched SpecCal SpecRun SpecLive SpecTick DepProofs CronParseProofs CronTextProofs CronNextProofs CronSchedProofs CronReachProofs CronTimerProofs
  MainProofs RunStep RunInv RunFlow RunHist RunAlive RunStream RunClaims RunLife RunThms RunFinal RunSteps RunSteps2 RunView RunSteps3 RunSteps4 RunReport RunSteps5 RunLive TickProofs SpecZone ZoneProofs.
Import ListNotations.
Local Open Scope string_scope.
Local Open Scope list_scope.
Local Open Scope Z_scope.

Lemma calm_sub tz o a b b' : calm tz o a b -> b' <= b -> calm tz o a b'.
Proof. intros C L s K. apply C. assert (b' / NS <= b / NS) by (apply Z.div_le_mono; [reflexivity|exact L]). lia. Qed.

Lemma plain_one_rule d : plain_timer d -> one_rule d.
Proof. intros (ND & _) [_ D]. exact (ND D). Qed.

Lemma plain_exists o text d from : parse_timer text = Ret (Ok d) -> plain_timer d -> - DAY < o < DAY -> room from 4000 ->
  exists t, next_execution (fixed o) d from = Ret t.
Proof.
  intros Hp (ND & _) O R. apply next_execution_exists_iff; [exact (parse_timer_wf _ _ Hp)|exact O|exact R|]. intros D. contradiction.
Qed.

(** The timer of a cronjob, and what is planned for it. *)
Lemma planned k e configs s id d : reachable k e configs s -> ~ panicked s -> timer_is configs id d ->
  exists b u j, last_reading (m_clock k) (s_hist s) id b /\ next_execution (m_zone k) d b = Ret u /\ 0 <= j < cron_count configs /\
    cron_next (g_cron (s_g s)) id = Ret (u + j).
Proof.
  intros R NP T. apply timer_is_parse in T. destruct T as (c & text & Hc & Ty & Hp). assert (W := whole_of R NP). assert (G := so_good _ _ _ (wh_sound _ _ _ W)).
  assert (J : cronjob configs id) by (exists c, text; auto).
  apply (fl_jobs _ _ (go_flow _ _ _ G)) in J. apply in_map_iff in J. destruct J as ([i d'] & Ei & J). cbn in Ei. subst i.
  destruct (wh_desc _ _ _ W _ _ J) as (c' & text' & D1 & D2 & D3). assert (c' = c) as -> by congruence. rewrite D2 in Ty. inversion Ty; subst text'.
  rewrite Hp in D3. inversion D3; subst d'. clear D3.
  destruct (proj1 (ticking _ _ _ _ R) NP id d J) as (b & u & j & B1 & B2 & B3 & B4). rewrite (zone_of _ _ _ _ R) in B2.
  exists b, u, j. assert (Few := timers_few _ _ _ _ R NP). split; [exact B1|]. split; [exact B2|]. split; [lia|exact B4].
Qed.

Lemma zone_on_time k e configs s now r s' o id d m : reachable k e configs s -> s_pc s = AtSpawnCron ->
  sstep e s (CSpawnCron now r) = Some s' -> s_pc s' = AtPoll -> sane (m_zone k) -> timer_is configs id d -> plain_timer d ->
  due_at (m_zone k) d m -> (forall x, In x (m_clock k) -> x < m) -> m + cron_count configs <= now + 1 ->
  (forall b, last_reading (m_clock k) (s_hist s) id b -> b < m -> calm (m_zone k) o b m /\ room b 4000) ->
  exists h1 b ev h2, s_hist s' = h1 ++ EDue id b :: ev :: h2 /\ m <= b /\ tried configs h1 id ev.
Proof.
  intros R P E P' Sa T Pl Du Cl Le Ca.
  assert (NP : ~ panicked s) by (unfold panicked; rewrite P; auto). assert (NP' : ~ panicked s') by (unfold panicked; rewrite P'; auto).
  destruct (cron_round R now r s' P E NP') as [[Es Fut]|(i & cc & tx & dd & t & u & j & evs & X)].
  2:{ exfalso. destruct X as (_ & _ & _ & _ & _ & _ & _ & _ & _ & _ & _ & X & _). congruence. }
  destruct (planned _ _ _ _ _ _ R NP T) as (b & u & j & B1 & B2 & B3 & B4). assert (F := Fut _ _ B4).
  apply timer_is_parse in T. destruct T as (c & text & Hc & Ty & Hp).
  assert (m <= b).
  { destruct (Z.lt_ge_cases b m) as [K|K]; [exfalso|exact K]. destruct (Ca b B1 K) as [C Rm].
    assert (Of : z_off (m_zone k) (b / NS) = o). { apply (calm_wall _ o b b m C). unfold DAY, NS. lia. }
    assert (Or : - DAY < o < DAY) by (rewrite <- Of; apply Sa).
    destruct (plain_exists o text d b Hp Pl Or Rm) as [t Ht].
    pose proof (plain_earliest _ _ _ _ _ Hp Pl Ht) as (E1 & _ & E3).
    assert (t <= m). { apply E3; [exact K|]. apply (calm_due (m_zone k) o d m b m C); [unfold DAY, NS; lia|exact Du]. }
    assert (N : next_execution (m_zone k) d b = Ret t).
    { apply (proj2 (next_calm (m_zone k) o Sa d b t (parse_timer_wf _ _ Hp) (plain_one_rule _ Pl) (proj1 Rm) ltac:(apply (calm_sub _ _ _ m); [exact C|lia]))). exact Ht. }
    rewrite B2 in N. inversion N; subst u. lia. }
  destruct B1 as [(h1 & h2 & Eh & _)|[_ B1]]; [|specialize (Cl _ B1); lia].
  destruct (all_answered _ _ _ _ R _ _ _ _ Eh) as (ev & h3 & -> & A). exists h1, b, ev, h3. subst s'. cbn. auto.
Qed.

Lemma zone_never_early k e configs s o h1 id b h2 : reachable k e configs s -> sane (m_zone k) -> s_hist s = h1 ++ EDue id b :: h2 ->
  (forall d, timer_is configs id d -> one_rule d) ->
  (forall b0, last_reading (m_clock k) h1 id b0 -> calm (m_zone k) o b0 (Z.max b0 b) /\ room b0 0) ->
  exists d b0 m, timer_is configs id d /\ last_reading (m_clock k) h1 id b0 /\ due_at (m_zone k) d m /\ m <= b /\
    ((forall w, td_weekday d <> [w]) -> b0 < m).
Proof.
  intros R Sa E O Ca. destruct (proj2 (ticking _ _ _ _ R) _ _ _ E) as (d & b0 & u & T & L & N & Le). rewrite (zone_of _ _ _ _ R) in N.
  exists d, b0, u. split; [exact T|]. specialize (O d T). apply timer_is_parse in T. destruct T as (c & text & _ & _ & Hp). split; [exact L|].
  destruct (Ca b0 L) as [C Rm].
  destruct (calm_matches (m_zone k) o d b0 u Sa (parse_timer_wf _ _ Hp) O (proj1 Rm) ltac:(apply (calm_sub _ _ _ (Z.max b0 b)); [exact C|lia]) N) as [Du Fu].
  split; [exact Du|]. split; [exact Le|]. intros W. apply Fu. intros [K _]. exact (W _ K).
Qed.

(** * A cronjob whose next time is not in the future *)
Lemma spawn_cron_due tz g now r c id a : cron_pop tz (g_cron g) now = Ret (c, Some id) -> spawn_cron tz g now r = Some a ->
  exists evs, match a with Go _ es => es | Die _ es => es end = EDue id now :: evs.
Proof.
  intros C H. unfold spawn_cron in H. rewrite C in H. inversion H; subst a. unfold then_.
  match goal with |- context [match (if ?b then ?x else ?y) with _ => _ end] => destruct (if b then x else y); eexists; reflexivity end.
Qed.

Section Stuck.
Context (k : machine) (e : env) (configs : list proc_config) (id : nat) (d : timer_desc) (lo hi : instant).
Context (HT : timer_is configs id d).
Context (Hall : forall i q now, timer_is configs i q -> lo <= now < hi -> exists u, next_execution (m_zone k) q now = Ret u).
Context (Hpast : forall now u, lo <= now < hi -> next_execution (m_zone k) d now = Ret u -> u + cron_count configs <= lo + 1).

Definition stuck (s : sys) : Prop := s_pc s = AtSpawnCron /\ exists t, cron_next (g_cron (s_g s)) id = Ret t /\ t <= lo.

Lemma stuck_step s o s' : reachable k e configs s -> stuck s -> sstep e s o = Some s' -> (forall now r, o = CSpawnCron now r -> lo <= now < hi) -> stuck s'.
Proof using HT Hall Hpast.
  intros R (P & t & Ct & Lt) E Ho.
  assert (NP : ~ panicked s) by (unfold panicked; rewrite P; auto). assert (W := whole_of R NP). assert (G := so_good _ _ _ (wh_sound _ _ _ W)). assert (Ci := fl_cron _ _ (go_flow _ _ _ G)).
  destruct o as [pid|pid|pid|pid st|fd data|fd| |r|now r|evs|a|w]; cbn [sstep] in E; try (destruct w; rewrite P in E; discriminate); rewrite ?P in E; try discriminate;
    try (repeat match type of E with context [match ?x with _ => _ end] => destruct x; try discriminate end; inversion E; subst s'; cbn; rewrite ?P; split; [assumption || reflexivity|eauto]; fail).
  specialize (Ho now r eq_refl).
  assert (E0 : sstep e s (CSpawnCron now r) = Some s') by (cbn [sstep]; rewrite P; exact E).
  assert (Pop : exists x, cron_pop (e_zone e) (g_cron (s_g s)) now = Ret x).
  { apply cron_pop_total; [exact Ci|]. intros i q K. destruct (wh_desc _ _ _ W _ _ K) as (c' & text' & D1 & D2 & D3).
    rewrite (zone_of _ _ _ _ R). apply (Hall i q now); [apply timer_is_parse; exists c', text'; auto|exact Ho]. }
  destruct Pop as [[c [i|]] Pop].
  - assert (NP' : ~ panicked s').
    { assert (T := sstep_trans _ _ _ _ (reachable_order _ _ _ _ R) E0).
      assert (HE : exists l, s_hist s' = s_hist s ++ EDue i now :: l).
      { destruct (spawn_cron (e_zone e) (s_g s) now r) as [a|] eqn:Sp; [|unfold spawn_cron in Sp; rewrite Pop in Sp; discriminate].
        destruct (spawn_cron_due _ _ _ _ _ _ _ Pop Sp) as [l Hl]. exists l. rewrite <- Hl.
        destruct (forks a); [destruct (fork_fits e (s_k s) r); [|discriminate]|]; inversion E; subst s'; destruct a; reflexivity. }
      destruct HE as [l HE]. destruct (trans_tick _ _ _ T) as [(_ & evs & H & U)|(now' & c' & i' & evs & _ & C' & H & _ & D)].
      - exfalso. rewrite HE in H. apply app_inv_head in H. subst evs. exact (U _ (or_introl eq_refl)).
      - rewrite HE in H. apply app_inv_head in H. inversion H; subst. destruct D as [[_ D]|[_ D]]; [exact D|exfalso].
        pose proof (due_cronjob _ _ _ _ _ _ (go_flow _ _ _ G) C') as (cc & tt & Hc & _). assert (Ln : (i' < length configs)%nat) by (apply nth_error_Some; congruence).
        rewrite <- (ma_len _ _ _ (go_maps _ _ _ G)) in Ln. apply lookup_lt_is_Some in Ln. destruct Ln as [p Ln]. congruence. }
    destruct (cron_round R now r s' P E0 NP') as [[_ Fut]|(i' & cc & tx & dd & t' & u & j & evs & X)].
    { specialize (Fut _ _ Ct). lia. }
    destruct X as (X1 & X2 & X3 & X4 & X5 & X6 & X7 & X8 & X9 & X10 & X11 & X12 & _). split; [exact X12|].
    destruct (Nat.eq_dec i' id) as [->|Ni].
    + exists (u + j). split; [exact X9|]. assert (dd = d) as ->.
      { pose proof HT as HT0. apply timer_is_parse in HT0. destruct HT0 as (c2 & t2 & A1 & A2 & A3). assert (cc = c2) as -> by congruence. congruence. }
      rewrite (zone_of _ _ _ _ R) in X7. specialize (Hpast now u Ho X7). assert (Few := timers_few _ _ _ _ R NP). lia.
    + exists t. rewrite (X10 id) by congruence. auto.
  - exfalso. apply cron_pop_spec in Pop; [|exact Ci]. destruct Pop as (_ & _ & _ & Fut). apply cron_next_in in Ct; [|exact Ci]. specialize (Fut _ _ Ct). lia.
Qed.

Theorem stuck_always s ops s' : reachable k e configs s -> stuck s -> execute e s ops = Some s' ->
  (forall now r, In (CSpawnCron now r) ops -> lo <= now < hi) -> stuck s'.
Proof using HT Hall Hpast.
  revert s. induction ops as [|o ops IH]; intros s R St X H; cbn [execute] in X; [inversion X; subst; exact St|].
  destruct (sstep e s o) as [s1|] eqn:E; [|discriminate]. apply (IH s1); [eauto using reachable_snoc| |exact X|intros now r K; apply (H now r); right; exact K].
  apply (stuck_step s o s1 R St E). intros now r ->. apply (H now r). left. reflexivity.
Qed.
End Stuck.

Lemma stays k e configs s id d lo hi : reachable k e configs s -> s_pc s = AtSpawnCron -> timer_is configs id d ->
  (forall i q now, timer_is configs i q -> lo <= now < hi -> exists u, next_execution (m_zone k) q now = Ret u) ->
  (forall now u, lo <= now < hi -> next_execution (m_zone k) d now = Ret u -> u + cron_count configs <= lo + 1) ->
  (exists b, last_reading [] (s_hist s) id b /\ lo <= b < hi) ->
  forall ops s', execute e s ops = Some s' -> (forall now r, In (CSpawnCron now r) ops -> lo <= now < hi) -> s_pc s' = AtSpawnCron.
Proof.
  intros R P T Hall Hpast (b0 & L0 & B0) ops s' X H.
  assert (NP : ~ panicked s) by (unfold panicked; rewrite P; auto).
  assert (St : stuck id lo s).
  { split; [exact P|]. destruct (planned _ _ _ _ _ _ R NP T) as (b & u & j & B1 & B2 & B3 & B4). exists (u + j). split; [exact B4|].
    destruct L0 as [(h1 & h2 & Eh & U)|[_ []]]. assert (b = b0) as ->.
    { rewrite Eh in B1. apply reading_between in B1; [exact B1|exact U]. }
    specialize (Hpast b0 u B0 B2). lia. }
  apply (stuck_always k e configs id d lo hi T Hall Hpast s ops s' R St X H).
Qed.

Theorem held k e configs s id d lo hi : reachable k e configs s -> s_pc s = AtSpawnCron -> timer_is configs id d ->
  (forall i q now, timer_is configs i q -> lo <= now < hi -> exists u, next_execution (m_zone k) q now = Ret u) ->
  (forall now u, lo <= now < hi -> next_execution (m_zone k) d now = Ret u -> u + cron_count configs <= lo + 1) ->
  (exists b, last_reading [] (s_hist s) id b /\ lo <= b < hi) ->
  forall ops s', execute e s ops = Some s' -> (forall now r, In (CSpawnCron now r) ops -> lo <= now < hi) ->
  s_pc s' = AtSpawnCron /\ forall now, exists s'', sstep e s' (CSpawnCron now ForkFailed) = Some s''.
Proof.
  intros R P T Hall Hpast L ops s' X H. assert (P' := stays _ _ _ _ _ _ _ _ R P T Hall Hpast L ops s' X H).
  split; [exact P'|]. intros now. cbn [sstep]. rewrite P'. destruct (spawn_cron _ _ _ _) as [a|]; [|eauto]. destruct (forks a); cbn; eauto.
Qed.
