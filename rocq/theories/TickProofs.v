(** Proofs about the schedule of cronjobs. *)
From stdpp Require Import gmap strings.
From Coq Require Import Ascii ZArith List Bool Lia Permutation Relations.
From Verif Require Import Base RStr CronModel ConfigModel ProcessModel EnvModel DepModel NotifyModel ManagerModel SysModel
  MainModel SpecDep SpecMain SpecTimer SpecSched SpecCal SpecRun SpecLive SpecTick DepProofs CronParseProofs CronTextProofs CronNextProofs CronSchedProofs CronTimerProofs MainProofs RunStep RunInv RunFlow RunHist RunAlive RunStream RunClaims RunLife RunThms
  RunFinal RunSteps RunSteps2 RunView RunSteps3 RunSteps4 RunReport RunSteps5 RunLive.
Import ListNotations.
Local Open Scope string_scope.
Local Open Scope list_scope.
Local Open Scope Z_scope.

Definition undue (ev : event) : Prop := match ev with EDue _ _ => False | _ => True end.

Lemma undue_kills sg l ev : In ev (kills sg l) -> undue ev.
Proof. intros K. apply in_map_iff in K. destruct K as (x & <- & _). exact Logic.I. Qed.

(** What a step does to the schedule. *)
Definition tick (e : env) (s s' : sys) : Prop :=
  (g_cron (s_g s') = g_cron (s_g s) /\ exists evs, s_hist s' = s_hist s ++ evs /\ forall ev, In ev evs -> undue ev) \/
  (exists now c id evs, s_pc s = AtSpawnCron /\ cron_pop (e_zone e) (g_cron (s_g s)) now = Ret (c, Some id) /\ s_hist s' = s_hist s ++ EDue id now :: evs /\
     (forall ev, In ev evs -> undue ev) /\ ((g_cron (s_g s') = c /\ ~ panicked s') \/ (panicked s' /\ g_procs (s_g s) !! id = None))).

Ltac undue_tac := let K := fresh "K" in intros ? K; cbn [In app] in K; decompose [or] K; subst; try contradiction; exact Logic.I.
Ltac keeps := left; split; [reflexivity|]; eexists; split; [reflexivity|undue_tac].

Lemma trans_tick e s s' : trans e s s' -> tick e s s'.
Proof.
  intros T. step_cases T; cbn [mk_s with_kernel]; unfold tick; cbn [mk_s s_hist s_g with_kernel set_dep set_cron g_cron set_keep set_fds mk_g];
    try (keeps; fail); try (left; split; [reflexivity|]; exists []; rewrite app_nil_r; split; [reflexivity|intros ev []]; fail).
  - right. exists now, c, id, [ESkipped id]. split; [exact P|]. split; [exact C|]. split; [reflexivity|]. split; [undue_tac|left; split; [reflexivity|unfold panicked; cbn; rewrite ?P, ?A; exact (fun x => x)]].
  - destruct O as [d q A B D E|now c A B D]; [keeps|].
    right. exists now, c, id, [ERefused id]. split; [exact A|]. split; [exact B|]. split; [reflexivity|]. split; [undue_tac|left; split; [reflexivity|unfold panicked; cbn; rewrite ?P, ?A; exact (fun x => x)]].
  - destruct O as [d q A B D E|now c A B D]; [keeps|].
    right. exists now, c, id, [EStartFail id]. split; [exact A|]. split; [exact B|]. split; [reflexivity|]. split; [undue_tac|left; split; [reflexivity|unfold panicked; cbn; rewrite ?P, ?A; exact (fun x => x)]].
  - destruct O as [d q A B D E|now c A B D]; [keeps|].
    right. exists now, c, id, [EStart id pid; EOpen out id true; EOpen err id false]. split; [exact A|]. split; [exact B|]. split; [reflexivity|]. split; [undue_tac|left; split; [reflexivity|unfold panicked; cbn; rewrite ?P, ?A; exact (fun x => x)]].
  - left. split; [reflexivity|]. eexists. split; [reflexivity|]. intros ev [<-|K]; [exact Logic.I|eapply undue_kills; eauto].
  - left. split; [reflexivity|]. eexists. split; [reflexivity|]. intros ev [<-|X]; [exact Logic.I|]. apply in_map_iff in X. destruct X as (x & <- & _). exact Logic.I.
  - left. split; [reflexivity|]. eexists. split; [reflexivity|]. intros ev [<-|[<-|K]]; [exact Logic.I|exact Logic.I|eapply undue_kills; eauto].
  - destruct D; try (keeps; fail).
    + right. exists now, c, id, []. split; [assumption|]. split; [assumption|]. split; [reflexivity|]. split; [undue_tac|right; split; [exact Logic.I|assumption]].
    + left. split; [reflexivity|]. eexists. split; [reflexivity|]. intros ev [<-|K]; [exact Logic.I|eapply undue_kills; eauto].
    + left. split; [reflexivity|]. eexists. split; [reflexivity|]. intros ev [<-|[<-|K]]; [exact Logic.I|exact Logic.I|eapply undue_kills; eauto].
    + left. split; [reflexivity|]. eexists. split; [reflexivity|]. intros ev [<-|[<-|K]]; [exact Logic.I|exact Logic.I|eapply undue_kills; eauto].
Qed.

(** * The reading a schedule was computed from *)
Lemma reading_app clock h evs id b : (forall b', ~ In (EDue id b') evs) -> last_reading clock h id b -> last_reading clock (h ++ evs) id b.
Proof.
  intros N [(h1 & h2 & -> & U)|[U I]].
  - left. exists h1, (h2 ++ evs). split; [rewrite <- app_assoc; reflexivity|]. intros b' K. apply in_app_or in K. destruct K as [K|K]; [eapply U; eauto|eapply N; eauto].
  - right. split; [|exact I]. intros b' K. apply in_app_or in K. destruct K as [K|K]; [eapply U; eauto|eapply N; eauto].
Qed.
Lemma reading_here clock h id b evs : (forall b', ~ In (EDue id b') evs) -> last_reading clock (h ++ EDue id b :: evs) id b.
Proof. intros N. left. exists h, evs. auto. Qed.

(** ** At the start *)
Lemma first_schedule tz config : forall c clock c' all, with_jobs_from tz c config clock = Ret (Ok c') -> cron_inv c ->
  NoDup (map fst config ++ map fst (timers c)) -> (forall x, In x clock -> In x all) ->
  (forall id d, In (id, d) (timers c) -> exists b u j, In b all /\ next_execution tz d b = Ret u /\ 0 <= j < Z.of_nat (length (timers c)) /\ In (u + j, id) (timer c)) ->
  forall id d, In (id, d) (timers c') -> exists b u j, In b all /\ next_execution tz d b = Ret u /\ 0 <= j < Z.of_nat (length (timers c')) /\ In (u + j, id) (timer c').
Proof.
  induction config as [|[i raw] rest IH]; intros c clock c' all H Hinv Hnd Hall Hold; cbn [with_jobs_from] in H.
  - injection H as <-. exact Hold.
  - destruct raw as [raw|]; [|discriminate]. destruct (parse_timer raw) as [[desc|]|]; try discriminate.
    destruct clock as [|now clock]; [discriminate|].
    destruct (next_execution tz desc now) as [t|] eqn:Nx; [cbn [obind] in H|discriminate].
    pose proof Hinv as (Hk & Hn & Hp). destruct (insert_job_ok (timer c) t i Hk) as (u & m' & Em & Pm & Km & Hb & _).
    rewrite Em in H. cbn [obind] in H. cbn [map fst app] in Hnd.
    apply (IH _ _ _ all H).
    + split; [assumption|]. cbn [timers timer map fst]. inversion Hnd; subst. split.
      * constructor; [|assumption]. intros Hin. apply H2. apply in_or_app. now right.
      * rewrite (Permutation_map snd Pm). cbn [map snd]. now constructor.
    + cbn [timers map fst]. eapply Permutation_NoDup; [|exact Hnd]. apply Permutation_middle.
    + intros x K. apply Hall. now right.
    + cbn [timers timer]. intros id d [E|K].
      * injection E as <- <-. exists now, t, (u - t). split; [apply Hall; now left|]. split; [exact Nx|]. split.
        -- apply Permutation_length in Hp. rewrite !map_length in Hp. cbn [length]. lia.
        -- replace (t + (u - t)) with u by lia. apply (Permutation_in _ (Permutation_sym Pm)). now left.
      * destruct (Hold id d K) as (b & v & j & B1 & B2 & B3 & B4). exists b, v, j. split; [exact B1|]. split; [exact B2|].
        split; [cbn [length]; lia|]. apply (Permutation_in _ (Permutation_sym Pm)). now right.
Qed.

Definition scheduled (k : machine) (e : env) (s : sys) : Prop :=
  forall id d, In (id, d) (timers (g_cron (s_g s))) -> exists b u j, last_reading (m_clock k) (s_hist s) id b /\
    next_execution (e_zone e) d b = Ret u /\ 0 <= j < Z.of_nat (length (timers (g_cron (s_g s)))) /\ cron_next (g_cron (s_g s)) id = Ret (u + j).

Lemma launched_scheduled k e configs s : launched k e configs s -> scheduled k e s /\ cron_inv (g_cron (s_g s)).
Proof.
  intros L. assert (SS := launched_start _ _ _ _ L). assert (Ci := ss_cron _ _ SS). split; [|exact Ci].
  destruct L as (_ & Z & _ & a & others & R & _ & ->).
  assert (B : build_cron (m_zone k) (m_clock k) configs = Ret (Ok (a_cron a))).
  { assert (M : manager_from k configs = Ret (Ok a)).
    { unfold run in R. destruct (do_startup_checks _ _); [|discriminate].
      destruct (parse_config _ _ _) as [[cs|]|]; cbn [obind] in R; try discriminate.
      destruct (manager_from k cs) as [[a'|]|] eqn:E; cbn [obind] in R; try discriminate.
      destruct (m_setup k); [|discriminate]. inversion R; subst. exact E. }
    unfold manager_from in M. destruct (build_processes _ _) as [[ps|]|]; try discriminate. cbn [obind] in M.
    destruct (build_dependency_manager _ _ _) as [dep|]; cbn [obind] in M; [|discriminate].
    destruct (build_cron _ _ _) as [cr|] eqn:B; cbn [obind] in M; [|discriminate].
    destruct (negb _); [discriminate|]. destruct dep; [|discriminate]. destruct cr; [|discriminate].
    destruct (m_epoll k); [|discriminate]. inversion M; subst. reflexivity. }
  intros id d K. cbn [initial s_g g_cron] in K, Ci |- *. rewrite Z.
  unfold build_cron in B. set (jobs := List.filter _ _) in B.
  destruct (with_jobs _ _ _) as [[c|[]]|] eqn:WJ; cbn [obind] in B; try discriminate.
  2: destruct (nth_error configs n); discriminate.
  inversion B; subst c. unfold with_jobs in WJ.
  destruct (first_schedule _ _ _ _ _ (m_clock k) WJ) with (id := id) (d := d) as (b & u & j & B1 & B2 & B3 & B4); auto.
  - split; [constructor|]. cbn. split; constructor.
  - cbn. rewrite app_nil_r, map_map. cbn. apply filter_fst_nodup. rewrite map_fst_enumerate. apply seq_NoDup.
  - intros i q [].
  - exists b, u, j. split; [right; split; [intros b' []|exact B1]|]. split; [exact B2|]. split; [exact B3|].
    apply cron_next_in; auto.
Qed.

Lemma undue_due evs : (forall ev, In ev evs -> undue ev) -> forall id b, ~ In (EDue id b) evs.
Proof. intros U id b K. apply U in K. exact K. Qed.

(** When a cronjob is due. *)
Definition due_claim (k : machine) (e : env) (configs : list proc_config) (h : list event) (ev : event) : Prop :=
  match ev with
  | EDue id b => exists d b0 u, timer_is configs id d /\ last_reading (m_clock k) h id b0 /\ next_execution (e_zone e) d b0 = Ret u /\ u <= b
  | _ => True
  end.

Lemma timer_is_parse configs id d : timer_is configs id d <->
  exists c text, nth_error configs id = Some c /\ pc_type c = CronJob text /\ parse_timer text = Ret (Ok d).
Proof. split; intros (c & text & H1 & H2 & H3); exists c, text; (split; [exact H1|]; split; [exact H2|]); [exact (proj1 (spells_parse text d) H3)|exact (proj2 (spells_parse text d) H3)]. Qed.

Lemma fst_unique {A} (l : list (nat * A)) i x y : List.NoDup (map fst l) -> In (i, x) l -> In (i, y) l -> x = y.
Proof.
  induction l as [|[n z] l IH]; cbn; intros N X Y; [destruct X|]. inversion N as [|? ? N1 N2]; subst.
  destruct X as [X|X], Y as [Y|Y]; [congruence| | |auto].
  - inversion X; subst. exfalso. apply N1. apply in_map_iff. exists (i, y). auto.
  - inversion Y; subst. exfalso. apply N1. apply in_map_iff. exists (i, x). auto.
Qed.

Lemma tick_step k e configs s s' : reachable k e configs s -> ~ panicked s -> trans e s s' ->
  scheduled k e s -> each_time (s_hist s) (due_claim k e configs) ->
  (~ panicked s' -> scheduled k e s') /\ each_time (s_hist s') (due_claim k e configs).
Proof.
  intros R NP T Sc Ea. assert (W := whole_of R NP). assert (G := so_good _ _ _ (wh_sound _ _ _ W)). assert (Ci := fl_cron _ _ (go_flow _ _ _ G)).
  destruct (trans_tick _ _ _ T) as [(E & evs & H & U)|(now & c & id & evs & P & C & H & U & E)].
  - rewrite H. split.
    + intros _ id d K. rewrite E in K. destruct (Sc id d K) as (b & u & j & B1 & B2). exists b, u, j. rewrite E, H. split; [|exact B2].
      apply reading_app; [apply undue_due; exact U|exact B1].
    + apply each_other; [exact Ea|]. intros h ev K. apply U in K. destruct ev; try exact Logic.I. destruct K.
  - apply cron_pop_spec in C; [|exact Ci]. destruct C as (Et & Ci' & t & d & u & j & C1 & C2 & C3 & C4 & C5 & C6 & C7 & C8).
    apply timer_of_In in C4. split.
    + intros NP'. destruct E as [[E _]|[E _]]; [|contradiction]. intros i q K. rewrite E, Et in K. rewrite E, Et.
      assert (Nx : forall x i, cron_next c i = Ret x <-> (i = id /\ x = u + j) \/ (i <> id /\ cron_next (g_cron (s_g s)) i = Ret x)).
      { intros x y. rewrite cron_next_in, C8, cron_next_in; tauto. }
      destruct (Nat.eq_dec i id) as [->|N].
      * assert (q = d) as ->. { destruct Ci as (_ & Nd & _). eapply fst_unique; eauto. }
        exists now, u, j. rewrite H. split; [apply reading_here; apply undue_due; exact U|]. split; [exact C5|]. split; [exact C6|]. apply Nx. auto.
      * destruct (Sc i q K) as (b & v & l & B1 & B2 & B3 & B4). exists b, v, l. rewrite H. split.
        -- apply reading_app; [|exact B1]. intros b' [X|X]; [inversion X; congruence|]. exact (undue_due _ U _ _ X).
        -- split; [exact B2|]. split; [exact B3|]. apply Nx. auto.
    + rewrite H. replace (s_hist s ++ EDue id now :: evs) with ((s_hist s ++ [EDue id now]) ++ evs) by (rewrite <- app_assoc; reflexivity).
      apply each_other; [|intros h ev K; apply U in K; destruct ev; try exact Logic.I; destruct K].
      apply each_last; [exact Ea|]. destruct (Sc id d C4) as (b & v & l & B1 & B2 & B3 & B4). cbn.
      exists d, b, v. destruct (wh_desc _ _ _ W _ _ C4) as (cc & text & D1 & D2 & D3). split; [apply timer_is_parse; exists cc, text; auto|]. split; [exact B1|]. split; [exact B2|].
      apply cron_next_in in C1; [|exact Ci]. rewrite B4 in C1. inversion C1; subst. lia.
Qed.

Lemma ticking k e configs s : reachable k e configs s -> (~ panicked s -> scheduled k e s) /\ each_time (s_hist s) (due_claim k e configs).
Proof.
  intros (s0 & ops & L & X). assert (R0 : reachable k e configs s0) by (exists s0, []; auto).
  assert (I0 : (~ panicked s0 -> scheduled k e s0) /\ each_time (s_hist s0) (due_claim k e configs)).
  { split; [intros _; exact (proj1 (launched_scheduled _ _ _ _ L))|]. rewrite (ss_hist _ _ (launched_start _ _ _ _ L)). apply each_nil. }
  clear L. revert s0 R0 I0 X. induction ops as [|o ops IH]; intros s0 R0 I0 X; cbn in X; [inversion X; subst; auto|].
  destruct (sstep e s0 o) as [s1|] eqn:E; [|discriminate]. apply (IH s1); [eauto using reachable_snoc| |exact X].
  assert (T := sstep_trans _ _ _ _ (reachable_order _ _ _ _ R0) E). destruct (panicked_dec s0) as [P|P].
  - destruct (panicked_step _ _ _ P T) as (P' & evs & H & K). split; [intros N; contradiction|]. rewrite H.
    apply each_other; [apply I0|]. intros h ev Y. destruct (K _ Y) as (fd & data & ->). exact Logic.I.
  - destruct I0 as [I1 I2]. eapply tick_step; eauto.
Qed.

(** * Every due cronjob is dealt with *)
Definition answered (configs : list proc_config) (h : list event) : Prop :=
  forall h1 id b h2, h = h1 ++ EDue id b :: h2 -> exists ev h3, h2 = ev :: h3 /\ tried configs h1 id ev.

Lemma answered_undue configs h evs : answered configs h -> (forall ev, In ev evs -> undue ev) -> answered configs (h ++ evs).
Proof.
  intros A U h1 id b h2 E. apply split_app in E. destruct E as [(h3 & -> & ->)|(e1 & e2 & -> & -> & ->)].
  - destruct (A _ _ _ _ eq_refl) as (ev & h & -> & T). exists ev, (h ++ evs). auto.
  - exfalso. apply (U (EDue id b)). apply in_or_app. right. now left.
Qed.
Lemma answered_due configs h id b ev evs : answered configs h -> tried configs h id ev -> undue ev -> (forall ev, In ev evs -> undue ev) ->
  answered configs (h ++ EDue id b :: ev :: evs).
Proof.
  intros A T U U'. replace (h ++ EDue id b :: ev :: evs) with ((h ++ [EDue id b; ev]) ++ evs) by (rewrite <- app_assoc; reflexivity).
  apply answered_undue; [|exact U']. intros h1 i c h2 E. apply split_app in E. destruct E as [(h3 & -> & ->)|(e1 & e2 & -> & E & ->)].
  - destruct (A _ _ _ _ eq_refl) as (ev' & l & -> & T'). exists ev', (l ++ [EDue id b; ev]). auto.
  - destruct e1 as [|x [|y e1]]; inversion E; subst.
    + rewrite app_nil_r. exists ev, []. auto.
    + destruct U.
    + destruct e1; discriminate.
Qed.

Lemma answered_step k e configs s o s' : reachable k e configs s -> ~ panicked s -> sstep e s o = Some s' -> answered configs (s_hist s) -> answered configs (s_hist s').
Proof.
  intros R NP E A. assert (T := sstep_trans _ _ _ _ (reachable_order _ _ _ _ R) E).
  assert (W := whole_of R NP). assert (G := so_good _ _ _ (wh_sound _ _ _ W)). assert (Ci := fl_cron _ _ (go_flow _ _ _ G)).
  destruct (trans_tick _ _ _ T) as [(_ & evs & H & U)|(now & c & id & evs & P & C & H & U & D)]; [rewrite H; apply answered_undue; auto|].
  assert (NP' : ~ panicked s').
  { destruct D as [[_ D]|[_ D]]; [exact D|exfalso]. pose proof (due_cronjob _ _ _ _ _ _ (go_flow _ _ _ G) C) as (cc & t & Hc & _). assert (Lt : (id < length configs)%nat) by (apply nth_error_Some; congruence).
      rewrite <- (ma_len _ _ _ (go_maps _ _ _ G)) in Lt. apply lookup_lt_is_Some in Lt. destruct Lt as [p Lt]. congruence. }
  assert (X : exists now r, o = CSpawnCron now r).
  { assert (Ne : forall x l, s_hist s <> s_hist s ++ x :: l). { intros x l Y. apply (f_equal (@length event)) in Y. rewrite app_length in Y. cbn in Y. lia. }
    destruct o; cbn in E; rewrite ?P in E; try discriminate; eauto; exfalso;
      repeat match type of E with context [match ?x with _ => _ end] => destruct x; try discriminate end;
      inversion E; subst; cbn in H; try (eapply Ne; exact H); apply app_inv_head in H; discriminate. }
  destruct X as (now' & r & ->).
  destruct (cron_round R now' r s' P E NP') as [[-> _]|(i & cc & text & d & t & u & j & evs' & _ & _ & _ & _ & _ & _ & _ & _ & _ & _ & H' & _ & Q)].
  - exfalso. cbn in H. apply (f_equal (@length event)) in H. rewrite app_length in H. cbn in H. lia.
  - rewrite H'. destruct Q as [[Q ->]|[(Q & V & ->)|(Q & V & ->)]].
    + apply answered_due; [exact A|left; auto|exact Logic.I|intros ev []].
    + apply answered_due; [exact A|right; left; auto|exact Logic.I|intros ev []].
    + destruct r as [|pid out err wo we].
      * apply answered_due; [exact A|right; right; auto|exact Logic.I|intros ev []].
      * apply answered_due; [exact A|right; right; eauto|exact Logic.I|undue_tac].
Qed.

Lemma all_answered k e configs s : reachable k e configs s -> answered configs (s_hist s).
Proof.
  intros (s0 & ops & L & X). assert (R0 : reachable k e configs s0) by (exists s0, []; auto).
  assert (I0 : answered configs (s_hist s0)).
  { rewrite (ss_hist _ _ (launched_start _ _ _ _ L)). intros [|x h1] id b h2 E; discriminate. }
  clear L. revert s0 R0 I0 X. induction ops as [|o ops IH]; intros s0 R0 I0 X; cbn in X; [inversion X; subst; auto|].
  destruct (sstep e s0 o) as [s1|] eqn:E; [|discriminate]. apply (IH s1); [eauto using reachable_snoc| |exact X].
  assert (T := sstep_trans _ _ _ _ (reachable_order _ _ _ _ R0) E). destruct (panicked_dec s0) as [P|P].
  - destruct (panicked_step _ _ _ P T) as (P' & evs & H & K). rewrite H. apply answered_undue; [exact I0|].
    intros ev Y. destruct (K _ Y) as (fd & data & ->). exact Logic.I.
  - eapply answered_step; eauto.
Qed.

Lemma plain_earliest o text d from t : parse_timer text = Ret (Ok d) -> plain_timer d -> next_execution (fixed o) d from = Ret t -> earliest (fixed o) d from t.
Proof.
  intros Hp (ND & [(NW & C)|(W & (h0 & m0 & Hh & Hm) & Two)]) H; assert (Ok := parse_timer_wf _ _ Hp).
  - apply (earliest_daily o d from t Ok NW ND C H).
  - apply (earliest_weekly o d from t h0 m0 Ok Hh Hm W ND); [|exact H]. intros [E _]. exact (Two _ E).
Qed.

Lemma zone_of k e configs s : reachable k e configs s -> e_zone e = m_zone k.
Proof. intros (z & zs & (_ & Z & _) & _). exact Z. Qed.

Lemma timers_few k e configs s : reachable k e configs s -> ~ panicked s -> Z.of_nat (length (timers (g_cron (s_g s)))) <= cron_count configs.
Proof.
  intros R NP. assert (W := whole_of R NP). assert (G := so_good _ _ _ (wh_sound _ _ _ W)). destruct (fl_cron _ _ (go_flow _ _ _ G)) as (_ & Nd & _).
  unfold cron_count. set (jobs := List.filter (fun x => is_cronjob (pc_type (snd x))) (enumerate configs)).
  assert (L : length jobs = length (List.filter (fun c => is_cronjob (pc_type c)) configs)).
  { unfold jobs. rewrite <- (map_snd_enumerate configs) at 2. clear. induction (enumerate configs) as [|[i c] l IH]; [reflexivity|].
    cbn. destruct (is_cronjob (pc_type c)); cbn; rewrite IH; reflexivity. }
  rewrite <- L, <- (map_length fst (timers _)), <- (map_length fst jobs). apply inj_le. apply List.NoDup_incl_length; [exact Nd|]. intros id K.
  apply (fl_jobs _ _ (go_flow _ _ _ G)) in K. destruct K as (c & t & Hc & Ty). apply in_map_iff. exists (id, c). split; [reflexivity|].
  apply filter_In. split; [apply enumerate_in; exact Hc|]. cbn. rewrite Ty. reflexivity.
Qed.

(** A cronjob that ought to have run has been tried. *)
Lemma on_time k e configs s now r s' o id d m : reachable k e configs s -> s_pc s = AtSpawnCron ->
  sstep e s (CSpawnCron now r) = Some s' -> s_pc s' = AtPoll -> m_zone k = fixed o -> timer_is configs id d -> plain_timer d ->
  due_at (fixed o) d m -> (forall x, In x (m_clock k) -> x < m) -> m + cron_count configs <= now + 1 ->
  exists h1 b ev h2, s_hist s' = h1 ++ EDue id b :: ev :: h2 /\ m <= b /\ tried configs h1 id ev.
Proof.
  intros R P E P' Z T Pl Du Cl Le. apply timer_is_parse in T. destruct T as (c & text & Hc & Ty & Hp).
  assert (NP : ~ panicked s) by (unfold panicked; rewrite P; auto). assert (NP' : ~ panicked s') by (unfold panicked; rewrite P'; auto).
  assert (W := whole_of R NP). assert (G := so_good _ _ _ (wh_sound _ _ _ W)).
  destruct (cron_round R now r s' P E NP') as [[Es Fut]|(i & cc & tx & dd & t & u & j & evs & X)].
  2:{ exfalso. destruct X as (_ & _ & _ & _ & _ & _ & _ & _ & _ & _ & _ & X & _). congruence. }
  assert (J : cronjob configs id) by (exists c, text; auto).
  apply (fl_jobs _ _ (go_flow _ _ _ G)) in J. apply in_map_iff in J. destruct J as ([i d'] & Ei & J). cbn in Ei. subst i.
  destruct (wh_desc _ _ _ W _ _ J) as (c' & text' & D1 & D2 & D3). assert (c' = c) as -> by congruence. rewrite D2 in Ty. inversion Ty; subst text'.
  rewrite Hp in D3. inversion D3; subst d'. clear D3.
  destruct (proj1 (ticking _ _ _ _ R) NP id d J) as (b & u & j & B1 & B2 & B3 & B4).
  rewrite (zone_of _ _ _ _ R), Z in B2. destruct (plain_earliest _ _ _ _ _ Hp Pl B2) as (_ & _ & Early).
  assert (F := Fut _ _ B4). assert (Few := timers_few _ _ _ _ R NP).
  assert (m <= b). { destruct (Z.lt_ge_cases b m) as [K|K]; [|exact K]. specialize (Early m K Du). lia. }
  destruct B1 as [(h1 & h2 & Eh & _)|[_ B1]]; [|specialize (Cl _ B1); lia].
  destruct (all_answered _ _ _ _ R _ _ _ _ Eh) as (ev & h3 & -> & T). exists h1, b, ev, h3. subst s'. cbn. auto.
Qed.

(** A cronjob is due only at or after a time of its timer that no earlier decision took into account. *)
Lemma never_early k e configs s o h1 id b h2 : reachable k e configs s -> m_zone k = fixed o -> s_hist s = h1 ++ EDue id b :: h2 ->
  exists d b0 m, timer_is configs id d /\ last_reading (m_clock k) h1 id b0 /\ due_at (fixed o) d m /\ m <= b /\
    ((forall w, td_weekday d <> [w]) -> b0 < m).
Proof.
  intros R Z E. destruct (proj2 (ticking _ _ _ _ R) _ _ _ E) as (d & b0 & u & T & L & N & Le). rewrite (zone_of _ _ _ _ R), Z in N.
  exists d, b0, u. split; [exact T|]. apply timer_is_parse in T. destruct T as (c & text & _ & _ & Hp). split; [exact L|].
  split; [exact (next_execution_due o d b0 u (parse_timer_wf _ _ Hp) N)|]. split; [exact Le|].
  intros W. apply (next_execution_future_iff o d b0 u (parse_timer_wf _ _ Hp) N). intros [K _]. exact (W _ K).
Qed.

(** Two successive decisions about a cronjob. *)
Lemma reading_between clock h1 id b0 h2 b1 : (forall b', ~ In (EDue id b') h2) -> last_reading clock (h1 ++ EDue id b0 :: h2) id b1 -> b1 = b0.
Proof.
  intros N [(l1 & l2 & E & U)|[U _]].
  - apply split_app in E as K. destruct K as [(h3 & -> & E1)|(e1 & e2 & -> & E1 & E2)].
    + exfalso. apply (U b0). apply in_or_app. right. now left.
    + destruct e1 as [|x e1]; inversion E1; subst; [reflexivity|]. exfalso. apply (N b1). apply in_or_app. right. now left.
  - exfalso. apply (U b0). apply in_or_app. right. now left.
Qed.
Lemma own_time k e configs s o h1 id b0 h2 b h3 d : reachable k e configs s -> m_zone k = fixed o ->
  s_hist s = h1 ++ EDue id b0 :: h2 ++ EDue id b :: h3 -> (forall b', ~ In (EDue id b') h2) ->
  timer_is configs id d -> (forall w, td_weekday d <> [w]) -> exists m, due_at (fixed o) d m /\ b0 < m <= b.
Proof.
  intros R Z E N T W. replace (h1 ++ EDue id b0 :: h2 ++ EDue id b :: h3) with ((h1 ++ EDue id b0 :: h2) ++ EDue id b :: h3) in E by (rewrite <- app_assoc; reflexivity).
  destruct (never_early _ _ _ _ _ _ _ _ _ R Z E) as (d' & b1 & m & T' & L & Du & Le & F). apply reading_between in L; [|exact N]. subst b1.
  assert (d' = d) as ->. { apply timer_is_parse in T, T'. destruct T as (c & t & A1 & A2 & A3), T' as (c' & t' & B1 & B2 & B3). assert (c' = c) as -> by congruence. congruence. }
  exists m. auto.
Qed.

(** What the status report says about a cronjob. *)
Lemma reported_schedule k e configs s rest s' o : reachable k e configs s -> m_zone k = fixed o ->
  s_pc s = AtEvents (EvIn (e_status e) :: rest) -> e_status e <> e_signal e -> sstep e s (CEvent (AAccept true)) = Some s' ->
  exists next, s_hist s' = s_hist s ++ [EReport (unlines ("programs:" :: flat_map (entry configs (s_hist s) (fun id => e_rfc3339 e (next id))) (seq 0 (length configs))))] /\
    forall id d, timer_is configs id d -> exists b m, last_reading (m_clock k) (s_hist s) id b /\ due_at (fixed o) d m /\
      m <= next id < m + cron_count configs /\ ((forall w, td_weekday d <> [w]) -> b < m) /\ (plain_timer d -> earliest (fixed o) d b m).
Proof.
  intros R Z P N E. assert (NP : ~ panicked s) by (unfold panicked; rewrite P; auto). assert (W := whole_of R NP). assert (G := so_good _ _ _ (wh_sound _ _ _ W)).
  destruct (report_text R rest s' P N E) as (next & Nx & H & _). exists next. split; [exact H|].
  intros id d T. apply timer_is_parse in T. destruct T as (c & text & Hc & Ty & Hp). assert (J : cronjob configs id) by (exists c, text; auto). specialize (Nx _ J).
  apply (fl_jobs _ _ (go_flow _ _ _ G)) in J. apply in_map_iff in J. destruct J as ([i d'] & Ei & J). cbn in Ei. subst i.
  destruct (wh_desc _ _ _ W _ _ J) as (c' & text' & D1 & D2 & D3). assert (c' = c) as -> by congruence. rewrite D2 in Ty. inversion Ty; subst text'.
  rewrite Hp in D3. inversion D3; subst d'. clear D3.
  destruct (proj1 (ticking _ _ _ _ R) NP id d J) as (b & u & j & B1 & B2 & B3 & B4). rewrite B4 in Nx. inversion Nx as [Ej].
  rewrite (zone_of _ _ _ _ R), Z in B2. assert (Few := timers_few _ _ _ _ R NP).
  exists b, u. split; [exact B1|]. split; [exact (next_execution_due o d b u (parse_timer_wf _ _ Hp) B2)|]. split; [lia|]. split.
  - intros K. apply (next_execution_future_iff o d b u (parse_timer_wf _ _ Hp) B2). intros [Y _]. exact (K _ Y).
  - intros K. exact (plain_earliest _ _ _ _ _ Hp K B2).
Qed.

(** cinit ends without a reason to shut down only when it has tried all programs. *)
Lemma leaving k e configs s code : reachable k e configs s -> s_pc s = Finished code -> (forall ev, In ev (s_hist s) -> ~ shutdown_trigger ev) ->
  forall id, startable configs (s_hist s) id -> attempted (s_hist s) id.
Proof.
  intros R P NT id (Lt & NC & D).
  assert (W : whole configs e s) by (apply (whole_of R); unfold panicked; rewrite P; auto).
  assert (G := so_good _ _ _ (wh_sound _ _ _ W)). destruct (lo_finished _ (go_loop _ _ _ G) _ P) as (_ & Sh & _).
  assert (Q : dm_runnable (g_dep (s_g s)) = []).
  { destruct (lo_shut _ (go_loop _ _ _ G) Sh) as [K|(_ & K & _)].
    - exfalso. destruct (lf_keep _ _ (wh_life _ _ _ W) K) as (ev & X & Y). eapply NT; eauto.
    - unfold has_runnables in K. destruct (dm_runnable _); [reflexivity|discriminate]. }
  destruct (fl_dep _ _ (go_flow _ _ _ G)) as (handed & A1 & _ & A3 & _).
  assert (K : In id (handed ++ dm_runnable (g_dep (s_g s)))).
  { apply (dep_inv_released _ _ _ _ _ A1). split; [auto|]. intros u Hu. apply (completed_finished _ _ _ _ W); auto.
    eapply (kn_cron _ _ _ (reachable_known _ _ _ _ R)); eauto. }
  rewrite Q, app_nil_r in K. exact (A3 _ K NC).
Qed.
