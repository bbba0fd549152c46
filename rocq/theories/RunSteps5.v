(** Messages, main processes and reports, in terms of what can be observed. *)
From stdpp Require Import gmap strings.
From Coq Require Import Ascii ZArith List Bool Lia Permutation Relations.
From Verif Require Import Base RStr CronModel ConfigModel ProcessModel EnvModel DepModel NotifyModel ManagerModel SysModel
  MainModel SpecDep SpecTimer SpecStr SpecText SpecRun NotifyProofs DepProofs CronTimerProofs RunStep RunInv RunFlow RunHist RunAlive RunStream RunClaims RunLife RunThms
  RunFinal RunSteps RunSteps2 RunView RunSteps3 RunSteps4 RunReport RunOrder.
Import ListNotations.
Local Open Scope string_scope.
Local Open Scope list_scope.
Local Open Scope Z_scope.

Lemma unreadable_dies e s dg sender rest s' : s_pc s = AtEvents (EvIn (e_notify e) :: rest) -> e_notify e <> e_signal e -> e_notify e <> e_status e ->
  (forall text, ~ readable dg text) -> sstep e s (CEvent (AMessage (Some (dg, sender)))) = Some s' -> panicked s'.
Proof.
  intros P N1 N2 Rd H. cbn in H. rewrite P in H. cbn [step_event] in H. rewrite (proj2 (Z.eqb_neq _ _) N1), (proj2 (Z.eqb_neq _ _) N2), Z.eqb_refl in H.
  apply Some_inj in H. subst s'. unfold receive. destruct (read_text dg) as [[text|m]|] eqn:E; [|exact Logic.I|exact Logic.I].
  exfalso. eapply Rd. apply read_text_spec. eauto.
Qed.

(** Every signal has a reason just before it. *)
Definition kill_claim (before : list event) (ev : event) : Prop :=
  match ev with EKill _ sg => exists h r l, before = h ++ r :: kills sg l /\ reason r sg | _ => True end.
Definition gentle (ev : event) : Prop := match ev with EKill _ _ => False | _ => True end.
Lemma gentle_ok h evs : each_time h kill_claim -> (forall ev, In ev evs -> gentle ev) -> each_time (h ++ evs) kill_claim.
Proof. intros H K. apply each_other; [auto|]. intros h' ev X. apply K in X. destruct ev; cbn in *; tauto. Qed.
Lemma kills_claimed h r sg l : each_time (h ++ [r]) kill_claim -> reason r sg -> each_time (h ++ r :: kills sg l) kill_claim.
Proof.
  intros H R. replace (h ++ r :: kills sg l) with ((h ++ [r]) ++ kills sg l) by (rewrite <- app_assoc; reflexivity). apply each_app; [exact H|].
  intros e1 ev e2 E. assert (K : exists l1 x, e1 = kills sg l1 /\ ev = EKill x sg).
  { clear - E. revert e1 E. induction l as [|y l IH]; intros [|a e1] E; try discriminate; cbn in E.
    - inversion E; subst. exists [], y. auto.
    - inversion E; subst. destruct (IH _ H1) as (l1 & x & -> & ->). exists (y :: l1), x. auto. }
  destruct K as (l1 & x & -> & ->). cbn. exists h, r, l1. split; [rewrite <- app_assoc; reflexivity|exact R].
Qed.
Lemma no_kills_claimed h evs sg : each_time h kill_claim -> (forall ev, In ev evs -> gentle ev) -> each_time (h ++ evs ++ kills sg []) kill_claim.
Proof. intros H K. cbn. rewrite app_nil_r. apply gentle_ok; auto. Qed.
Lemma kill_step e s s' : each_time (s_hist s) kill_claim -> trans e s s' -> each_time (s_hist s') kill_claim.
Proof.
  intros H T. step_cases T; cbn [mk_s s_hist with_kernel]; try exact H;
    try (apply gentle_ok; [exact H|intros ev K0; cbn [In] in K0; decompose [or] K0; subst; try contradiction; exact Logic.I]; fail).
  - apply gentle_ok; [exact H|]. intros ev K. apply in_app_or in K. destruct K as [K|[<-|[]]]; [|exact Logic.I]. destruct O; [destruct K|destruct K as [<-|[]]; exact Logic.I].
  - apply gentle_ok; [exact H|]. intros ev K. apply in_app_or in K. destruct K as [K|[<-|[]]]; [|exact Logic.I]. destruct O; [destruct K|destruct K as [<-|[]]; exact Logic.I].
  - apply gentle_ok; [exact H|]. intros ev K. apply in_app_or in K. destruct K as [K|[<-|[<-|[<-|[]]]]]; try exact Logic.I. destruct O; [destruct K|destruct K as [<-|[]]; exact Logic.I].
  - apply kills_claimed; [apply each_last; [exact H|exact Logic.I]|]. split; [exact NS|exact Es].
  - apply gentle_ok; [exact H|]. intros ev [<-|J]; [exact Logic.I|]. apply in_map_iff in J. destruct J as (l & <- & _). exact Logic.I.
  - subst sent. destruct (Z.eqb_spec (code_of st) 0) as [E|E].
    + apply gentle_ok; [exact H|]. intros ev [<-|[<-|[]]]; exact Logic.I.
    + set (l := running_pids _). replace (s_hist s ++ EReap pid st :: EEnd id pid (code_of st) :: kills SIGINT l) with ((s_hist s ++ [EReap pid st]) ++ EEnd id pid (code_of st) :: kills SIGINT l) by (rewrite <- app_assoc; reflexivity).
      apply kills_claimed; [|split; [exact E|reflexivity]]. do 2 (apply each_last; [|exact Logic.I]). exact H.
  - inversion D; subst; try (apply gentle_ok; [exact H|intros ev K0; cbn [In] in K0; decompose [or] K0; subst; try contradiction; exact Logic.I]; fail).
    + apply kills_claimed; [apply each_last; [exact H|exact Logic.I]|]. split; [assumption|reflexivity].
    + replace (s_hist s ++ EReap pid st :: EEnd id pid (code_of st) :: kills SIGINT pre) with ((s_hist s ++ [EReap pid st]) ++ EEnd id pid (code_of st) :: kills SIGINT pre) by (rewrite <- app_assoc; reflexivity).
      apply kills_claimed; [|split; [assumption|reflexivity]]. do 2 (apply each_last; [|exact Logic.I]). exact H.
    + destruct (Z.eqb_spec (code_of st) 0) as [E|E].
      * apply gentle_ok; [exact H|]. intros ev [<-|[<-|[]]]; exact Logic.I.
      * set (l := running_pids _). replace (s_hist s ++ EReap pid st :: EEnd id pid (code_of st) :: kills SIGINT l) with ((s_hist s ++ [EReap pid st]) ++ EEnd id pid (code_of st) :: kills SIGINT l) by (rewrite <- app_assoc; reflexivity).
        apply kills_claimed; [|split; [exact E|reflexivity]]. do 2 (apply each_last; [|exact Logic.I]). exact H.
Qed.
Lemma kill_reason k e configs s h1 x sg h2 : reachable k e configs s -> s_hist s = h1 ++ EKill x sg :: h2 ->
  exists h r l, h1 = h ++ r :: map (fun y => EKill y sg) l /\ reason r sg.
Proof.
  intros (s0 & ops & L & X) E. assert (OK : forall l, Permutation (e_order e l) l) by (destruct L as (_ & _ & OK & _); auto).
  assert (K : each_time (s_hist s) kill_claim).
  { eapply (execute_ind e (fun s => each_time (s_hist s) kill_claim) OK); [intros ? ?; apply kill_step| |exact X].
    rewrite (ss_hist _ _ (launched_start _ _ _ _ L)). apply each_nil. }
  exact (K _ _ _ E).
Qed.

(** The number an observer knows is that of the last start, unless it was handed over. *)
Lemma last_start_snoc h ev id x : last_start h id x -> (forall y, ev <> EStart id y) -> last_start (h ++ [ev]) id x.
Proof.
  intros (h1 & h2 & -> & L) N. exists h1, (h2 ++ [ev]). split; [rewrite <- app_assoc; reflexivity|]. intros y K. apply in_app_or in K.
  destruct K as [K|[K|[]]]; [exact (L y K)|exact (N y K)].
Qed.
Lemma last_start_unique h id x y : last_start h id x -> last_start h id y -> x = y.
Proof.
  intros (h1 & h2 & E & L) (g1 & g2 & E' & L'). rewrite E in E'. clear E. revert g1 E'. induction h1 as [|a h1 IH]; intros [|b g1] K; cbn in K.
  - congruence.
  - exfalso. inversion K; subst. apply (L y). apply in_or_app. right. left. reflexivity.
  - exfalso. inversion K; subst. apply (L' x). apply in_or_app. right. left. reflexivity.
  - inversion K; subst. eauto.
Qed.
Lemma last_number configs h id : (forall ev, In ev h -> ~ handover ev) ->
  last_start h id (v_pid (view_of configs h id)) \/ (v_pid (view_of configs h id) = 0 /\ forall y, ~ In (EStart id y) h).
Proof.
  induction h as [|ev h IH] using rev_ind; intros C; [right; split; [reflexivity|intros y []]|].
  assert (Ch : forall x, In x h -> ~ handover x) by (intros x K; apply C; apply in_or_app; auto).
  assert (Ce : ~ handover ev) by (apply C; apply in_or_app; right; left; reflexivity).
  specialize (IH Ch). unfold view_of in *. rewrite book_app. cbn [fold_left].
  assert (Go : v_pid (b_view (book_step configs (book_of configs h) ev) id) = v_pid (b_view (book_of configs h) id) -> (forall y, ev <> EStart id y) ->
    last_start (h ++ [ev]) id (v_pid (b_view (book_step configs (book_of configs h) ev) id)) \/
    (v_pid (b_view (book_step configs (book_of configs h) ev) id) = 0 /\ forall y, ~ In (EStart id y) (h ++ [ev]))).
  { intros -> N. destruct IH as [IH|[IH No]]; [left; apply last_start_snoc; auto|right; split; [exact IH|]].
    intros y K. apply in_app_or in K. destruct K as [K|[K|[]]]; [exact (No y K)|exact (N y K)]. }
  destruct ev; try (apply Go; [reflexivity|discriminate]); cbn [book_step b_view] in *; unfold put in *; destruct (Nat.eqb_spec id id0) as [<-|Ne]; try (apply Go; [reflexivity|congruence]).
  - left. cbn. exists h, []. split; [reflexivity|]. intros y [].
  - apply Go; [|discriminate]. cbn. destruct (new_pid vars) as [n|] eqn:En; [|reflexivity]. exfalso. apply Ce. unfold new_pid in En. destruct (var vars "MAINPID") as [v|] eqn:Ev; [|discriminate].
    cbn. exists v, n. split; [|exact En]. clear - Ev. induction vars as [|[k w] vars IH]; cbn in *; [discriminate|]. destruct (String.eqb_spec k "MAINPID") as [->|]; [left; congruence|right; auto].
Qed.
Lemma last_number_eq configs h id x : (forall ev, In ev h -> ~ handover ev) -> last_start h id x -> v_pid (view_of configs h id) = x.
Proof.
  intros C L. destruct (last_number configs h id C) as [K|[_ K]]; [exact (last_start_unique _ _ _ _ K L)|].
  destruct L as (h1 & h2 & -> & _). exfalso. apply (K x). apply in_or_app. right. left. reflexivity.
Qed.

Section reachable.
Context {k : machine} {e : env} {configs : list proc_config} {s : sys} (Re : reachable k e configs s).

(** Variables and message text. *)
Lemma vars_of_text text vars : Permutation vars (parse text) ->
  List.NoDup (map fst vars) /\ (forall key v, In (key, v) vars <-> sets text key v).
Proof.
  intros P. split.
  - eapply Permutation_NoDup; [apply Permutation_map; symmetry; exact P|apply parse_nodup].
  - intros key v. rewrite <- parse_spec. split; apply Permutation_in; [auto|symmetry; auto].
Qed.

Lemma message_heard dg text sender rest s' : s_pc s = AtEvents (EvIn (e_notify e) :: rest) -> e_notify e <> e_signal e -> e_notify e <> e_status e ->
  readable dg text -> sstep e s (CEvent (AMessage (Some (dg, sender)))) = Some s' ->
  s_k s' = s_k s /\ s_pc s' = AtEvents rest /\ s_shut s' = s_shut s /\
  ((exists id vars, main_of configs (s_hist s) sender = Some id /\ kind configs id = Notify /\
      s_hist s' = s_hist s ++ [ENotify id sender vars] /\
      List.NoDup (map fst vars) /\ (forall key v, In (key, v) vars <-> sets text key v) /\
      (forall j, j <> id -> g_procs (s_g s') !! j = g_procs (s_g s) !! j) /\
      g_out (s_g s') = g_out (s_g s) /\ g_err (s_g s') = g_err (s_g s) /\ g_keep (s_g s') = g_keep (s_g s) /\
      g_cron (s_g s') = g_cron (s_g s) /\ g_exit (s_g s') = g_exit (s_g s) /\ g_epoll (s_g s') = g_epoll (s_g s) /\
      (~ sets text "READY" "1" -> g_dep (s_g s') = g_dep (s_g s))) \/
   ((forall id, main_of configs (s_hist s) sender = Some id -> kind configs id <> Notify) /\
    s_hist s' = s_hist s ++ [EIgnored sender] /\ s_g s' = s_g s)).
Proof.
  intros P N1 N2 Rd H. destruct (message_step Re dg text sender rest s' P N1 N2 Rd H) as (A1 & A2 & A3 & A4).
  split; [auto|]. split; [auto|]. split; [auto|]. destruct (main_of configs (s_hist s) sender) as [id|] eqn:E.
  - destruct (kind configs id) eqn:Kd; cbn in A4.
    + right. split; [intros j [= <-]; rewrite Kd; discriminate|exact A4].
    + left. destruct A4 as (vars & Pv & B1 & B2 & B3 & B4 & B5 & B6 & B7 & B8 & B9). exists id, vars.
      destruct (vars_of_text _ _ Pv) as [V1 V2]. repeat (split; [auto|]). intros X. apply B9. rewrite V2. auto.
    + right. split; [intros j [= <-]; rewrite Kd; discriminate|exact A4].
  - right. split; [discriminate|exact A4].
Qed.

Lemma message_says dg text sender id rest s' : s_pc s = AtEvents (EvIn (e_notify e) :: rest) -> e_notify e <> e_signal e -> e_notify e <> e_status e ->
  readable dg text -> main_of configs (s_hist s) sender = Some id -> kind configs id = Notify ->
  sstep e s (CEvent (AMessage (Some (dg, sender)))) = Some s' ->
  exists vars, s_hist s' = s_hist s ++ [ENotify id sender vars] /\ List.NoDup (map fst vars) /\
    (forall key v, In (key, v) vars <-> sets text key v) /\
    view_of configs (s_hist s') id = notified_view vars (view_of configs (s_hist s) id).
Proof.
  intros P N1 N2 Rd Mn Kd H. destruct (message_heard dg text sender rest s' P N1 N2 Rd H) as (_ & _ & _ & [(j & vars & M & _ & E & V1 & V2 & _)|(C & _)]); [|exfalso; eapply C; eauto].
  rewrite Mn in M. inversion M; subst j. exists vars. split; [auto|]. split; [auto|]. split; [auto|].
  rewrite E. unfold view_of. rewrite book_app. cbn. unfold put. rewrite Nat.eqb_refl. reflexivity.
Qed.
Lemma datagram_outcome dg sender rest s' : s_pc s = AtEvents (EvIn (e_notify e) :: rest) -> e_notify e <> e_signal e -> e_notify e <> e_status e ->
  sstep e s (CEvent (AMessage (Some (dg, sender)))) = Some s' ->
  ((exists text, readable dg text) -> s_pc s' = AtEvents rest) /\ ((forall text, ~ readable dg text) -> panicked s').
Proof.
  intros P N1 N2 H. split.
  - intros [text Rd]. destruct (message_heard dg text sender rest s' P N1 N2 Rd H) as (_ & A & _). exact A.
  - intros Rd. eapply unreadable_dies; eauto.
Qed.
Lemma end_of_main h1 id x rc h2 : s_hist s = h1 ++ EEnd id x rc :: h2 ->
  main_of configs h1 x = Some id /\ forall j, j <> id -> view_of configs (h1 ++ [EEnd id x rc]) j = view_of configs h1 j.
Proof.
  intros E. destruct (trans_books _ _ _ _ Re _ _ _ E) as [A _]. split; [exact A|]. intros j Ne. unfold view_of. rewrite book_app. cbn. unfold put.
  destruct (Nat.eqb_spec j id); [congruence|reflexivity].
Qed.

(** The number a message names, and who is a main process after it. *)
Lemma new_pid_text vars n : List.NoDup (map fst vars) -> new_pid vars = Some n <-> exists v, In ("MAINPID", v) vars /\ int_text v n.
Proof.
  intros N. unfold new_pid. destruct (var vars "MAINPID") as [v|] eqn:E.
  - rewrite parse_i32_spec. apply var_in in E; [|auto]. split; [eauto|]. intros (w & Hw & T). apply var_in in E; [|auto]. apply var_in in Hw; [|auto]. congruence.
  - split; [discriminate|]. intros (v & Hv & _). exfalso. eapply var_none; eauto.
Qed.
Lemma main_elsewhere h1 id x vars h2 y : s_hist s = h1 ++ ENotify id x vars :: h2 -> y <> x -> new_pid vars <> Some y ->
  main_of configs (h1 ++ [ENotify id x vars]) y = main_of configs h1 y.
Proof.
  intros E N1 N2. destruct (trans_books _ _ _ _ Re _ _ _ E) as (_ & C & _). unfold view_of in C. unfold main_of. rewrite book_app. cbn. rewrite C.
  destruct (new_pid vars) as [n|]; [|auto]. unfold put. destruct (Z.eqb_spec y n) as [->|]; [congruence|]. destruct (Z.eqb_spec y x); congruence.
Qed.

(** Process numbers in reports. *)
Lemma shown_alive : ~ panicked s -> calm (s_hist s) ->
  (forall id x, alive (s_hist s) id x -> shown configs (s_hist s) id = Some x) /\
  (forall id x, shown configs (s_hist s) id = Some x -> v_pid (view_of configs (s_hist s) id) = x /\ exists j, alive (s_hist s) j x).
Proof.
  intros NP Cm. destruct (shown_pid Re NP Cm) as [A B]. unfold shown. split.
  - intros id x K. destruct (A _ _ K) as [-> ->]. reflexivity.
  - intros id x K. destruct (main_of configs (s_hist s) (v_pid (view_of configs (s_hist s) id))) as [j|] eqn:E; [|discriminate].
    inversion K; subst. split; [auto|]. exists j. auto.
Qed.

(** In every history: the number is shown for the program it is the main process of. *)
Lemma shown_main id x : ~ panicked s -> main_of configs (s_hist s) x = Some id -> shown configs (s_hist s) id = Some x.
Proof.
  intros NP H. assert (W := whole_of Re NP). assert (M := go_maps _ _ _ (so_good _ _ _ (wh_sound _ _ _ W))). assert (B := reachable_book _ _ _ _ Re NP).
  assert (K := H). rewrite (bk_main _ _ _ B) in K. destruct (ma_pid _ _ _ M _ _ K) as (p & Hp & Pid & _).
  unfold shown. rewrite (bk_view _ _ _ B _ _ Hp). cbn. rewrite Pid, H. reflexivity.
Qed.

(** Cronjobs are never blocked. *)
Lemma cronjob_not_blocked h id text : kind configs id = CronJob text -> v_state (view_of configs h id) <> Blocked.
Proof.
  intros K. induction h as [|ev h IH] using rev_ind; [unfold view_of, book_of; cbn; rewrite K; discriminate|].
  unfold view_of in *. rewrite book_app. cbn [fold_left]. destruct ev; try exact IH; cbn [book_step b_view]; unfold put; destruct (Nat.eqb id id0) eqn:E; try exact IH; apply Nat.eqb_eq in E; subst id0.
  - cbn. rewrite K. discriminate.
  - cbn. rewrite K. destruct (rc =? 0); discriminate.
  - cbn. destruct (says vars "STOPPING"), (says vars "READY"); try discriminate; try exact IH. destruct (v_state (b_view (book_of configs h) id)); congruence.
Qed.
Lemma cron_round now r s' : s_pc s = AtSpawnCron -> sstep e s (CSpawnCron now r) = Some s' -> ~ panicked s' ->
  (s' = with_pc s AtPoll /\ forall id t, cron_next (g_cron (s_g s)) id = Ret t -> now < t) \/
  exists id c text d t u j evs, nth_error configs id = Some c /\ pc_type c = CronJob text /\ parse_timer text = Ret (Ok d) /\
    cron_next (g_cron (s_g s)) id = Ret t /\ t <= now /\
    (forall id' t', cron_next (g_cron (s_g s)) id' = Ret t' -> t <= t') /\
    next_execution (e_zone e) d now = Ret u /\ 0 <= j < Z.of_nat (length (timers (g_cron (s_g s)))) /\
    cron_next (g_cron (s_g s')) id = Ret (u + j) /\
    (forall id', id' <> id -> cron_next (g_cron (s_g s')) id' = cron_next (g_cron (s_g s)) id') /\
    s_hist s' = s_hist s ++ EDue id now :: evs /\ s_pc s' = AtSpawnCron /\
    ((~ deps_met configs (s_hist s) id /\ evs = [ESkipped id]) \/
     (deps_met configs (s_hist s) id /\ v_state (view_of configs (s_hist s) id) <> Sleeping /\ evs = [ERefused id]) \/
     (deps_met configs (s_hist s) id /\ v_state (view_of configs (s_hist s) id) = Sleeping /\
      evs = match r with ForkFailed => [EStartFail id] | Forked pid out err _ _ => [EStart id pid; EOpen out id true; EOpen err id false] end)).
Proof.
  intros P H NP'. assert (NP : ~ panicked s) by (unfold panicked; rewrite P; auto). assert (B := reachable_book _ _ _ _ Re NP).
  destruct (cron_step Re now r s' P H NP') as [X|(id & c & text & d & t & u & j & evs & A1 & A2 & A3 & A4 & A5 & A6 & A7 & A8 & A9 & A10 & A11 & A12 & A13)]; [left; exact X|right].
  exists id, c, text, d, t, u, j, evs. repeat (split; [assumption|]).
  destruct A13 as [A13|(D & p & Hp & A13)]; [left; exact A13|right].
  assert (V : v_state (view_of configs (s_hist s) id) = p_state p) by (rewrite (bk_view _ _ _ B _ _ Hp); reflexivity). rewrite V.
  assert (Nb : p_state p <> Blocked) by (rewrite <- V; apply (cronjob_not_blocked _ _ text); unfold kind; rewrite A1; exact A2).
  destruct A13 as [(_ & N & E)|([K|K] & E)]; [left; auto|contradiction|right; auto].
Qed.

(** The whole report, with the numbers in it. *)
Lemma reported_pids rest s' : s_pc s = AtEvents (EvIn (e_status e) :: rest) -> e_status e <> e_signal e -> sstep e s (CEvent (AAccept true)) = Some s' ->
  exists next pid, s_hist s' = s_hist s ++ [EReport (unlines ("programs:" :: flat_map (fun id => match nth_error configs id with
      | None => []
      | Some c => entry_lines (pc_name c) (view_of configs (s_hist s) id) (pid id) (match pc_type c with CronJob _ => Some (next id) | _ => None end)
      end) (seq 0 (length configs))))] /\
    (forall id x, main_of configs (s_hist s) x = Some id -> pid id = Some x) /\
    (calm (s_hist s) -> forall id x, pid id = Some x <-> last_start (s_hist s) id x /\ exists j, alive (s_hist s) j x) /\
    (calm (s_hist s) -> no_reuse (s_hist s) -> forall id x, pid id = Some x <-> alive (s_hist s) id x).
Proof.
  intros P N H. assert (NP : ~ panicked s) by (unfold panicked; rewrite P; auto).
  destruct (report_text Re rest s' P N H) as (next & _ & E & _). exists (fun id => e_rfc3339 e (next id)), (shown configs (s_hist s)).
  split; [exact E|]. split; [intros id x; apply shown_main; exact NP|].
  assert (X : calm (s_hist s) -> forall id x, shown configs (s_hist s) id = Some x <-> last_start (s_hist s) id x /\ exists j, alive (s_hist s) j x).
  { intros Cm id x. destruct (shown_alive NP Cm) as [A B]. assert (Pos : forall j, alive (s_hist s) j x -> 0 < x).
    { intros j K. assert (W := whole_of Re NP). assert (A' := so_alive _ _ _ (wh_sound _ _ _ W) Cm). apply (al_pids _ A') in K. apply (al_kernel _ A') in K. tauto. }
    split.
    - intros K. apply B in K. destruct K as [V [j K]]. split; [|eauto]. destruct (last_number configs (s_hist s) id (proj1 Cm)) as [L|L]; [rewrite V in L; exact L|destruct L as [L _]; apply Pos in K; lia].
    - intros [L [j K]]. assert (V : v_pid (view_of configs (s_hist s) id) = x) by (apply last_number_eq; [exact (proj1 Cm)|exact L]).
      destruct (shown_pid Re NP Cm) as [A' _]. destruct (A' _ _ K) as [_ M]. unfold shown. rewrite V, M. reflexivity. }
  split; [exact X|]. intros Cm Fr id x. split.
  - intros K. apply X in K; [|exact Cm]. destruct K as [(h1 & h2 & L & _) [j K]]. replace id with j; [exact K|]. apply (Fr _ _ x).
    + destruct K as (g1 & g2 & -> & _). apply in_or_app. right. left. reflexivity.
    + rewrite L. apply in_or_app. right. left. reflexivity.
  - intros K. apply shown_alive; auto.
Qed.
End reachable.

Lemma similar_refl s : similar s s.
Proof. repeat (split; [reflexivity|]). induction (s_hist s); constructor; auto using sim_same. Qed.
Lemma order_irrelevant k e configs s order ops t : reachable k e configs s -> (forall l, Permutation (order l) l) ->
  execute e s ops = Some t -> exists t', execute (with_order e order) s ops = Some t' /\ similar t t'.
Proof. intros R Po X. exact (execute_similar e order ops (reachable_order _ _ _ _ R) Po s s t (similar_refl s) X). Qed.
