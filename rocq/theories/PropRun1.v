(** Properties C26 to C32: the order of starts, cronjobs, shutdown and exit code, in
    all executions of the event loop. *)
From stdpp Require Import gmap strings.
From Coq Require Import Ascii ZArith List Bool Lia.
From Verif Require Import Base RStr CronModel ConfigModel ProcessModel EnvModel DepModel NotifyModel ManagerModel SysModel MainModel
  SpecDep SpecMain SpecRun RunInv RunFinal RunSteps RunSteps2 RunView RunSteps3 RunSteps4 RunSteps5 RunExamples.
Import ListNotations.
Local Open Scope string_scope.
Local Open Scope list_scope.
Local Open Scope Z_scope.

(** * C26: start order *)
Theorem C26_start_order k e configs s h1 v pid h2 u : reachable k e configs s -> s_hist s = h1 ++ EStart v pid :: h2 -> depends configs u v ->
  ~ cronjob configs u /\ (succeeded h1 u \/ (notifier configs u /\ notified h1 u "READY" "1")).
Proof. exact (fun R => start_order R h1 v pid h2 u). Qed.
Print Assumptions C26_start_order.

(** "c" starts while "b" is running, because "b" has reported READY=1. *)
Example C26_example : exists s h1 h2, reachable (demo_machine chain) demo_env chain s /\
  s_hist s = h1 ++ EStart 2 12 :: h2 /\ depends chain 1 2 /\ ~ succeeded h1 1 /\ notified h1 1 "READY" "1".
Proof.
  destruct chain_state as (s & _ & H & _ & R). rewrite chain_configs in R. exists s, (firstn 16 chain_history), (skipn 17 chain_history).
  split; [auto|]. split; [rewrite H; reflexivity|]. split; [|split].
  - exists (task "b" Notify [] ["a"]), (task "c" Oneshot [] ["b"]). split; [reflexivity|]. split; [reflexivity|]. right. left. reflexivity.
  - intros [pid K]. vm_compute in K. intuition discriminate.
  - exists 11, [("STATUS", "up"); ("READY", "1")]. split; [vm_compute; intuition|right; left; reflexivity].
Qed.

(** * C27: at most one start of programs that are no cronjobs *)
Theorem C27_started_once k e configs s h1 id x h2 : reachable k e configs s -> s_hist s = h1 ++ EStart id x :: h2 -> ~ cronjob configs id ->
  forall y, ~ In (EStart id y) h1 /\ ~ In (EStart id y) h2.
Proof. exact (fun R => start_once R h1 id x h2). Qed.
Print Assumptions C27_started_once.

Example C27_example : exists s h1 h2, reachable (demo_machine chain) demo_env chain s /\ s_hist s = h1 ++ EStart 1 11 :: h2 /\ ~ cronjob chain 1.
Proof.
  destruct chain_state as (s & _ & H & _ & R). rewrite chain_configs in R. exists s, (firstn 12 chain_history), (skipn 13 chain_history).
  split; [auto|]. split; [rewrite H; reflexivity|]. intros (c & t & E & T). inversion E; subst. discriminate.
Qed.

(** * C28: a clean exit means everything ran *)
(** Missing from the full claim: executions in which forking a program failed (see
    [C28_fork_failure_refuted]), and those in which a program handed over to another
    process (see [C28_handover_refuted]) or was killed by a real-time signal (see
    [C28_realtime_refuted]). *)
Theorem C28_everything_ran_partial k e configs s code : reachable k e configs s -> s_pc s = Finished code -> calm (s_hist s) ->
  (forall ev, In ev (s_hist s) -> ~ shutdown_trigger ev) -> (forall id, In (EStartFail id) (s_hist s) -> cronjob configs id) ->
  forall id, (id < length configs)%nat -> ~ cronjob configs id -> exists pid, In (EStart id pid) (s_hist s) /\ In (EEnd id pid 0) (s_hist s).
Proof. exact (fun R => everything_ran R code). Qed.
Print Assumptions C28_everything_ran_partial.

Lemma no_trigger h : forallb (fun ev => match ev with ESignal SIGCHLD => true | ESignal _ => false | EEnd _ _ rc => rc =? 0 | _ => true end) h = true ->
  forall ev, In ev h -> ~ shutdown_trigger ev.
Proof. intros H ev K T. rewrite forallb_forall in H. apply H in K. destruct ev as [| | | | | | | | | | | | |[]| | | | | |]; cbn in *; try tauto; try discriminate. apply Z.eqb_eq in K. auto. Qed.

Example C28_example : exists s, reachable (demo_machine chain) demo_env chain s /\ s_pc s = Finished 0 /\ calm (s_hist s) /\
  (forall ev, In ev (s_hist s) -> ~ shutdown_trigger ev) /\ (forall id, In (EStartFail id) (s_hist s) -> cronjob chain id).
Proof.
  destruct chain_state as (s & _ & H & P & R). rewrite chain_configs in R. exists s. rewrite H. split; [auto|]. split; [auto|].
  split; [apply calm_check; vm_compute; reflexivity|]. split; [apply no_trigger; vm_compute; reflexivity|].
  intros id K. vm_compute in K. intuition discriminate.
Qed.

(** When forking fails, cinit ends with exit code 0 and neither the program nor the
    one that depends on it has run. *)
Definition fork_fails_ops : list op :=
  [CHead; CSpawnDep ForkFailed] ++ no_start ++ batch [] [] ++ [CHead; CHead].
Theorem C28_fork_failure_refuted : exists k e configs s, reachable k e configs s /\ s_pc s = Finished 0 /\ calm (s_hist s) /\
  (forall ev, In ev (s_hist s) -> ~ shutdown_trigger ev) /\ length configs = 2%nat /\ (forall id, ~ cronjob configs id) /\
  forall id pid, ~ In (EStart id pid) (s_hist s).
Proof.
  destruct (demo_state [task "a" Oneshot [] []; task "b" Oneshot [] ["a"]] fork_fails_ops [EStartFail 0; EExit 0] (Finished 0)) as (s & _ & H & P & R);
    [vm_compute; reflexivity|vm_compute; reflexivity|].
  exists (demo_machine [task "a" Oneshot [] []; task "b" Oneshot [] ["a"]]), demo_env, [task "a" Oneshot [] []; task "b" Oneshot [] ["a"]], s.
  split; [exact R|]. split; [auto|]. rewrite H. split; [apply calm_check; vm_compute; reflexivity|]. split; [apply no_trigger; vm_compute; reflexivity|].
  split; [reflexivity|]. split; [|intros id pid K; vm_compute in K; intuition discriminate].
  intros id (c & t & E & T). destruct id as [|[|[|]]]; inversion E; subst; discriminate.
Qed.
Print Assumptions C28_fork_failure_refuted.

(** "n" declares the process of "b" to be its own.  When that ends, it is "n" that is done;
    "c", which waits for "b", never runs. *)
Definition taken : list proc_config := [task "n" Notify [] []; task "b" Oneshot [] []; task "c" Oneshot [] ["b"]].
Definition taken_ops : list op :=
  [CHead; CSpawnDep (fork 10 20 21); CSpawnDep (fork 11 22 23)] ++ no_start ++ batch [msg "MAINPID=10" 11] [] ++ [CHead] ++ no_start ++
  [KHangup 20; KHangup 21; KHangup 22; KHangup 23; KExit 10 (XExit 0); KExit 11 (XExit 3)] ++
  batch [closed 20; closed 21; closed 22; closed 23; sig SIGCHLD] [10; 11] ++ [CHead; CHead].
Definition taken_history : list event :=
  [EStart 1 10; EOpen 20 1 true; EOpen 21 1 false; EStart 0 11; EOpen 22 0 true; EOpen 23 0 false; ENotify 0 11 [("MAINPID", "10")];
   EClosed 20; EClosed 21; EClosed 22; EClosed 23; ESignal SIGCHLD; EReap 10 (XExit 0); EEnd 0 10 0; EReap 11 (XExit 3); EUnknown 11 3; EExit 0].
Theorem C28_handover_refuted : exists k e configs s id, reachable k e configs s /\ s_pc s = Finished 0 /\ (forall pid n, ~ In (EReap pid (XRealtime n)) (s_hist s)) /\
  (forall ev, In ev (s_hist s) -> ~ shutdown_trigger ev) /\ (forall i, ~ In (EStartFail i) (s_hist s)) /\
  (id < length configs)%nat /\ ~ cronjob configs id /\ forall pid, ~ In (EStart id pid) (s_hist s).
Proof.
  destruct (demo_state taken taken_ops taken_history (Finished 0)) as (s & _ & H & P & R); [vm_compute; reflexivity|vm_compute; reflexivity|].
  exists (demo_machine taken), demo_env, taken, s, 2%nat. split; [exact R|]. split; [exact P|]. rewrite H.
  split; [intros pid n K; vm_compute in K; intuition discriminate|]. split; [apply no_trigger; vm_compute; reflexivity|].
  split; [intros i K; vm_compute in K; intuition discriminate|]. split; [cbn; lia|]. split; [|intros pid K; vm_compute in K; intuition discriminate].
  intros (c & t & E & T). inversion E; subst. discriminate.
Qed.
Print Assumptions C28_handover_refuted.

(** "x" is killed by a real-time signal, which is not noticed.  "c" gets the same process
    number; when it ends no number is left, and "b", which waits for "x", never runs. *)
Definition reused : list proc_config := [task "a" Oneshot [] []; task "x" Oneshot [] []; task "b" Oneshot [] ["x"]; task "c" Oneshot [] ["a"]].
Definition reused_ops : list op :=
  [CHead; CSpawnDep (fork 10 20 21); CSpawnDep (fork 11 22 23)] ++ no_start ++ [KExit 10 (XRealtime 34); KHangup 20; KHangup 21] ++
  [CPoll (Some [EvHup 20; EvHup 21]); CEvent (ASignal None); CEvent (ASignal None); CEvent (ASignal None); CWait (Some 10)] ++
  [CHead] ++ no_start ++ [KExit 11 (XExit 0); KHangup 22; KHangup 23] ++ batch [closed 22; closed 23; sig SIGCHLD] [11] ++
  [CHead; CSpawnDep (fork 10 20 21)] ++ no_start ++ [KExit 10 (XExit 0); KHangup 20; KHangup 21] ++ batch [closed 20; closed 21; sig SIGCHLD] [10] ++ [CHead; CHead].
Definition reused_history : list event :=
  [EStart 1 10; EOpen 20 1 true; EOpen 21 1 false; EStart 0 11; EOpen 22 0 true; EOpen 23 0 false; EClosed 20; EClosed 21; EReap 10 (XRealtime 34); ELost 10;
   EClosed 22; EClosed 23; ESignal SIGCHLD; EReap 11 (XExit 0); EEnd 0 11 0; EStart 3 10; EOpen 20 3 true; EOpen 21 3 false; EClosed 20; EClosed 21;
   ESignal SIGCHLD; EReap 10 (XExit 0); EEnd 3 10 0; EExit 0].
Theorem C28_realtime_refuted : exists k e configs s id, reachable k e configs s /\ s_pc s = Finished 0 /\ (forall ev, In ev (s_hist s) -> ~ handover ev) /\
  (forall ev, In ev (s_hist s) -> ~ shutdown_trigger ev) /\ (forall i, ~ In (EStartFail i) (s_hist s)) /\
  (id < length configs)%nat /\ ~ cronjob configs id /\ forall pid, ~ In (EStart id pid) (s_hist s).
Proof.
  destruct (demo_state reused reused_ops reused_history (Finished 0)) as (s & _ & H & P & R); [vm_compute; reflexivity|vm_compute; reflexivity|].
  exists (demo_machine reused), demo_env, reused, s, 2%nat. split; [exact R|]. split; [exact P|]. rewrite H.
  split; [intros ev K Hd; cbn in K; repeat (destruct K as [<-|K]; [exact Hd|]); destruct K|]. split; [apply no_trigger; vm_compute; reflexivity|].
  split; [intros i K; vm_compute in K; intuition discriminate|]. split; [cbn; lia|]. split; [|intros pid K; vm_compute in K; intuition discriminate].
  intros (c & t & E & T). inversion E; subst. discriminate.
Qed.
Print Assumptions C28_realtime_refuted.

(** * C29: no overlap *)
Theorem C29_one_instance k e configs s id x y : reachable k e configs s -> alive (s_hist s) id x -> alive (s_hist s) id y -> x = y.
Proof. exact (fun R => one_alive R id x y). Qed.
Print Assumptions C29_one_instance.

Theorem C29_restart k e configs s h1 id x h2 y h3 : reachable k e configs s -> s_hist s = h1 ++ EStart id x :: h2 ++ EStart id y :: h3 ->
  cronjob configs id /\ exists h4 h5, h2 = h4 ++ EReap x (XExit 0) :: EEnd id x 0 :: h5.
Proof. exact (fun R => restart R h1 id x h2 y h3). Qed.
Print Assumptions C29_restart.

(** The second run of "j" starts after the first was reaped; in between, a run was
    due and refused. *)
Example C29_example : exists s h1 h2 h3, reachable (demo_machine timed_pair) demo_env timed_pair s /\
  s_hist s = h1 ++ EStart 1 11 :: h2 ++ EStart 1 12 :: h3 /\ In (ERefused 1) h2 /\ alive (h1 ++ EStart 1 11 :: h2 ++ [EStart 1 12]) 1 12.
Proof.
  destruct timed_state as (s & _ & H & _ & R). rewrite timed_configs in R.
  exists s, (firstn 9 timed_history), (firstn 8 (skipn 10 timed_history)), (skipn 19 timed_history).
  split; [auto|]. split; [rewrite H; reflexivity|]. split; [vm_compute; intuition|].
  apply (alive_here _ (firstn 9 timed_history ++ EStart 1 11 :: firstn 8 (skipn 10 timed_history)) 1 12 []); reflexivity.
Qed.

(** * C30: cronjobs start when due and unblocked *)
Theorem C30_due_before k e configs s h1 id pid h2 : reachable k e configs s -> s_hist s = h1 ++ EStart id pid :: h2 -> cronjob configs id ->
  exists h now, h1 = h ++ [EDue id now].
Proof. exact (fun R => due_before R h1 id pid h2). Qed.
Print Assumptions C30_due_before.

Theorem C30_cron_round k e configs s now r s' : reachable k e configs s -> s_pc s = AtSpawnCron -> sstep e s (CSpawnCron now r) = Some s' -> ~ panicked s' ->
  (s' = with_pc s AtPoll /\ forall id t, cron_next (g_cron (s_g s)) id = Ret t -> now < t) \/
  exists id c text d t u j evs, nth_error configs id = Some c /\ pc_type c = CronJob text /\ parse_timer text = Ret (Ok d) /\
    cron_next (g_cron (s_g s)) id = Ret t /\ t <= now /\
    (forall id' t', cron_next (g_cron (s_g s)) id' = Ret t' -> t <= t') /\
    next_execution (e_zone e) d now = Ret u /\ 0 <= j < Z.of_nat (length (timers (g_cron (s_g s)))) /\
    cron_next (g_cron (s_g s')) id = Ret (u + j) /\
    (forall id', id' <> id -> cron_next (g_cron (s_g s')) id' = cron_next (g_cron (s_g s)) id') /\
    s_hist s' = s_hist s ++ EDue id now :: evs /\ s_pc s' = AtSpawnCron /\
    ((~ deps_met configs (s_hist s) id /\ evs = [ESkipped id]) \/
     (deps_met configs (s_hist s) id /\ v_state (view_of configs (s_hist s) id) <> Sleeping /\ evs = [ERefused id]) \/
     (deps_met configs (s_hist s) id /\ v_state (view_of configs (s_hist s) id) = Sleeping /\
      evs = match r with ForkFailed => [EStartFail id] | Forked pid out err _ _ => [EStart id pid; EOpen out id true; EOpen err id false] end)).
Proof. exact (fun R => cron_round R now r s'). Qed.
Print Assumptions C30_cron_round.

Example C30_example : exists s s', reachable (demo_machine timed_pair) demo_env timed_pair s /\ s_pc s = AtSpawnCron /\
  sstep demo_env s (CSpawnCron (minute 7) ForkFailed) = Some s' /\ ~ panicked s' /\ s_hist s' = s_hist s ++ [EDue 1 (minute 7); ESkipped 1].
Proof.
  destruct (demo_state timed_pair (firstn 9 timed_ops) (firstn 3 timed_history) AtSpawnCron) as (s & D & H & P & R); [vm_compute; reflexivity|vm_compute; reflexivity|].
  destruct (demo_state timed_pair (firstn 9 timed_ops ++ [CSpawnCron (minute 7) ForkFailed]) (firstn 5 timed_history) AtSpawnCron) as (s' & D' & H' & P' & _); [vm_compute; reflexivity|vm_compute; reflexivity|].
  rewrite timed_configs in R. exists s, s'. split; [exact R|]. split; [auto|]. split; [rewrite <- (demo_snoc _ _ _ _ D); exact D'|]. split; [unfold panicked; rewrite P'; intros []|]. rewrite H', H. reflexivity.
Qed.

(** * C31: nothing starts after shutdown began *)
Theorem C31_no_start_after_shutdown k e configs s h1 ev h2 : reachable k e configs s -> s_hist s = h1 ++ ev :: h2 -> shutdown_trigger ev ->
  forall id pid, ~ In (EStart id pid) h2.
Proof. exact (fun R => no_start_after R h1 ev h2). Qed.
Print Assumptions C31_no_start_after_shutdown.

Example C31_example : exists s h1 h2, reachable (demo_machine timed_pair) demo_env timed_pair s /\ s_hist s = h1 ++ ESignal SIGTERM :: h2 /\
  shutdown_trigger (ESignal SIGTERM) /\ shutdown_trigger (EEnd 1 12 2) /\ In (EEnd 1 12 2) h2.
Proof.
  destruct timed_state as (s & _ & H & _ & R). rewrite timed_configs in R. exists s, (firstn 21 timed_history), (skipn 22 timed_history).
  split; [auto|]. split; [rewrite H; reflexivity|]. split; [exact Logic.I|]. split; [discriminate|vm_compute; intuition].
Qed.

(** * C32: the exit code *)
Theorem C32_exit_code_seen k e configs s h1 code h2 : reachable k e configs s -> s_hist s = h1 ++ EExit code :: h2 ->
  (code = 0 \/ code = 6) /\ (code = 6 <-> exists id pid rc, In (EEnd id pid rc) h1 /\ rc <> 0).
Proof. exact (fun R => exit_code R h1 code h2). Qed.
Print Assumptions C32_exit_code_seen.

(** Missing from the full claim: executions with a handover or with a program killed by
    a real-time signal (see [C32_handover_refuted] and [C32_realtime_refuted]). *)
Theorem C32_exit_code_partial k e configs s h1 code h2 : reachable k e configs s -> s_hist s = h1 ++ EExit code :: h2 -> calm h1 ->
  (code = 0 \/ code = 6) /\ (code = 6 <-> exists id, failed h1 id).
Proof. exact (fun R => exit_code_programs R h1 code h2). Qed.
Print Assumptions C32_exit_code_partial.

Example C32_example : exists s h1 h2 t h3 h4, reachable (demo_machine chain) demo_env chain s /\ s_hist s = h1 ++ EExit 0 :: h2 /\ calm h1 /\
  reachable (demo_machine timed_pair) demo_env timed_pair t /\ s_hist t = h3 ++ EExit 6 :: h4 /\ calm h3 /\ failed h3 1.
Proof.
  destruct chain_state as (s & _ & H & _ & R). rewrite chain_configs in R. destruct timed_state as (t & _ & H' & _ & R'). rewrite timed_configs in R'.
  exists s, (firstn 31 chain_history), [], t, (firstn 32 timed_history), [].
  split; [auto|]. split; [rewrite H; reflexivity|]. split; [apply calm_check; vm_compute; reflexivity|].
  split; [auto|]. split; [rewrite H'; reflexivity|]. split; [apply calm_check; vm_compute; reflexivity|].
  exists (firstn 24 timed_history), 12, (XSignal 2), (firstn 7 (skipn 25 timed_history)). split; [reflexivity|]. split; [|discriminate].
  apply (alive_here _ (firstn 18 timed_history) 1 12 (firstn 5 (skipn 19 timed_history))); reflexivity.
Qed.

(** A program killed by a real-time signal is not noticed; when an orphan that got
    the same number is adopted and ends, that is taken for the program's end and
    cinit reports success. *)
Definition lost_ops : list op :=
  [CHead; CSpawnDep (fork 10 20 21)] ++ no_start ++ [KExit 10 (XRealtime 34); KHangup 20; KHangup 21] ++
  [CPoll (Some [EvHup 20; EvHup 21]); CEvent (ASignal None); CEvent (ASignal None); CEvent (ASignal None); CWait (Some 10)] ++
  [CHead] ++ no_start ++ [KFork 10; KAdopt 10; KExit 10 (XExit 0)] ++ batch [sig SIGCHLD] [10] ++ [CHead; CHead].
Definition lost_history : list event :=
  [EStart 0 10; EOpen 20 0 true; EOpen 21 0 false; EClosed 20; EClosed 21; EReap 10 (XRealtime 34); ELost 10;
   ESignal SIGCHLD; EReap 10 (XExit 0); EEnd 0 10 0; EExit 0].
Theorem C32_realtime_refuted : exists k e configs s h, reachable k e configs s /\ s_hist s = h ++ [EExit 0] /\ exists id, failed h id.
Proof.
  destruct (demo_state [task "a" Oneshot [] []] lost_ops lost_history (Finished 0)) as (s & _ & H & P & R); [vm_compute; reflexivity|vm_compute; reflexivity|].
  exists (demo_machine [task "a" Oneshot [] []]), demo_env, (demo_configs [task "a" Oneshot [] []]), s, (firstn 10 lost_history).
  split; [exact R|]. split; [rewrite H; reflexivity|]. exists 0%nat, (firstn 5 lost_history), 10, (XRealtime 34), (firstn 4 (skipn 6 lost_history)).
  split; [reflexivity|]. split; [|discriminate]. apply (alive_here _ [] 0 10 (firstn 4 (skipn 1 lost_history))); reflexivity.
Qed.
Print Assumptions C32_realtime_refuted.

(** In the execution for C28, "n" has ended with code 3. *)
Theorem C32_handover_refuted : exists k e configs s h, reachable k e configs s /\ s_hist s = h ++ [EExit 0] /\
  (forall pid n, ~ In (EReap pid (XRealtime n)) h) /\ exists id, failed h id.
Proof.
  destruct (demo_state taken taken_ops taken_history (Finished 0)) as (s & _ & H & P & R); [vm_compute; reflexivity|vm_compute; reflexivity|].
  exists (demo_machine taken), demo_env, (demo_configs taken), s, (firstn 16 taken_history). split; [exact R|]. split; [rewrite H; reflexivity|].
  split; [intros pid n K; vm_compute in K; intuition discriminate|]. exists 0%nat, (firstn 14 taken_history), 11, (XExit 3), [EUnknown 11 3].
  split; [reflexivity|]. split; [|discriminate]. apply (alive_here _ (firstn 3 taken_history) 0 11 (firstn 10 (skipn 4 taken_history))); reflexivity.
Qed.
Print Assumptions C32_handover_refuted.
