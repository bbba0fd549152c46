(** Property C93: the whole log, with the messages that need -v. *)
From stdpp Require Import gmap strings.
From Coq Require Import Ascii ZArith List Bool Lia.
From Verif Require Import Base RStr CronModel ConfigModel ProcessModel EnvModel DepModel NotifyModel ManagerModel SysModel MainModel
  SpecStr SpecDep SpecMain SpecText SpecRun RunInv RunHist RunThms RunFinal RunExamples LogModel SpecLog LogProofs PropLog TraceModel SpecTick SpecTrace SpecWarn
  TraceProofs WarnProofs PropTrace DebugModel SpecDebug DebugProofs.
Import ListNotations.
Local Open Scope string_scope.
Local Open Scope list_scope.
Local Open Scope Z_scope.

(** * C93: with -v the log tells how each process ended, what each datagram said and when cronjobs run *)
Theorem C93_every_execution e s0 ops s : execute e s0 (map fst ops) = Some s <-> exists ls, narrate_all e s0 ops = Some (s, ls).
Proof. exact (execution_logged e s0 ops s). Qed.
Print Assumptions C93_every_execution.

(** Each operation with all of its lines. *)
Theorem C93_every_line k e configs s0 ops s ls : launched k e configs s0 -> narrate_all e s0 ops = Some (s, ls) ->
  speaks e configs [] [] ops (s_hist s) ls (dead (s_pc s)).
Proof. exact (log_speaks k e configs s0 ops s ls). Qed.
Print Assumptions C93_every_line.

(** Without the messages at DEBUG level it is the log of C81 to C84 and C87. *)
Theorem C93_above e s0 ops s ls rs : narrate_all e s0 ops = Some (s, ls) -> recorded_all ls rs ->
  narrate e s0 ops = Some (s, above_debug ls) /\ recorded (above_debug ls) rs.
Proof. exact (fun H R => conj (narrate_above e ops s0 s ls H) (records_above ls rs R)). Qed.
Print Assumptions C93_above.

(** One message for each process that is reaped, in order; it says how the process
    ended. *)
Theorem C93_ends k e configs s0 ops s ls : launched k e configs s0 -> narrate_all e s0 ops = Some (s, ls) ->
  Forall2 shows_end (reaped (s_hist s)) (debug_texts "Got signal from child: " ls).
Proof. exact (fun L H => proj1 (speaks_shown _ _ _ _ _ _ _ _ (log_speaks k e configs s0 ops s ls L H))). Qed.
Print Assumptions C93_ends.
Theorem C93_tells_how x x' t : shows_end x t -> shows_end x' t -> x = x'.
Proof. exact (shows_end_inj x x' t). Qed.
Print Assumptions C93_tells_how.

(** One message for each notification that is accepted or ignored, with its text. *)
Theorem C93_datagrams k e configs s0 ops s ls : launched k e configs s0 -> narrate_all e s0 ops = Some (s, ls) ->
  Forall2 shows_datagram (heard (s_hist s)) (debug_texts "Received notification '" ls).
Proof. exact (fun L H => proj1 (proj2 (speaks_shown _ _ _ _ _ _ _ _ (log_speaks k e configs s0 ops s ls L H)))). Qed.
Print Assumptions C93_datagrams.

(** One message for each time a cronjob is due, with the next time; and one for each time
    it is skipped. *)
Theorem C93_cronjobs k e configs s0 ops s ls : launched k e configs s0 -> narrate_all e s0 ops = Some (s, ls) ->
  Forall2 (shows_next e configs) (dues (s_hist s)) (debug_texts "Scheduled next execution at " ls) /\
  debug_texts "Refusing to start cronjob child '" ls =
    map (fun id => "Refusing to start cronjob child '" +:+ called configs id +:+ "' because of uncompleted dependencies") (skips (s_hist s)).
Proof. exact (fun L H => proj2 (proj2 (speaks_shown _ _ _ _ _ _ _ _ (log_speaks k e configs s0 ops s ls L H)))). Qed.
Print Assumptions C93_cronjobs.

(** With one or two -v they are on stdout. *)
Theorem C93_shown k e configs s0 ops s ls rs v : launched k e configs s0 -> narrate_all e s0 ops = Some (s, ls) -> recorded_all ls rs -> 1 <= v <= 2 ->
  exists es, stdout_entries v rs es /\ console_text v rs Stdout = Ret (each_ended es) /\
    forall t, In t (at_level LDebug ls) -> exists time, stamp time /\ In (log_entry time LDebug "cinit" t) es.
Proof. exact (whole_log_shown k e configs s0 ops s ls rs v). Qed.
Print Assumptions C93_shown.

Definition demo_log_all (programs : list proc_config) (ops : list op) : option (list line) :=
  match demo programs [] with
  | Some s0 => match narrate_all demo_env s0 (with_details ops) with Some (_, ls) => Some ls | None => None end
  | None => None
  end.
Lemma demo_narrated_all programs ops h p ls : history (demo programs ops) = h -> place (demo programs ops) = Some p -> demo_log_all programs ops = Some ls ->
  exists s0 s, launched (demo_machine programs) demo_env (demo_configs programs) s0 /\ narrate_all demo_env s0 (with_details ops) = Some (s, ls) /\
    s_hist s = h /\ s_pc s = p /\ demo programs [] = Some s0.
Proof.
  intros H P L. destruct (demo_state programs ops h p H P) as (s & D & Hh & Hp & _).
  assert (X : exists s0, demo programs [] = Some s0 /\ execute demo_env s0 ops = Some s).
  { revert D. unfold demo. destruct (run (demo_machine programs)) as [[c|configs a]|m]; try discriminate. destruct (bool_decide _); [|discriminate].
    intros D. cbn [execute] in *. eauto. }
  destruct X as (s0 & D0 & X). exists s0, s. split; [apply demo_launched; exact D0|]. split; [|auto]. unfold demo_log_all in L. rewrite D0 in L.
  destruct (narrate_all demo_env s0 (with_details ops)) as [[s' ls']|] eqn:E; [|discriminate L]. apply Some_inj in L. subst ls'.
  assert (F : map fst (with_details ops) = ops) by (unfold with_details; rewrite map_map; apply List.map_id).
  assert (Y := proj2 (execution_logged demo_env s0 (with_details ops) s') (ex_intro _ ls E)). rewrite F, X in Y. apply Some_inj in Y. subst s'. reflexivity.
Qed.
Lemma all_recorded ls : recorded_all ls (map as_record ls).
Proof.
  induction ls as [|[l t|out name t] ls IH]; cbn [map as_record]; [constructor| |].
  - apply ra_own; [apply cinit_says_own|reflexivity|reflexivity|exact IH].
  - apply ra_child; [apply noon_stamp|exact IH].
Qed.

(** The execution of C83 with exit code 9 and the one with signal 9: the logs differ. *)
Definition crash_log_all (how : string) : list line :=
  [Own LInfo "Starting web"; Own LTrace "Started child web"; Own LInfo "Started child 10"; dbg "Registering fd 20"; dbg "Registering fd 21"; dbg "Got 3 events";
   dbg "Child 10 has exited with 0"; dbg ("Got signal from child: " +:+ how);
   Own LError "Child web crashed with 9"; Own LTrace "Child web crashed with 9";
   Own LInfo "Received termination signal"; Own LInfo "Killing children"; Own LInfo "Shutting down"; Own LInfo "Exiting"; Own LTrace "Exiting"].
Example C93_example : exists s0 s1 s2, launched (demo_machine (talk "web")) demo_env (demo_configs (talk "web")) s0 /\
  narrate_all demo_env s0 (with_details (crash_ops (XExit 9))) = Some (s1, crash_log_all "Exited(Pid(10), 9)") /\ reaped (s_hist s1) = [(10, XExit 9)] /\
  narrate_all demo_env s0 (with_details (crash_ops (XSignal 9))) = Some (s2, crash_log_all "Signaled(Pid(10), SIGKILL, false)") /\ reaped (s_hist s2) = [(10, XSignal 9)] /\
  recorded_all (crash_log_all "Exited(Pid(10), 9)") (map as_record (crash_log_all "Exited(Pid(10), 9)")).
Proof.
  destruct (demo_narrated_all (talk "web") (crash_ops (XExit 9)) (crash_history (XExit 9)) (Finished 6) (crash_log_all "Exited(Pid(10), 9)")) as (s0 & s1 & L & N1 & H1 & _ & D1);
    [vm_compute; reflexivity..|].
  destruct (demo_narrated_all (talk "web") (crash_ops (XSignal 9)) (crash_history (XSignal 9)) (Finished 6) (crash_log_all "Signaled(Pid(10), SIGKILL, false)")) as (s0' & s2 & L' & N2 & H2 & _ & D2);
    [vm_compute; reflexivity..|].
  rewrite D1 in D2. apply Some_inj in D2.
  subst s0'. exists s0, s1, s2. rewrite H1, H2. split; [exact L|]. split; [exact N1|]. split; [reflexivity|]. split; [exact N2|]. split; [reflexivity|apply all_recorded].
Qed.
Example C93_cronjob_example : exists s0 s, launched (demo_machine timed_pair) demo_env (demo_configs timed_pair) s0 /\
  narrate_all demo_env s0 (with_details skip_ops) = Some (s,
    [Own LInfo "Starting a"; Own LTrace "Started child a"; Own LInfo "Started child 10"; dbg "Registering fd 20"; dbg "Registering fd 21"; dbg "Got 0 events";
     dbg "Scheduled next execution at 1614557400000000000"; dbg "Refusing to start cronjob child 'j' because of uncompleted dependencies";
     Own LTrace "Refusing to start cronjob child 'j' because of uncompleted dependencies"]) /\
  dues (s_hist s) = [(1%nat, minute 7)] /\ skips (s_hist s) = [1%nat].
Proof.
  destruct (demo_narrated_all timed_pair skip_ops [EStart 0 10; EOpen 20 0 true; EOpen 21 0 false; EDue 1 (minute 7); ESkipped 1] AtPoll
    [Own LInfo "Starting a"; Own LTrace "Started child a"; Own LInfo "Started child 10"; dbg "Registering fd 20"; dbg "Registering fd 21"; dbg "Got 0 events";
     dbg "Scheduled next execution at 1614557400000000000"; dbg "Refusing to start cronjob child 'j' because of uncompleted dependencies";
     Own LTrace "Refusing to start cronjob child 'j' because of uncompleted dependencies"]) as (s0 & s & L & N & H & _); [vm_compute; reflexivity..|].
  exists s0, s. rewrite H. split; [exact L|]. split; [exact N|]. split; reflexivity.
Qed.
Example C93_datagram_example : exists s0 s, launched (demo_machine [task "web" Notify [] []]) demo_env (demo_configs [task "web" Notify [] []]) s0 /\
  narrate_all demo_env s0 (with_details (status_ops "up")) = Some (s,
    [Own LInfo "Starting web"; Own LTrace "Started child web"; Own LInfo "Started child 10"; dbg "Registering fd 20"; dbg "Registering fd 21"; dbg "Got 1 events";
     dbg "Received notification 'STATUS=up' from 10"; Own LTrace "child web: up"]) /\
  heard (s_hist s) = [ENotify 0 10 [("STATUS", "up")]].
Proof.
  destruct (demo_narrated_all [task "web" Notify [] []] (status_ops "up") (status_history "up") AtHead
    [Own LInfo "Starting web"; Own LTrace "Started child web"; Own LInfo "Started child 10"; dbg "Registering fd 20"; dbg "Registering fd 21"; dbg "Got 1 events";
     dbg "Received notification 'STATUS=up' from 10"; Own LTrace "child web: up"]) as (s0 & s & L & N & H & _); [vm_compute; reflexivity..|].
  exists s0, s. rewrite H. split; [exact L|]. split; [exact N|]. reflexivity.
Qed.
