(** Properties C90 and C91: what a whole run shows. *)
From stdpp Require Import gmap strings.
From Coq Require Import Ascii ZArith List Bool Lia.
From Verif Require Import Base RStr CronModel ConfigModel ProcessModel ManagerModel SysModel MainModel LogModel TraceModel
  SpecMain SpecRun SpecLog SpecTrace TraceProofs SessionModel SpecSession SessionProofs PropMain RunExamples PropLog PropRun1 PropTrace.
From Verif Require CliModel StartModel PropStart.
Import ListNotations.
Local Open Scope string_scope.
Local Open Scope list_scope.
Local Open Scope Z_scope.

(** * C90: a run that fails says so on stdout, whatever the options *)
Theorem C90_console t found args v ls c rs : furnished found -> session t found args v ls c -> recorded ls rs ->
  exists es, stdout_entries (effective v) rs es /\ console_text v rs Stdout = Ret (each_ended es).
Proof. exact (fun OK => session_console t found args OK v ls c rs). Qed.
Print Assumptions C90_console.
Theorem C90_failure_shown t found args v ls code rs es : furnished found -> session t found args v ls (Some code) -> code <> 0 -> recorded ls rs ->
  stdout_entries (effective v) rs es ->
  exists path why, CliModel.parse_arguments args = CliModel.Begins path v /\ explains t found path code why /\ shows_error es why.
Proof. exact (fun OK => session_shows t found args OK v ls code rs es). Qed.
Print Assumptions C90_failure_shown.

(** All paths lead to the same machine. *)
Definition everywhere (k : machine) : string -> StartModel.tree * machine := fun _ => (StartModel.TFile (Some "good"), k).
Lemma demo_furnished programs : furnished (everywhere (demo_machine programs)).
Proof. intros path. split; [apply example_honest|reflexivity]. Qed.
Definition demo_start (programs : list proc_config) (path : string) : list line :=
  own_lines (fst (StartModel.start_says PropStart.demo_texts path (StartModel.TFile (Some "good")) (demo_machine programs))).
Lemma demo_session programs args path v ops h p ls : CliModel.parse_arguments args = CliModel.Begins path v ->
  history (demo programs ops) = h -> place (demo programs ops) = Some p -> demo_log programs ops = Some ls ->
  session PropStart.demo_texts (everywhere (demo_machine programs)) args v (demo_start programs path ++ ls)
    (match p with Finished code => Some code | _ => None end).
Proof.
  intros A H P L. destruct (demo_narrated_at programs ops h p ls H P L) as (s0 & s & La & N & _ & <- & _). eapply ss_running; eauto.
Qed.

Definition stdout_of (v : Z) (ls : list line) : outcome string := console_text v (map as_record ls) Stdout.
Example C90_example :
  session PropStart.demo_texts (everywhere (demo_machine (talk "web"))) ["-c"; "/srv"] 0 (demo_start (talk "web") "/srv" ++ crash_log) (Some 6) /\
  session PropStart.demo_texts (everywhere (demo_machine [timed "x" "1 2 3"])) ["-vvv"] 3 (demo_start [timed "x" "1 2 3"] "/etc/cinit.yml") (Some 2) /\
  stdout_of 0 (demo_start (talk "web") "/srv" ++ crash_log) = Ret (each_ended
    (map (fun x => log_entry noon (fst x) "cinit" (snd x))
      [(LInfo, "Starting up"); (LInfo, "Config is at /srv"); (LInfo, "Parsing config"); (LInfo, "Perform analysis on programs");
       (LInfo, "Spawning processes"); (LInfo, "Starting web"); (LInfo, "Started child 10"); (LError, "Child web crashed with 9");
       (LInfo, "Received termination signal"); (LInfo, "Killing children"); (LInfo, "Shutting down"); (LInfo, "Exiting")])).
Proof.
  split; [|split].
  - eapply (demo_session (talk "web") _ "/srv" 0 (crash_ops (XExit 9)) _ (Finished 6)); [vm_compute; reflexivity..].
  - eapply ss_refused with (found := everywhere (demo_machine [timed "x" "1 2 3"])); vm_compute; reflexivity.
  - vm_compute. reflexivity.
Qed.

(** * C91: a run that ends with exit code 0 showed no error *)
(** Missing from the full claim: programs that cannot be started, and failing epoll_wait. *)
Theorem C91_success_clean_partial t found args v ls rs : furnished found -> session t found args v ls (Some 0) -> recorded ls rs ->
  Forall survivable (texts_at LError rs).
Proof. exact (fun OK => session_clean t found args OK v ls rs). Qed.
Print Assumptions C91_success_clean_partial.
(** cinit ends with exit code 0 after two errors: neither of two programs has run. *)
Theorem C91_success_clean_refuted : exists t found args v ls rs es, furnished found /\ session t found args v ls (Some 0) /\ recorded ls rs /\
  stdout_entries (effective v) rs es /\ shows_error es "Forking failed" /\ texts_at LError rs = ["Forking failed"; "Failed to spawn child: EINVAL: Invalid argument"].
Proof.
  set (programs := [task "a" Oneshot [] []; task "b" Oneshot [] ["a"]]).
  set (ls := [Own LInfo "Starting a"; Own LError "Forking failed"; Own LError "Failed to spawn child: EINVAL: Invalid argument"; 
              Own LInfo "Shutting down"; Own LInfo "Exiting"; Own LTrace "Exiting"]).
  assert (W : session PropStart.demo_texts (everywhere (demo_machine programs)) [] 0 (demo_start programs "/etc/cinit.yml" ++ ls) (Some 0)).
  { eapply (demo_session programs _ "/etc/cinit.yml" 0 fork_fails_ops _ (Finished 0)); [vm_compute; reflexivity..]. }
  pose proof (as_recorded (demo_start programs "/etc/cinit.yml" ++ ls)) as R.
  destruct (session_console _ _ _ (demo_furnished programs) _ _ _ _ W R) as (es & E & _).
  assert (T : texts_at LError (map as_record (demo_start programs "/etc/cinit.yml" ++ ls)) = ["Forking failed"; "Failed to spawn child: EINVAL: Invalid argument"])
    by (vm_compute; reflexivity).
  eexists _, _, _, _, _, _, es. split; [exact (demo_furnished programs)|]. split; [exact W|]. split; [exact R|]. split; [exact E|]. split; [|exact T].
  apply (shown_errors _ _ _ E (recorded_own _ _ R)). rewrite T. left. reflexivity.
Qed.
Print Assumptions C91_success_clean_refuted.
Example C91_example :
  session PropStart.demo_texts (everywhere (demo_machine chain)) ["--verbose"] 1 (demo_start chain "/etc/cinit.yml" ++ chain_log) (Some 0).
Proof. eapply (demo_session chain _ "/etc/cinit.yml" 1 chain_ops _ (Finished 0)); [vm_compute; reflexivity..]. Qed.
