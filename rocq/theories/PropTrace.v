(** Properties C81 to C84: what cinit logs while it runs. *)
From stdpp Require Import gmap strings.
From Coq Require Import Ascii ZArith List Bool Lia.
From Verif Require Import Base RStr CronModel ConfigModel ProcessModel EnvModel DepModel NotifyModel ManagerModel SysModel MainModel
  SpecStr SpecDep SpecMain SpecText SpecRun RunInv RunHist RunThms RunFinal RunExamples LogModel SpecLog LogProofs PropLog TraceModel SpecTrace TraceProofs.
Import ListNotations.
Local Open Scope string_scope.
Local Open Scope list_scope.
Local Open Scope Z_scope.

(** * C81: the log tells what happens, in order *)
Theorem C81_every_execution_has_a_log e s0 ops s :
  execute e s0 (map fst ops) = Some s <-> exists ls, narrate e s0 ops = Some (s, ls).
Proof. exact (narrate_total e ops s0 s). Qed.
Print Assumptions C81_every_execution_has_a_log.

(** Each effect with its lines, and nothing else but remarks that name no program. *)
Theorem C81_log k e configs s0 ops s ls : launched k e configs s0 -> narrate e s0 ops = Some (s, ls) ->
  narrated configs [] (s_hist s) ls.
Proof. exact (log_narrated k e configs s0 ops s ls). Qed.
Print Assumptions C81_log.

(** The messages at TRACE level follow from the effects alone. *)
Theorem C81_trace k e configs s0 ops s ls rs : launched k e configs s0 -> narrate e s0 ops = Some (s, ls) -> recorded ls rs ->
  texts_at LTrace rs = traced configs [] (s_hist s).
Proof.
  exact (fun L H R => eq_trans (recorded_texts LTrace ls rs R (fun K => ltac:(discriminate K)) (fun K => ltac:(discriminate K)))
                               (narrated_traces configs [] (s_hist s) ls (log_narrated k e configs s0 ops s ls L H))).
Qed.
Print Assumptions C81_trace.

(** The records are such as C56 to C58 speak about. *)
Theorem C81_console k e configs s0 ops s ls rs v : launched k e configs s0 -> narrate e s0 ops = Some (s, ls) -> recorded ls rs -> 0 <= v <= 2 ->
  said (s_hist s) rs /\ exists es, stdout_entries v rs es /\ console_text v rs Stdout = Ret (each_ended es).
Proof.
  exact (fun L H R V => let S := narrated_said configs [] (s_hist s) ls (log_narrated k e configs s0 ops s ls L H) rs R in
                        conj S (stdout_exact (s_hist s) rs v S V)).
Qed.
Print Assumptions C81_console.

(** The executions of RunExamples.v with their logs. *)
Definition quiet : detail :=
  {| d_stage := NoFork; d_unwritten := false; d_error := ""; d_flags := true; d_size := true; d_sender := 10; d_code := 0; d_unread := None; d_core := false |}.
Definition with_details (ops : list op) : list (op * detail) := map (fun o => (o, quiet)) ops.
Definition demo_log (programs : list proc_config) (ops : list op) : option (list line) :=
  match demo programs [] with
  | Some s0 => match narrate demo_env s0 (with_details ops) with Some (_, ls) => Some ls | None => None end
  | None => None
  end.
Lemma demo_narrated programs ops s ls : demo programs ops = Some s -> demo_log programs ops = Some ls ->
  exists s0, demo programs [] = Some s0 /\ narrate demo_env s0 (with_details ops) = Some (s, ls).
Proof.
  intros D H. assert (X : exists s0, demo programs [] = Some s0 /\ execute demo_env s0 ops = Some s).
  { revert D. unfold demo. destruct (run (demo_machine programs)) as [[c|configs a]|m]; try discriminate. destruct (bool_decide _); [|discriminate].
    intros D. cbn [execute] in *. eauto. }
  destruct X as (s0 & D0 & X). exists s0. split; [exact D0|]. unfold demo_log in H. rewrite D0 in H.
  destruct (narrate demo_env s0 (with_details ops)) as [[s' ls']|] eqn:E; [|discriminate H]. apply Some_inj in H. subst ls'.
  assert (F : map fst (with_details ops) = ops) by (unfold with_details; rewrite map_map; apply List.map_id).
  assert (Y := proj2 (narrate_total demo_env (with_details ops) s0 s') (ex_intro _ ls E)). rewrite F, X in Y. apply Some_inj in Y. subst s'. reflexivity.
Qed.
Lemma demo_narrated_at programs ops h p ls : history (demo programs ops) = h -> place (demo programs ops) = Some p -> demo_log programs ops = Some ls ->
  exists s0 s, launched (demo_machine programs) demo_env (demo_configs programs) s0 /\ narrate demo_env s0 (with_details ops) = Some (s, ls) /\
    s_hist s = h /\ s_pc s = p /\ demo programs [] = Some s0.
Proof.
  intros H P L. destruct (demo_state programs ops h p H P) as (s & D & Hh & Hp & _). destruct (demo_narrated _ _ _ _ D L) as (s0 & A & B). exists s0, s. split; [apply demo_launched; exact A|]. auto.
Qed.

Definition twice (t : string) : list line := [Own LInfo t; Own LTrace t].
Definition chain_log : list line :=
  [Own LInfo "Starting a"; Own LTrace "Started child a"; Own LInfo "Started child 10"; Child true "a" "one"; Child true "a" "two"] ++
  twice "Child a exited successfully" ++
  [Own LInfo "Starting b"; Own LTrace "Started child b"; Own LInfo "Started child 11"; Own LTrace "child b: up"] ++
  twice "child b has started successfully" ++
  [Own LInfo "Starting c"; Own LTrace "Started child c"; Own LInfo "Started child 12"] ++
  twice "Reaped zombie process 77 with return code 3" ++ twice "Child c exited successfully" ++ twice "Child b exited successfully" ++
  [Own LInfo "Shutting down"] ++ twice "Exiting".
Definition as_record (x : line) : record :=
  match x with Own l t => cinit_says l t | Child out name t => child_record noon out name t end.
Lemma as_recorded ls : recorded ls (map as_record ls).
Proof.
  induction ls as [|[l t|out name t] ls IH]; cbn [map as_record]; [constructor| |].
  - apply re_own; [apply cinit_says_own|reflexivity|reflexivity|exact IH].
  - apply re_child; [apply noon_stamp|exact IH].
Qed.
Example C81_example : exists s0 s, launched (demo_machine chain) demo_env (demo_configs chain) s0 /\
  narrate demo_env s0 (with_details chain_ops) = Some (s, chain_log) /\ s_hist s = chain_history /\ recorded chain_log (map as_record chain_log) /\
  texts_at LTrace (map as_record chain_log) =
    ["Started child a"; "Child a exited successfully"; "Started child b"; "child b: up"; "child b has started successfully"; "Started child c";
     "Reaped zombie process 77 with return code 3"; "Child c exited successfully"; "Child b exited successfully"; "Exiting"].
Proof.
  destruct (demo_narrated_at chain chain_ops chain_history (Finished 0) chain_log) as (s0 & s & L & N & H & _); [vm_compute; reflexivity..|].
  exists s0, s. split; [exact L|]. split; [exact N|]. split; [exact H|]. split; [apply as_recorded|vm_compute; reflexivity].
Qed.

(** * C82: what programs announce can be read in the log without options *)
(** Missing from the full claim: the name of a program that was started (at INFO there is
    only its pid), a cronjob that is skipped, and the status of a program. *)
Theorem C82_shown_by_default_partial k e configs s0 ops s ls : launched k e configs s0 -> narrate e s0 ops = Some (s, ls) -> echoed configs ls.
Proof. exact (fun L H => narrated_echoed configs [] (s_hist s) ls (log_narrated k e configs s0 ops s ls L H)). Qed.
Print Assumptions C82_shown_by_default_partial.

Example C82_example : exists s0 s l1 l2, launched (demo_machine chain) demo_env (demo_configs chain) s0 /\
  narrate demo_env s0 (with_details chain_ops) = Some (s, chain_log) /\
  chain_log = l1 ++ [Own LInfo "child b has started successfully"; Own LTrace "child b has started successfully"] ++ l2.
Proof.
  destruct (demo_narrated_at chain chain_ops chain_history (Finished 0) chain_log) as (s0 & s & L & N & H & _); [vm_compute; reflexivity..|].
  exists s0, s. eexists (firstn 11 chain_log), (skipn 13 chain_log). split; [exact L|]. split; [exact N|]. vm_compute. reflexivity.
Qed.

(** The manual: "STATUS=...: cinit will log the published status of the child".  Two
    executions that differ only in the status have the same output without -v.  (With -v
    each datagram is shown.) *)
Definition status_ops (status : string) : list op :=
  [CHead; CSpawnDep (fork 10 20 21)] ++ no_start ++ batch [msg ("STATUS=" +:+ status) 10] [].
Definition status_history (status : string) : list event :=
  [EStart 0 10; EOpen 20 0 true; EOpen 21 0 false; ENotify 0 10 [("STATUS", status)]].
Definition status_log (status : string) : list line :=
  [Own LInfo "Starting web"; Own LTrace "Started child web"; Own LInfo "Started child 10"; Own LTrace ("child web: " +:+ status)].
Theorem C82_status_refuted : exists k e configs s0 ops1 s1 ls1 rs1 ops2 s2 ls2 rs2, launched k e configs s0 /\
  narrate e s0 ops1 = Some (s1, ls1) /\ recorded ls1 rs1 /\ In (ENotify 0 10 [("STATUS", "ready to serve")]) (s_hist s1) /\
  narrate e s0 ops2 = Some (s2, ls2) /\ recorded ls2 rs2 /\ In (ENotify 0 10 [("STATUS", "disk is full")]) (s_hist s2) /\
  forall c, console_text 0 rs1 c = console_text 0 rs2 c.
Proof.
  pose (programs := [task "web" Notify [] []]).
  destruct (demo_narrated_at programs (status_ops "ready to serve") (status_history "ready to serve") AtHead (status_log "ready to serve"))
    as (s0 & s1 & L1 & N1 & H1 & _ & D1); [vm_compute; reflexivity..|].
  destruct (demo_narrated_at programs (status_ops "disk is full") (status_history "disk is full") AtHead (status_log "disk is full"))
    as (s0' & s2 & L2 & N2 & H2 & _ & D2); [vm_compute; reflexivity..|].
  rewrite D1 in D2. apply Some_inj in D2. subst s0'.
  exists (demo_machine programs), demo_env, (demo_configs programs), s0, (with_details (status_ops "ready to serve")), s1, (status_log "ready to serve"),
    (map as_record (status_log "ready to serve")), (with_details (status_ops "disk is full")), s2, (status_log "disk is full"), (map as_record (status_log "disk is full")).
  split; [exact L1|]. split; [exact N1|]. split; [apply as_recorded|]. split; [rewrite H1; vm_compute; auto 10|].
  split; [exact N2|]. split; [apply as_recorded|]. split; [rewrite H2; vm_compute; auto 10|].
  intros c. destruct c; vm_compute; reflexivity.
Qed.
Print Assumptions C82_status_refuted.

(** A cronjob that is skipped leaves no trace in the log without -v. *)
Definition skip_ops : list op :=
  [CHead; CSpawnDep (fork 10 20 21)] ++ [CSpawnDep ForkFailed; CSpawnCron (minute 1) ForkFailed] ++ batch [] [] ++
  [CHead; CSpawnDep ForkFailed; CSpawnCron (minute 7) ForkFailed; CSpawnCron (minute 7) ForkFailed].
Definition skip_log : list line :=
  [Own LInfo "Starting a"; Own LTrace "Started child a"; Own LInfo "Started child 10";
   Own LTrace "Refusing to start cronjob child 'j' because of uncompleted dependencies"].
Theorem C82_skipped_refuted : exists k e configs s0 ops s ls rs c, launched k e configs s0 /\ narrate e s0 ops = Some (s, ls) /\ recorded ls rs /\
  nth_error configs 1 = Some c /\ pc_name c = "j" /\ In (ESkipped 1) (s_hist s) /\
  console_text 0 rs Stderr = Ret "" /\ console_text 0 rs Stdout =
    Ret (each_ended ["2021-03-01T12:00:00.000 INFO [cinit] Starting a"; "2021-03-01T12:00:00.000 INFO [cinit] Started child 10"]).
Proof.
  destruct (demo_narrated_at timed_pair skip_ops
    [EStart 0 10; EOpen 20 0 true; EOpen 21 0 false; EDue 1 (minute 7); ESkipped 1] AtPoll skip_log) as (s0 & s & L & N & H & _); [vm_compute; reflexivity..|].
  exists (demo_machine timed_pair), demo_env, (demo_configs timed_pair), s0, (with_details skip_ops), s, skip_log, (map as_record skip_log), (task "j" (CronJob "*/5 * * * *") [] ["a"]).
  split; [exact L|]. split; [exact N|]. split; [apply as_recorded|]. split; [vm_compute; reflexivity|]. split; [reflexivity|]. split; [rewrite H; cbn; auto 10|].
  split; vm_compute; reflexivity.
Qed.
Print Assumptions C82_skipped_refuted.

(** * C83: there is an error in the log for everything that fails, and it says how *)
Theorem C83_errors k e configs s0 ops s ls rs : launched k e configs s0 -> narrate e s0 ops = Some (s, ls) -> recorded ls rs ->
  alarms configs (s_hist s) (texts_at LError rs).
Proof.
  exact (fun L H R => eq_ind_r (alarms configs (s_hist s)) (narrated_alarms configs [] (s_hist s) ls (log_narrated k e configs s0 ops s ls L H))
                               (recorded_texts LError ls rs R (fun K => ltac:(discriminate K)) (fun K => ltac:(discriminate K)))).
Qed.
Print Assumptions C83_errors.

(** cinit's exit code says whether there is such an error about a program. *)
Theorem C83_exit_code k e configs s0 ops s ls code : launched k e configs s0 -> narrate e s0 ops = Some (s, ls) -> s_pc s = Finished code ->
  (code = 0 \/ code = 6) /\
  (code = 6 <-> exists id rc, rc <> 0 /\ In (crash_message configs id rc) (at_level LError ls)).
Proof. exact (exit_blames k e configs s0 ops s ls code). Qed.
Print Assumptions C83_exit_code.

Definition crash_ops (st : status) : list op :=
  [CHead; CSpawnDep (fork 10 20 21)] ++ no_start ++ [KHangup 20; KHangup 21; KExit 10 st] ++ batch [closed 20; closed 21; sig SIGCHLD] [10] ++ [CHead; CHead].
Definition crash_history (st : status) : list event :=
  [EStart 0 10; EOpen 20 0 true; EOpen 21 0 false; EClosed 20; EClosed 21; ESignal SIGCHLD; EReap 10 st; EEnd 0 10 9; EExit 6].
Definition crash_log : list line :=
  [Own LInfo "Starting web"; Own LTrace "Started child web"; Own LInfo "Started child 10";
   Own LError "Child web crashed with 9"; Own LTrace "Child web crashed with 9";
   Own LInfo "Received termination signal"; Own LInfo "Killing children"; Own LInfo "Shutting down"; Own LInfo "Exiting"; Own LTrace "Exiting"].
Example C83_example : exists s0 s, launched (demo_machine (talk "web")) demo_env (demo_configs (talk "web")) s0 /\
  narrate demo_env s0 (with_details (crash_ops (XExit 9))) = Some (s, crash_log) /\ s_pc s = Finished 6 /\
  at_level LError crash_log = [crash_message (demo_configs (talk "web")) 0 9].
Proof.
  destruct (demo_narrated_at (talk "web") (crash_ops (XExit 9)) (crash_history (XExit 9)) (Finished 6) crash_log) as (s0 & s & L & N & _ & P & _); [vm_compute; reflexivity..|].
  exists s0, s. split; [exact L|]. split; [exact N|]. split; [exact P|]. vm_compute. reflexivity.
Qed.

(** It does not say how: except at DEBUG level the log of a program that ends with exit
    code 9 is the log of one that is killed by signal 9. *)
Theorem C83_how_it_failed_refuted : exists k e configs s0 ops1 s1 ops2 s2 ls, launched k e configs s0 /\
  narrate e s0 ops1 = Some (s1, ls) /\ In (EReap 10 (XExit 9)) (s_hist s1) /\ s_pc s1 = Finished 6 /\
  narrate e s0 ops2 = Some (s2, ls) /\ In (EReap 10 (XSignal 9)) (s_hist s2) /\ s_pc s2 = Finished 6.
Proof.
  destruct (demo_narrated_at (talk "web") (crash_ops (XExit 9)) (crash_history (XExit 9)) (Finished 6) crash_log) as (s0 & s1 & L1 & N1 & H1 & P1 & D1); [vm_compute; reflexivity..|].
  destruct (demo_narrated_at (talk "web") (crash_ops (XSignal 9)) (crash_history (XSignal 9)) (Finished 6) crash_log) as (s0' & s2 & L2 & N2 & H2 & P2 & D2); [vm_compute; reflexivity..|].
  rewrite D1 in D2. apply Some_inj in D2. subst s0'.
  exists (demo_machine (talk "web")), demo_env, (demo_configs (talk "web")), s0, (with_details (crash_ops (XExit 9))), s1, (with_details (crash_ops (XSignal 9))), s2, crash_log.
  split; [exact L1|]. split; [exact N1|]. split; [rewrite H1; cbn; auto 10|]. split; [exact P1|]. split; [exact N2|]. split; [rewrite H2; cbn; auto 10|exact P2].
Qed.
Print Assumptions C83_how_it_failed_refuted.

(** * C84: the log tells how the shutdown goes *)
Theorem C84_end k e configs s0 ops s ls code : launched k e configs s0 -> narrate e s0 ops = Some (s, ls) -> s_pc s = Finished code ->
  exists l1 l2, ls = l1 ++ Own LInfo "Shutting down" :: l2 ++ [Own LInfo "Exiting"; Own LTrace "Exiting"] /\
    ~ In (Own LInfo "Shutting down") l1 /\ ~ In (Own LInfo "Shutting down") l2 /\ forall name, ~ In (Own LInfo ("Starting " +:+ name)) l2.
Proof. exact (the_end k e configs s0 ops s ls code). Qed.
Print Assumptions C84_end.

(** Missing from the full claim: the message also appears when a program fails. *)
Theorem C84_termination_partial k e configs s0 ops s ls : launched k e configs s0 -> narrate e s0 ops = Some (s, ls) ->
  times_in "Received termination signal" (at_level LInfo ls) = length (List.filter must_stop (s_hist s)).
Proof. exact (fun L H => narrated_counts configs [] (s_hist s) ls (log_narrated k e configs s0 ops s ls L H)). Qed.
Print Assumptions C84_termination_partial.

Definition stop_ops : list op :=
  [CHead; CSpawnDep (fork 10 20 21)] ++ no_start ++ batch [sig SIGTERM] [] ++ [CHead; CHead; KHangup 20; KHangup 21; KExit 10 (XExit 0)] ++
  batch [closed 20; closed 21; sig SIGCHLD] [10] ++ [CHead].
Definition stop_log : list line :=
  [Own LInfo "Starting web"; Own LTrace "Started child web"; Own LInfo "Started child 10";
   Own LInfo "Received termination signal"; Own LInfo "Killing children"; Own LInfo "Shutting down"] ++
  twice "Child web exited successfully" ++ twice "Exiting".
Example C84_example : exists s0 s, launched (demo_machine (talk "web")) demo_env (demo_configs (talk "web")) s0 /\
  narrate demo_env s0 (with_details stop_ops) = Some (s, stop_log) /\ s_pc s = Finished 0 /\ length (List.filter must_stop (s_hist s)) = 1%nat.
Proof.
  destruct (demo_narrated_at (talk "web") stop_ops
    [EStart 0 10; EOpen 20 0 true; EOpen 21 0 false; ESignal SIGTERM; EKill 10 SIGINT; EClosed 20; EClosed 21; ESignal SIGCHLD; EReap 10 (XExit 0); EEnd 0 10 0; EExit 0]
    (Finished 0) stop_log) as (s0 & s & L & N & H & P & _); [vm_compute; reflexivity..|].
  exists s0, s. split; [exact L|]. split; [exact N|]. split; [exact P|]. rewrite H. vm_compute. reflexivity.
Qed.

(** cinit logs that it received a termination signal though it received none. *)
Theorem C84_no_signal_refuted : exists k e configs s0 ops s ls, launched k e configs s0 /\ narrate e s0 ops = Some (s, ls) /\
  In (Own LInfo "Received termination signal") ls /\ forall sg, In (ESignal sg) (s_hist s) -> sg = SIGCHLD.
Proof.
  destruct (demo_narrated_at (talk "web") (crash_ops (XExit 9)) (crash_history (XExit 9)) (Finished 6) crash_log) as (s0 & s & L & N & H & _); [vm_compute; reflexivity..|].
  exists (demo_machine (talk "web")), demo_env, (demo_configs (talk "web")), s0, (with_details (crash_ops (XExit 9))), s, crash_log.
  split; [exact L|]. split; [exact N|]. split; [cbn; auto 10|]. intros sg K. rewrite H in K. cbn in K. intuition congruence.
Qed.
Print Assumptions C84_no_signal_refuted.
