(** Property C94: nobody can write lines of their own into the log by means of notifications. *)
From stdpp Require Import gmap strings.
From Coq Require Import Ascii ZArith List Bool Lia.
From Verif Require Import Base RStr CronModel ConfigModel ProcessModel EnvModel DepModel NotifyModel ManagerModel SysModel MainModel
  SpecStr SpecDep SpecMain SpecText SpecRun RunInv RunHist RunThms RunFinal RunExamples LogModel SpecLog LogProofs PropLog TraceModel SpecTrace TraceProofs PropTrace PropWarn
  DebugModel SpecDebug DebugProofs PropDebug LineProofs.
Import ListNotations.
Local Open Scope string_scope.
Local Open Scope list_scope.
Local Open Scope Z_scope.

(** * C94: what is sent to cinit does not add lines to its output *)
(** Each line on stdout is one entry, whatever the programs and strangers send.  Missing
    from the full claim: -v, and names with line feeds. *)
Theorem C94_default_partial k e configs s0 ops s ls rs : launched k e configs s0 -> narrate e s0 ops = Some (s, ls) -> recorded ls rs ->
  (forall c, In c configs -> free_of line_feed (pc_name c)) -> (forall o d, In (o, d) ops -> free_of line_feed (d_error d)) ->
  exists es text, stdout_entries 0 rs es /\ console_text 0 rs Stdout = Ret text /\ physical_lines text es /\
    forall es', physical_lines text es' -> es' = es.
Proof. exact (default_lines k e configs s0 ops s ls rs). Qed.
Print Assumptions C94_default_partial.

(** With -v a process that is not even one of cinit's programs makes stdout contain a
    line like one written by the program web. *)
Definition forged : string := "x" +:+ String line_feed "2021-03-01T12:00:00.000 INFO [web] hello" +:+ String line_feed "y".
Definition forge_ops : list op := [CHead; CSpawnDep (fork 10 20 21)] ++ no_start ++ batch [msg forged 99] [].
Definition forge_log : list line :=
  [Own LInfo "Starting web"; Own LTrace "Started child web"; Own LInfo "Started child 10"; dbg "Registering fd 20"; dbg "Registering fd 21"; dbg "Got 1 events";
   dbg ("Received notification '" +:+ forged +:+ "' from 99"); Own LWarn "Got notification from unknown pid 99"].
Definition forge_lines : list string :=
  ["2021-03-01T12:00:00.000 INFO [cinit] Starting web"; "2021-03-01T12:00:00.000 INFO [cinit] Started child 10";
   "2021-03-01T12:00:00.000 DEBUG [cinit] Registering fd 20"; "2021-03-01T12:00:00.000 DEBUG [cinit] Registering fd 21"; "2021-03-01T12:00:00.000 DEBUG [cinit] Got 1 events";
   "2021-03-01T12:00:00.000 DEBUG [cinit] Received notification 'x"; "2021-03-01T12:00:00.000 INFO [web] hello"; "y' from 99";
   "2021-03-01T12:00:00.000 WARN [cinit] Got notification from unknown pid 99"].
Lemma forge_narrated : exists s0 s, launched (demo_machine (talk "web")) demo_env (demo_configs (talk "web")) s0 /\
  narrate_all demo_env s0 (with_details forge_ops) = Some (s, forge_log) /\ s_hist s = [EStart 0 10; EOpen 20 0 true; EOpen 21 0 false; EIgnored 99] /\
  (forall c, In c (demo_configs (talk "web")) -> free_of line_feed (pc_name c)) /\ (forall o d, In (o, d) (with_details forge_ops) -> free_of line_feed (d_error d)).
Proof.
  destruct (demo_narrated_all (talk "web") forge_ops [EStart 0 10; EOpen 20 0 true; EOpen 21 0 false; EIgnored 99] AtHead forge_log) as (s0 & s & L & N & H & _); [vm_compute; reflexivity..|].
  exists s0, s. split; [exact L|]. split; [exact N|]. split; [exact H|].
  split; [replace (demo_configs (talk "web")) with (talk "web") by (vm_compute; reflexivity); intros c [<-|[]]; vm_compute; intuition discriminate|].
  intros o d K; apply in_map_iff in K as (x & E & _); inversion E; subst; vm_compute; intuition discriminate.
Qed.
(** The same execution without -v: the record with the forged line is there but not
    shown. *)
Example C94_example : exists s0 s, launched (demo_machine (talk "web")) demo_env (demo_configs (talk "web")) s0 /\
  narrate demo_env s0 (with_details forge_ops) = Some (s, above_debug forge_log) /\ recorded (above_debug forge_log) (map as_record forge_log) /\
  (forall c, In c (demo_configs (talk "web")) -> free_of line_feed (pc_name c)) /\ (forall o d, In (o, d) (with_details forge_ops) -> free_of line_feed (d_error d)) /\
  console_text 0 (map as_record forge_log) Stdout =
    Ret (each_ended ["2021-03-01T12:00:00.000 INFO [cinit] Starting web"; "2021-03-01T12:00:00.000 INFO [cinit] Started child 10";
                     "2021-03-01T12:00:00.000 WARN [cinit] Got notification from unknown pid 99"]).
Proof.
  destruct forge_narrated as (s0 & s & L & N & _ & A & B). exists s0, s. split; [exact L|].
  destruct (C93_above _ _ _ _ _ _ N (all_recorded forge_log)) as [C D]. split; [exact C|]. split; [exact D|]. split; [exact A|]. split; [exact B|]. vm_compute. reflexivity.
Qed.
Theorem C94_verbose_refuted : exists k e configs s0 ops s ls rs text lines, launched k e configs s0 /\ narrate_all e s0 ops = Some (s, ls) /\ recorded_all ls rs /\
  (forall c, In c configs -> free_of line_feed (pc_name c)) /\ (forall o d, In (o, d) ops -> free_of line_feed (d_error d)) /\
  console_text 1 rs Stdout = Ret text /\ physical_lines text lines /\ In (log_entry noon LInfo "web" "hello") lines /\
  forall out name line, ~ In (ELog out name line) (s_hist s).
Proof.
  destruct forge_narrated as (s0 & s & L & N & H & A & B).
  exists (demo_machine (talk "web")), demo_env, (demo_configs (talk "web")), s0, (with_details forge_ops), s, forge_log, (map as_record forge_log), (each_ended forge_lines), forge_lines.
  split; [exact L|]. split; [exact N|]. split; [apply all_recorded|].
  split; [exact A|]. split; [exact B|].
  split; [vm_compute; reflexivity|]. split.
  - apply each_ended_physical. repeat (apply List.Forall_cons; [apply free_literal; vm_compute; reflexivity|]). apply List.Forall_nil.
  - split; [vm_compute; tauto|]. rewrite H. intros out name line K. cbn in K. intuition discriminate.
Qed.
Print Assumptions C94_verbose_refuted.
