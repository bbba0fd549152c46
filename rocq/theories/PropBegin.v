(** C95 to C97: what -v shows of the start and of the configuration. *)
From stdpp Require Import gmap strings.
From Coq Require Import Ascii ZArith List Bool Lia.
From Verif Require Import Base RStr CronModel ConfigModel ProcessModel MainModel LogModel TemplModel StartModel BeginModel
  SpecConfig SpecMain SpecStart SpecRefuse SpecBegin SpecLog SpecTrace SpecDebug SpecSession BeginProofs BeginProofs2 BeginProofs3 PropDep PropMain PropStart PropDebug.
From Verif Require CliModel TraceModel SessionModel SpecTick ConfigProofs RunExamples PropTrace PropSession PropLog PropRefuse MainProofs DebugProofs.
Import ListNotations.
Local Open Scope string_scope.
Local Open Scope list_scope.
Local Open Scope Z_scope.

(** * C95: with -v the start tells the kernel, the configuration, the first run of each cronjob and the sockets *)
(** Without the messages at DEBUG level it is the log of C85, C86, C88 and C92. *)
Theorem C95_above t d path root k : m_files k = nameless root ->
  snd (start_logs t d path root k) = run k /\ quieter (fst (start_logs t d path root k)) = fst (start_says t path root k).
Proof. exact (fun Hf => conj (logs_run t d path root k Hf) (proj2 (start_lowers t d path root k))). Qed.
Print Assumptions C95_above.

(** The messages at DEBUG level, however the start ends. *)
Theorem C95_details t d path root k r : honest k -> m_files k = nameless root -> run k = Ret r ->
  details (a_rfc3339 d) (a_first d) root k r (texts_of LDebug (fst (start_logs t d path root k))).
Proof. exact (start_details t d path root k r). Qed.
Print Assumptions C95_details.

(** The whole log of a successful start. *)
Theorem C95_started t d path root k configs a : m_files k = nameless root -> run k = Ret (EntersLoop configs a) ->
  exists note v files raw saids l, version_note t (m_release k) note /\ kernel_detail (m_release k) v /\ ignored path root files /\ holds root raw /\
    List.Forall2 (fun c said => exists p, build (t_tera t) (m_world k) c = (said, Ret (Ok p))) configs saids /\
    announced (a_rfc3339 d) (m_zone k) configs (m_clock k) l /\
    fst (start_logs t d path root k) =
      [(LInfo, "Starting up")] ++ note ++ map (pair LDebug) v ++ [(LInfo, "Config is at " +:+ path); (LInfo, "Parsing config")] ++
      map (fun p => (LWarn, "Ignoring file " +:+ p)) files ++ [(LDebug, complete raw); (LInfo, "Perform analysis on programs")] ++ concat saids ++
      map (pair LDebug) l ++ [(LDebug, first_socket); (LDebug, second_socket); (LInfo, "Spawning processes"); (LDebug, "setup successful"); (LDebug, "Entering poll loop")].
Proof. exact (begin_log t d path root k configs a). Qed.
Print Assumptions C95_started.

Definition demo_aside : aside := {| a_rfc3339 := show_Z; a_first := true |}.
Definition logs_of (root : tree) (k : machine) : list message := fst (start_logs demo_texts demo_aside "/etc/cinit.d" root k).
Definition low_of (k : machine) : list string := texts_of LDebug (logs_of (TFile (Some "good")) k).
Definition two_jobs : list proc_config := [timed "b" "0 12 * * *"; timed "a" "0 12 * * *"].
Definition at_noon : string := "1614600000000000000".
Example C95_example :
  (exists configs a, run (one_file (two_jobs ++ [simple "c" [] []])) = Ret (EntersLoop configs a) /\ length configs = 3%nat) /\
  logs_of (TFile (Some "good")) (one_file (two_jobs ++ [simple "c" [] []])) =
    [(LInfo, "Starting up"); (LDebug, "Running on kernel version 5.10.0"); (LInfo, "Config is at /etc/cinit.d"); (LInfo, "Parsing config");
     (LDebug, complete ["good"]); (LInfo, "Perform analysis on programs"); (LDebug, "Scheduled execution of 'a' at " +:+ at_noon);
     (LDebug, "Scheduled execution of 'b' at " +:+ at_noon); (LDebug, first_socket); (LDebug, second_socket); (LInfo, "Spawning processes");
     (LDebug, "setup successful"); (LDebug, "Entering poll loop")] /\
  low_of PropRefuse.three_faults = ["Running on kernel version 5.10.0"; complete ["good"]; first_socket] /\
  low_of (one_file [timed "c" "61 * * * *"; timed "d" "0 12 * * *"]) =
    ["Running on kernel version 5.10.0"; complete ["good"]; "Scheduled execution of 'd' at " +:+ at_noon; first_socket; second_socket] /\
  low_of PropRefuse.many_faults = ["Running on kernel version 5.10.0"; complete ["good"]].
Proof.
  split; [destruct (run (one_file (two_jobs ++ [simple "c" [] []]))) as [[e|configs a]|m] eqn:R;
    [vm_compute in R; discriminate R| |vm_compute in R; discriminate R]; exists configs, a; split; [reflexivity|vm_compute in R; injection R as <- _; reflexivity]|].
  split; [vm_compute; reflexivity|]. split; [vm_compute; reflexivity|]. split; vm_compute; reflexivity.
Qed.

(** * C96: with -v the files of the configuration appear on stdout, without -v they do not *)
(** The whole log of a run; without the messages at DEBUG level it is the one of C90 and
    C91. *)
Theorem C96_above t d found args v ls c : session_all t d found args v ls c -> SessionModel.session t found args v (above_debug ls) c.
Proof. exact (session_above t d found args v ls c). Qed.
Print Assumptions C96_above.
Theorem C96_every_run t d found args v ls c : SessionModel.session t found args v ls c -> exists all, session_all t d found args v all c /\ above_debug all = ls.
Proof. exact (session_below t d found args v ls c). Qed.
Print Assumptions C96_every_run.
Theorem C96_shown t d found args v ls c rs : furnished found -> session_all t d found args v ls c -> recorded_all ls rs ->
  exists es, stdout_entries (effective v) rs es /\ console_text v rs Stdout = Ret (each_ended es) /\
    (1 <= v <= 2 -> forall x, In x (at_level LDebug ls) -> exists time, stamp time /\ In (log_entry time LDebug "cinit" x) es).
Proof. exact (session_all_shown t d found args v ls c rs). Qed.
Print Assumptions C96_shown.
Theorem C96_configuration t d found args path v ls c rs es p s : furnished found -> CliModel.parse_arguments args = CliModel.Begins path v ->
  session_all t d found args v ls c -> recorded_all ls rs -> 1 <= v <= 2 -> stdout_entries v rs es ->
  ~ precondition_fails (snd (found path)) -> ~ broken (m_files (snd (found path))) ->
  at_path path (fst (found path)) p (TFile (Some s)) ->
  exists time a b, stamp time /\ In (log_entry time LDebug "cinit" (a +:+ s +:+ b)) es.
Proof. exact (configuration_shown t d found args path v ls c rs es p s). Qed.
Print Assumptions C96_configuration.
(** Without -v, or with more than two, records at DEBUG level make no difference. *)
Theorem C96_hidden v rs es : effective v = 0 -> stdout_entries (effective v) rs es ->
  stdout_entries (effective v) (List.filter (fun r => negb (level_eqb (r_level r) LDebug)) rs) es.
Proof. exact (fun E => eq_ind_r (fun z => stdout_entries z rs es -> stdout_entries z _ es) (undebugged rs es) E). Qed.
Print Assumptions C96_hidden.

(** A password in the environment of a program. *)
Definition secret : string := "programs: [{name: a, path: /bin/a, env: [{PASSWORD: hunter2}]}]".
Definition guarded : string -> tree * machine :=
  fun _ => (TFile (Some secret), configured (TFile (Some secret)) (fun s => if String.eqb s secret then Some [without_path "a"] else None)).
Definition guarded_log : list TraceModel.line := SessionModel.own_lines (fst (start_logs demo_texts demo_aside "/etc/cinit.yml" (fst (guarded "")) (snd (guarded "")))).
Definition hides (v : Z) : outcome bool :=
  match console_text v (map PropTrace.as_record guarded_log) Stdout with Ret s => Ret (negb (existsb (fun n => String.prefix "hunter2" (substring n 7 s)) (seq 0 (String.length s)))) | Panic m => Panic m end.
Example C96_example :
  furnished guarded /\ session_all demo_texts demo_aside guarded ["-v"] 1 guarded_log (Some 2) /\ recorded_all guarded_log (map PropTrace.as_record guarded_log) /\
  ~ precondition_fails (snd (guarded "")) /\ ~ broken (m_files (snd (guarded ""))) /\
  at_path "/etc/cinit.yml" (fst (guarded "")) "/etc/cinit.yml" (TFile (Some secret)) /\
  hides 1 = Ret false /\ hides 0 = Ret true /\ hides 3 = Ret true.
Proof.
  split; [intros path; split; [apply configured_honest; intros (p & es & n & H & _); inversion H|reflexivity]|].
  split; [eapply (sa_refused demo_texts demo_aside guarded ["-v"] "/etc/cinit.yml" 1 2); vm_compute; reflexivity|].
  split; [apply all_recorded|]. split; [|split].
  - intros [H|(r & M & m & E & V & L)]; [apply H; reflexivity|].
    destruct (MainProofs.startup_exact (m_release (snd (guarded ""))) 0) as [(_ & K)|(K & _)]; [discriminate K|]. apply K. right. exists r, M, m. auto.
  - intros H. assert (X : read_config (nameless (TFile (Some secret))) = Ret (Ok [secret])) by reflexivity.
    pose proof (ConfigProofs.read_config_spec (nameless (TFile (Some secret)))) as Sp. rewrite X in Sp. inversion Sp. contradiction.
  - split; [constructor|]. split; [|split]; vm_compute; reflexivity.
Qed.

(** * C97: a cronjob is scheduled for the time that the log announces *)
(** Each cronjob is announced; it is scheduled at that time or, because of other
    cronjobs, less than as many nanoseconds later as there are cronjobs. *)
Theorem C97_announced_partial t d path root k configs a id c : m_files k = nameless root -> run k = Ret (EntersLoop configs a) ->
  nth_error configs id = Some c -> is_cronjob (pc_type c) = true ->
  exists u j, In (first_run (a_rfc3339 d) c u) (texts_of LDebug (fst (start_logs t d path root k))) /\
    cron_next (a_cron a) id = Ret (u + j) /\ 0 <= j < SpecTick.cron_count configs.
Proof. exact (fun Hf R => first_runs_scheduled t d path root k configs a Hf R id c). Qed.
Print Assumptions C97_announced_partial.

(** Of two cronjobs with the same timer the second is not scheduled when announced. *)
Theorem C97_announced_refuted : exists t d path root k configs a c, honest k /\ m_files k = nameless root /\ run k = Ret (EntersLoop configs a) /\
  nth_error configs 1 = Some c /\ is_cronjob (pc_type c) = true /\ (forall x y, a_rfc3339 d x = a_rfc3339 d y -> x = y) /\
  forall u, In (first_run (a_rfc3339 d) c u) (texts_of LDebug (fst (start_logs t d path root k))) -> cron_next (a_cron a) 1 <> Ret u.
Proof.
  destruct (run (one_file two_jobs)) as [[e|configs a]|m] eqn:R; try (vm_compute in R; discriminate R).
  exists demo_texts, demo_aside, "/etc/cinit.d", (TFile (Some "good")), (one_file two_jobs), configs, a, (timed "b" "0 12 * * *").
  split; [apply one_file_honest|]. split; [reflexivity|]. split; [exact R|].
  assert (L : texts_of LDebug (fst (start_logs demo_texts demo_aside "/etc/cinit.d" (TFile (Some "good")) (one_file two_jobs))) =
    ["Running on kernel version 5.10.0"; complete ["good"]; "Scheduled execution of 'a' at 1614600000000000000"; "Scheduled execution of 'b' at 1614600000000000000";
     first_socket; second_socket; "setup successful"; "Entering poll loop"]) by (vm_compute; reflexivity).
  rewrite L. clear L. vm_compute in R. injection R as <- <-. split; [reflexivity|]. split; [reflexivity|]. split; [exact DebugProofs.show_Z_inj|].
  intros u K N. vm_compute in N. injection N as <-. vm_compute in K. repeat (destruct K as [K|K]; [discriminate K|]). exact K.
Qed.
Print Assumptions C97_announced_refuted.

Example C97_example : exists configs a, run (one_file two_jobs) = Ret (EntersLoop configs a) /\ map pc_name configs = ["a"; "b"] /\
  low_of (one_file two_jobs) = ["Running on kernel version 5.10.0"; complete ["good"]; "Scheduled execution of 'a' at " +:+ at_noon;
    "Scheduled execution of 'b' at " +:+ at_noon; first_socket; second_socket; "setup successful"; "Entering poll loop"] /\
  cron_next (a_cron a) 0 = Ret 1614600000000000000 /\ cron_next (a_cron a) 1 = Ret 1614600000000000001.
Proof.
  destruct (run (one_file two_jobs)) as [[e|configs a]|m] eqn:R; [vm_compute in R; discriminate R| |vm_compute in R; discriminate R].
  exists configs, a. split; [reflexivity|]. vm_compute in R. injection R as <- <-. split; [reflexivity|]. split; [vm_compute; reflexivity|]. split; vm_compute; reflexivity.
Qed.
