(** Properties C56 to C59: what appears on cinit's stdout and stderr and in reports. *)
From stdpp Require Import gmap strings.
From Coq Require Import Ascii ZArith List Bool Lia.
From Verif Require Import Base RStr CronModel ConfigModel ProcessModel EnvModel DepModel NotifyModel ManagerModel SysModel MainModel
  SpecStr SpecDep SpecMain SpecText SpecRun RunInv RunHist RunThms RunFinal RunExamples PropRun3 LogModel SpecLog LogProofs RunForge.
Import ListNotations.
Local Open Scope string_scope.
Local Open Scope list_scope.
Local Open Scope Z_scope.

(** * C56: the output of programs is shown, whatever the verbosity *)
(** [logged] says which lines of the programs' output become [ELog] events (C38). *)
Theorem C56_stderr k e configs s rs v : reachable k e configs s -> said (s_hist s) rs ->
  logged configs nobody (s_hist s) /\
  exists es, program_entries false (s_hist s) es /\ console_text v rs Stderr = Ret (each_ended es).
Proof. exact (fun R H => conj (pa_logs _ _ (past_of R)) (stderr_exact (s_hist s) rs v H)). Qed.
Print Assumptions C56_stderr.

Theorem C56_stdout k e configs s rs v : reachable k e configs s -> said (s_hist s) rs -> 0 <= v <= 2 ->
  logged configs nobody (s_hist s) /\
  exists es, stdout_entries v rs es /\ console_text v rs Stdout = Ret (each_ended es).
Proof. exact (fun R H Hv => conj (pa_logs _ _ (past_of R)) (stdout_exact (s_hist s) rs v H Hv)). Qed.
Print Assumptions C56_stdout.

Theorem C56_very_verbose rs v c : 2 < v -> console_text v rs c = console_text 0 rs c.
Proof. exact (very_verbose v rs c). Qed.
Print Assumptions C56_very_verbose.

(** A program writes to both streams; cinit has something to say in between. *)
Definition talk (name : string) : list proc_config := [task name Oneshot [] []].
Definition talk_ops : list op :=
  [CHead; CSpawnDep (fork 10 20 21)] ++ no_start ++ [KWrite 20 ("one" +:+ nl); KWrite 21 "two"] ++ batch [output 20 4; output 21 3] [].
Definition talk_history (name : string) : list event :=
  [EStart 0 10; EOpen 20 0 true; EOpen 21 0 false; EWrote 20 ("one" +:+ nl); EWrote 21 "two";
   EChunk 20 ("one" +:+ nl); ELog true name "one"; EChunk 21 "two"; ELog false name "two"].
Definition noon : string := "2021-03-01T12:00:00.000".
Definition cinit_says (l : level) (text : string) : record :=
  {| r_time := noon; r_level := l; r_target := "cinit::runtime::process_manager"; r_text := text |}.
Definition talk_records (name : string) : list record :=
  [cinit_says LInfo "Starting"; child_record noon true name "one"; cinit_says LDebug "Got 2 events"; child_record noon false name "two"].

Lemma noon_stamp : stamp noon.
Proof. split; vm_compute; intuition discriminate. Qed.
Lemma cinit_says_own l text : own_message (cinit_says l text).
Proof. split; [apply noon_stamp|]. intros rest. split; intros K; vm_compute in K; discriminate. Qed.

Lemma talk_said name : said (talk_history name) (talk_records name).
Proof.
  unfold talk_history, talk_records.
  repeat first [apply sd_other; [discriminate|]|apply sd_own; [apply cinit_says_own|]|apply sd_program; [apply noon_stamp|]]. apply sd_nil.
Qed.

Example C56_example : exists s, reachable (demo_machine (talk "web")) demo_env (demo_configs (talk "web")) s /\ said (s_hist s) (talk_records "web") /\
  console_text 0 (talk_records "web") Stdout =
    Ret ("2021-03-01T12:00:00.000 INFO [cinit] Starting" +:+ nl +:+ "2021-03-01T12:00:00.000 INFO [web] one" +:+ nl) /\
  console_text 1 (talk_records "web") Stdout =
    Ret ("2021-03-01T12:00:00.000 INFO [cinit] Starting" +:+ nl +:+ "2021-03-01T12:00:00.000 INFO [web] one" +:+ nl +:+
         "2021-03-01T12:00:00.000 DEBUG [cinit] Got 2 events" +:+ nl) /\
  console_text 0 (talk_records "web") Stderr = Ret ("2021-03-01T12:00:00.000 INFO [web] two" +:+ nl).
Proof.
  destruct (demo_state (talk "web") talk_ops (talk_history "web") AtHead) as (s & _ & H & _ & R); [vm_compute; reflexivity|vm_compute; reflexivity|].
  exists s. split; [exact R|]. rewrite H. split; [apply talk_said|]. repeat split; vm_compute; reflexivity.
Qed.

(** * C57: each line of the log is one entry and tells who wrote it *)
(** Missing from the full claim: names with line feeds or closing brackets, a program
    called cinit, and messages of cinit that span several lines, see the refutations. *)
Theorem C57_stderr_lines_partial k e configs s rs v : reachable k e configs s -> said (s_hist s) rs ->
  (forall c, In c configs -> free_of line_feed (pc_name c)) ->
  exists es text, program_entries false (s_hist s) es /\ console_text v rs Stderr = Ret text /\ physical_lines text es /\
    forall es', physical_lines text es' -> es' = es.
Proof. exact (fun R H N => stderr_lines configs nobody (s_hist s) rs v (pa_logs _ _ (past_of R)) N H). Qed.
Print Assumptions C57_stderr_lines_partial.

Theorem C57_stdout_lines_partial k e configs s rs v : reachable k e configs s -> said (s_hist s) rs ->
  (forall c, In c configs -> free_of line_feed (pc_name c)) -> 0 <= v <= 2 ->
  (forall r, In r rs -> own_message r -> free_of line_feed (r_text r)) ->
  exists es text, stdout_entries v rs es /\ console_text v rs Stdout = Ret text /\ physical_lines text es /\
    forall es', physical_lines text es' -> es' = es.
Proof. exact (fun R H N => stdout_lines configs nobody (s_hist s) rs v (pa_logs _ _ (past_of R)) N H). Qed.
Print Assumptions C57_stdout_lines_partial.

Theorem C57_attributed_partial t l name text t' l' name' text' : stamp t -> stamp t' -> free_of "]" name -> free_of "]" name' ->
  log_entry t l name text = log_entry t' l' name' text' -> t = t' /\ l = l' /\ name = name' /\ text = text'.
Proof. exact (entry_attributed t l name text t' l' name' text'). Qed.
Print Assumptions C57_attributed_partial.

Example C57_example : exists s, reachable (demo_machine (talk "web")) demo_env (demo_configs (talk "web")) s /\ said (s_hist s) (talk_records "web") /\
  (forall c, In c (demo_configs (talk "web")) -> free_of line_feed (pc_name c)) /\
  (forall r, In r (talk_records "web") -> own_message r -> free_of line_feed (r_text r)) /\
  stamp noon /\ free_of "]" "web" /\ free_of "]" "cinit".
Proof.
  destruct (demo_state (talk "web") talk_ops (talk_history "web") AtHead) as (s & _ & H & _ & R); [vm_compute; reflexivity|vm_compute; reflexivity|].
  exists s. split; [exact R|]. rewrite H. split; [apply talk_said|]. clear.
  split; [|split; [|split; [apply noon_stamp|split; vm_compute; intuition discriminate]]].
  - replace (demo_configs (talk "web")) with (talk "web") by (vm_compute; reflexivity). intros c [<-|[]]. vm_compute. intuition discriminate.
  - intros r K _. cbn in K. destruct K as [<-|[<-|[<-|[<-|[]]]]]; vm_compute; intuition discriminate.
Qed.

(** A name with a line feed: the second line of the entry looks like an entry of a
    program that does not exist. *)
Theorem C57_newline_refuted : exists k e configs s rs text l1, reachable k e configs s /\ said (s_hist s) rs /\
  console_text 0 rs Stderr = Ret text /\ physical_lines text [l1; log_entry noon LInfo "db" "two"] /\
  (forall c, In c configs -> pc_name c <> "db").
Proof.
  set (name := ("web] up" +:+ nl +:+ noon +:+ " INFO [db")%string).
  destruct (demo_state (talk name) talk_ops (talk_history name) AtHead) as (s & _ & H & _ & R); [vm_compute; reflexivity|vm_compute; reflexivity|].
  exists (demo_machine (talk name)), demo_env, (demo_configs (talk name)), s, (talk_records name),
    (log_entry noon LInfo name "two" +:+ nl)%string, (log_entry noon LInfo "web" "up").
  split; [exact R|]. split; [rewrite H; apply talk_said|]. clear. split; [vm_compute; reflexivity|]. split.
  - change (log_entry noon LInfo name "two" +:+ nl)%string
      with (log_entry noon LInfo "web" "up" +:+ String line_feed (log_entry noon LInfo "db" "two" +:+ String line_feed ""))%string.
    apply pl_line; [vm_compute; intuition discriminate|]. apply pl_line; [vm_compute; intuition discriminate|]. apply pl_nil.
  - replace (demo_configs (talk name)) with (talk name) by (vm_compute; reflexivity). intros c [<-|[]]. discriminate.
Qed.
Print Assumptions C57_newline_refuted.

(** Names with a closing bracket: two programs, the same entry. *)
Theorem C57_bracket_refuted : exists t l name text name' text', stamp t /\ name <> name' /\
  log_entry t l name text = log_entry t l name' text'.
Proof.
  exists noon, LInfo, "web", "x] hello", "web] x", "hello". split; [apply noon_stamp|]. split; [discriminate|vm_compute; reflexivity].
Qed.
Print Assumptions C57_bracket_refuted.

(** What a program called cinit writes cannot be told from messages of cinit. *)
Theorem C57_called_cinit_refuted : exists k e configs s rs, reachable k e configs s /\ said (s_hist s) rs /\
  In (ELog true "cinit" "one") (s_hist s) /\
  console_text 0 rs Stdout = console_text 0 [cinit_says LInfo "Starting"; cinit_says LInfo "one"] Stdout.
Proof.
  destruct (demo_state (talk "cinit") talk_ops (talk_history "cinit") AtHead) as (s & _ & H & _ & R); [vm_compute; reflexivity|vm_compute; reflexivity|].
  exists (demo_machine (talk "cinit")), demo_env, (demo_configs (talk "cinit")), s, (talk_records "cinit").
  split; [exact R|]. rewrite H. split; [apply talk_said|]. clear. split; [vm_compute; tauto|vm_compute; reflexivity].
Qed.
Print Assumptions C57_called_cinit_refuted.

(** * C58: more -v never show less *)
(** Missing from the full claim: more than two -v. *)
Theorem C58_more_shows_more_partial v v' r c : own_message r -> 0 <= v <= v' -> v' <= 2 ->
  appended (initialise v) r c <> "" -> appended (initialise v') r c = appended (initialise v) r c.
Proof. exact (verbosity_monotone v v' r c). Qed.
Print Assumptions C58_more_shows_more_partial.

Example C58_example : own_message (cinit_says LDebug "x") /\ appended (initialise 1) (cinit_says LDebug "x") Stdout <> "" /\
  appended (initialise 0) (cinit_says LDebug "x") Stdout = "" /\ appended (initialise 2) (cinit_says LTrace "x") Stdout <> "".
Proof. split; [apply cinit_says_own|]. repeat split; vm_compute; discriminate. Qed.

(** Three -v show less than one. *)
Theorem C58_three_refuted : exists v v' r, own_message r /\ 0 <= v < v' /\ documented v' (r_level r) /\
  appended (initialise v) r Stdout <> "" /\ appended (initialise v') r Stdout = "".
Proof.
  exists 1, 3, (cinit_says LDebug "x"). split; [apply cinit_says_own|]. split; [lia|]. split; [unfold documented; cbn; right; right; right; left; split; [reflexivity|lia]|].
  split; [vm_compute; discriminate|vm_compute; reflexivity].
Qed.
Print Assumptions C58_three_refuted.

(** * C59: programs cannot forge parts of the status report *)
(** Its lines, ended by LF, are those of C45 whatever the programs send as STATUS.
    Missing from the full claim: names with line feeds. *)
Theorem C59_report_lines_partial k e configs s rest s' : reachable k e configs s ->
  s_pc s = AtEvents (EvIn (e_status e) :: rest) -> e_status e <> e_signal e -> sstep e s (CEvent (AAccept true)) = Some s' ->
  (forall c, In c configs -> free_of line_feed (pc_name c)) -> (forall t, free_of line_feed (e_rfc3339 e t)) ->
  exists next text, s_hist s' = s_hist s ++ [EReport text] /\
    let lines := "programs:" :: flat_map (SpecRun.entry configs (s_hist s) (fun id => e_rfc3339 e (next id))) (seq 0 (length configs)) in
    physical_lines text lines /\ forall ls, physical_lines text ls -> ls = lines.
Proof. exact (fun R => report_physical R rest s'). Qed.
Print Assumptions C59_report_lines_partial.

(** As YAML, if there is no carriage return in names and statuses either. *)
Theorem C59_report_yaml_partial k e configs s rest s' : reachable k e configs s ->
  s_pc s = AtEvents (EvIn (e_status e) :: rest) -> e_status e <> e_signal e -> sstep e s (CEvent (AAccept true)) = Some s' ->
  (forall c, In c configs -> free_of line_feed (pc_name c) /\ free_of carriage_return (pc_name c)) ->
  (forall t, free_of line_feed (e_rfc3339 e t) /\ free_of carriage_return (e_rfc3339 e t)) ->
  (forall id, (id < length configs)%nat -> free_of carriage_return (v_status (view_of configs (s_hist s) id))) ->
  exists next text, s_hist s' = s_hist s ++ [EReport text] /\
    let lines := "programs:" :: flat_map (SpecRun.entry configs (s_hist s) (fun id => e_rfc3339 e (next id))) (seq 0 (length configs)) in
    forall ls, yaml_lines text ls -> ls = lines ++ [""].
Proof. exact (fun R => report_yaml R rest s'). Qed.
Print Assumptions C59_report_yaml_partial.

Example C59_example : exists s s', reachable (demo_machine listed) demo_env listed s /\ s_pc s = AtEvents [EvIn (e_status demo_env)] /\
  sstep demo_env s (CEvent (AAccept true)) = Some s' /\ s_hist s' = s_hist s ++ [EReport listed_report] /\
  (forall c, In c listed -> free_of line_feed (pc_name c) /\ free_of carriage_return (pc_name c)) /\
  (forall t, free_of line_feed (e_rfc3339 demo_env t) /\ free_of carriage_return (e_rfc3339 demo_env t)) /\
  (forall id, (id < length listed)%nat -> free_of carriage_return (v_status (view_of listed (s_hist s) id))).
Proof.
  destruct (demo_state listed listed_ops listed_history (AtEvents [EvIn 4])) as (s & D & H & P & R); [vm_compute; reflexivity|vm_compute; reflexivity|].
  destruct (demo_state listed (listed_ops ++ [CEvent (AAccept true)]) (listed_history ++ [EReport listed_report]) (AtEvents [])) as (s' & D' & H' & _); [vm_compute; reflexivity|vm_compute; reflexivity|].
  rewrite listed_configs in R. rewrite (demo_snoc _ _ _ _ D) in D'. exists s, s'. rewrite H', H. split; [exact R|]. split; [exact P|]. split; [exact D'|]. clear. split; [reflexivity|].
  split; [|split].
  - intros c [<-|[<-|[<-|[]]]]; split; vm_compute; intuition discriminate.
  - intros t. split; apply show_Z_free; vm_compute; intuition discriminate.
  - intros id Hid. cbn in Hid. destruct id as [|[|[|id]]]; [| | |lia]; vm_compute; intuition discriminate.
Qed.

(** A notify program sends a status with carriage returns: to a YAML reader there is
    another program. *)
Definition forged_status : string := ("up" +:+ String carriage_return ("  - name: 'ghost'" +:+ String carriage_return "    state: 'running'"))%string.
Definition forged_report : string :=
  ("programs:" +:+ nl +:+ "  - name: 'n'" +:+ nl +:+ "    state: 'running'" +:+ nl +:+ "    status: " +:+ forged_status +:+ nl +:+ "    pid: 10" +:+ nl)%string.
Theorem C59_carriage_return_refuted : exists k e configs s h ls, reachable k e configs s /\ s_hist s = h ++ [EReport forged_report] /\
  (forall c, In c configs -> free_of line_feed (pc_name c) /\ free_of carriage_return (pc_name c) /\ pc_name c <> "ghost") /\
  yaml_lines forged_report ls /\ In "  - name: 'ghost'" ls /\ In "    state: 'running'" ls.
Proof.
  set (ops := [CHead; CSpawnDep (fork 10 20 21)] ++ no_start ++ batch [msg ("READY=1" +:+ nl +:+ "STATUS=" +:+ forged_status) 10] [] ++ [CHead] ++ no_start ++ batch [status_query] []).
  set (h := [EStart 0 10; EOpen 20 0 true; EOpen 21 0 false; ENotify 0 10 [("STATUS", forged_status); ("READY", "1")]]).
  destruct (demo_state [task "n" Notify [] []] ops (h ++ [EReport forged_report]) AtHead) as (s & _ & H & _ & R); [vm_compute; reflexivity|vm_compute; reflexivity|].
  exists (demo_machine [task "n" Notify [] []]), demo_env, (demo_configs [task "n" Notify [] []]), s, h,
    ["programs:"; "  - name: 'n'"; "    state: 'running'"; "    status: up"; "  - name: 'ghost'"; "    state: 'running'"; "    pid: 10"; ""].
  split; [exact R|]. split; [exact H|]. clear. split; [|split; [|vm_compute; tauto]].
  - replace (demo_configs [task "n" Notify [] []]) with [task "n" Notify [] []] by (vm_compute; reflexivity).
    intros c [<-|[]]. repeat split; vm_compute; intuition discriminate.
  - replace forged_report with ("programs:" +:+ String line_feed ("  - name: 'n'" +:+ String line_feed ("    state: 'running'" +:+ String line_feed
      ("    status: up" +:+ String carriage_return ("  - name: 'ghost'" +:+ String carriage_return ("    state: 'running'" +:+ String line_feed ("    pid: 10" +:+ String line_feed ""))))))) by (vm_compute; reflexivity).
    repeat first [apply yl_lf; [vm_compute; intuition discriminate..|] | apply yl_cr; [vm_compute; intuition discriminate..|intros r; vm_compute; discriminate|]].
    apply yl_last; vm_compute; intuition discriminate.
Qed.
Print Assumptions C59_carriage_return_refuted.
