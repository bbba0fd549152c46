(** Properties C40 to C46: notifications and status reports, in all executions of the
    event loop. *)
From stdpp Require Import gmap strings.
From Coq Require Import Ascii ZArith List Bool Lia Permutation.
From Verif Require Import Base RStr CronModel ConfigModel ProcessModel EnvModel DepModel NotifyModel ManagerModel SysModel MainModel
  SpecDep SpecMain SpecStr SpecText SpecRun NotifyProofs RunInv RunHist RunThms RunFinal RunSteps RunSteps2 RunSteps3 RunSteps4 RunSteps5 RunReport RunOrder RunExamples.
Import ListNotations.
Local Open Scope string_scope.
Local Open Scope list_scope.
Local Open Scope Z_scope.

(** A oneshot and a notify program, both running. *)
Definition mixed : list proc_config := [task "a" Oneshot [] []; task "n" Notify [] []].
Definition mixed_ops : list op := [CHead; CSpawnDep (fork 10 20 21); CSpawnDep (fork 11 22 23)] ++ no_start.
Definition mixed_history : list event := [EStart 1 10; EOpen 20 1 true; EOpen 21 1 false; EStart 0 11; EOpen 22 0 true; EOpen 23 0 false].
Lemma mixed_configs : demo_configs mixed = mixed.
Proof. vm_compute. reflexivity. Qed.

(** * C40: who is listened to *)
(** Missing from the full claim: which processes count as main processes of the other
    programs (see [C40_refuted]). *)
Theorem C40_listens_partial k e configs s dg text sender rest s' : reachable k e configs s ->
  s_pc s = AtEvents (EvIn (e_notify e) :: rest) -> e_notify e <> e_signal e -> e_notify e <> e_status e ->
  readable dg text -> sstep e s (CEvent (AMessage (Some (dg, sender)))) = Some s' ->
  s_k s' = s_k s /\ s_pc s' = AtEvents rest /\ s_shut s' = s_shut s /\
  ((exists id vars, main_of configs (s_hist s) sender = Some id /\ kind configs id = Notify /\
      s_hist s' = s_hist s ++ [ENotify id sender vars] /\
      List.NoDup (map fst vars) /\ (forall key v, In (key, v) vars <-> sets text key v) /\
      (forall j, j <> id -> g_procs (s_g s') !! j = g_procs (s_g s) !! j) /\
      g_out (s_g s') = g_out (s_g s) /\ g_err (s_g s') = g_err (s_g s) /\ g_keep (s_g s') = g_keep (s_g s) /\
      g_cron (s_g s') = g_cron (s_g s) /\ g_exit (s_g s') = g_exit (s_g s) /\ g_epoll (s_g s') = g_epoll (s_g s) /\
      (~ sets text "READY" "1" -> g_dep (s_g s') = g_dep (s_g s))) \/
   ((forall id, main_of configs (s_hist s) sender = Some id -> kind configs id <> Notify) /\
    s_hist s' = s_hist s ++ [EIgnored sender] /\ s_g s' = s_g s)).
Proof. exact (fun R => message_heard R dg text sender rest s'). Qed.
Print Assumptions C40_listens_partial.

(** Main processes: only the sender and the process named in the message. *)
Theorem C40_main_processes k e configs s h1 id x vars h2 y : reachable k e configs s -> s_hist s = h1 ++ ENotify id x vars :: h2 ->
  y <> x -> new_pid vars <> Some y -> main_of configs (h1 ++ [ENotify id x vars]) y = main_of configs h1 y.
Proof. exact (fun R => main_elsewhere R h1 id x vars h2 y). Qed.
Print Assumptions C40_main_processes.

(** The notify program's message is heard, the same message from the oneshot and from a
    stranger is not. *)
Example C40_example : exists s s1 s2 s3, reachable (demo_machine mixed) demo_env mixed s /\ s_pc s = AtEvents [EvIn (e_notify demo_env)] /\ readable "READY=1" "READY=1" /\
  sstep demo_env s (CEvent (AMessage (Some ("READY=1", 10)))) = Some s1 /\ s_hist s1 = s_hist s ++ [ENotify 1 10 [("READY", "1")]] /\
  sstep demo_env s (CEvent (AMessage (Some ("READY=1", 11)))) = Some s2 /\ s_hist s2 = s_hist s ++ [EIgnored 11] /\
  sstep demo_env s (CEvent (AMessage (Some ("READY=1", 77)))) = Some s3 /\ s_hist s3 = s_hist s ++ [EIgnored 77].
Proof.
  set (ops := mixed_ops ++ [CPoll (Some [EvIn 5])]).
  destruct (demo_state mixed ops mixed_history (AtEvents [EvIn 5])) as (s & D & H & P & R); [vm_compute; reflexivity|vm_compute; reflexivity|].
  destruct (demo_state mixed (ops ++ [CEvent (AMessage (Some ("READY=1", 10)))]) (mixed_history ++ [ENotify 1 10 [("READY", "1")]]) (AtEvents [])) as (s1 & D1 & H1 & _); [vm_compute; reflexivity|vm_compute; reflexivity|].
  destruct (demo_state mixed (ops ++ [CEvent (AMessage (Some ("READY=1", 11)))]) (mixed_history ++ [EIgnored 11]) (AtEvents [])) as (s2 & D2 & H2 & _); [vm_compute; reflexivity|vm_compute; reflexivity|].
  destruct (demo_state mixed (ops ++ [CEvent (AMessage (Some ("READY=1", 77)))]) (mixed_history ++ [EIgnored 77]) (AtEvents [])) as (s3 & D3 & H3 & _); [vm_compute; reflexivity|vm_compute; reflexivity|].
  rewrite mixed_configs in R. exists s, s1, s2, s3. rewrite H1, H2, H3, H. rewrite (demo_snoc _ _ _ _ D) in D1. rewrite (demo_snoc _ _ _ _ D) in D2. rewrite (demo_snoc _ _ _ _ D) in D3.
  split; [exact R|]. split; [exact P|]. split; [apply read_text_spec; reflexivity|].
  split; [exact D1|]. split; [reflexivity|]. split; [exact D2|]. split; [reflexivity|]. split; [exact D3|reflexivity].
Qed.

(** A notify program names the main process of another program, which thereby loses it. *)
Definition theft_history : list event := mixed_history ++ [ENotify 1 10 [("MAINPID", "11")]].
Definition theft_ops : list op := mixed_ops ++ batch [msg "MAINPID=11" 10] [].
Theorem C40_refuted : exists k e configs s h id x vars j y, reachable k e configs s /\ s_hist s = h ++ [ENotify id x vars] /\ j <> id /\
  alive (s_hist s) j y /\ main_of configs h y = Some j /\ main_of configs (s_hist s) y = Some id /\ forall z, main_of configs (s_hist s) z <> Some j.
Proof.
  destruct (demo_state mixed theft_ops theft_history AtHead) as (s & D & H & P & R); [vm_compute; reflexivity|vm_compute; reflexivity|].
  rewrite mixed_configs in R. exists (demo_machine mixed), demo_env, mixed, s, mixed_history, 1%nat, 10, [("MAINPID", "11")], 0%nat, 11. rewrite H.
  split; [exact R|]. split; [reflexivity|]. split; [discriminate|]. split; [apply (alive_here _ (firstn 3 theft_history) 0 11 (skipn 4 theft_history)); reflexivity|].
  split; [reflexivity|]. split; [reflexivity|]. intros z Hz. vm_compute in Hz.
  repeat match type of Hz with context [match ?c with _ => _ end] => destruct c; try discriminate Hz end.
Qed.
Print Assumptions C40_refuted.

(** * C41: hash order *)
Theorem C41_order_irrelevant k e configs s order ops t : reachable k e configs s -> (forall l, Permutation (order l) l) ->
  execute e s ops = Some t -> exists t', execute (with_order e order) s ops = Some t' /\ similar t t'.
Proof. exact (order_irrelevant k e configs s order ops t). Qed.
Print Assumptions C41_order_irrelevant.

(** Reversing the variables of a message that sets three of them. *)
Example C41_example : exists s t t' text, reachable (demo_machine mixed) demo_env mixed s /\ text = "READY=1" +:+ nl +:+ "STATUS=up" +:+ nl +:+ "MAINPID=77" /\
  execute demo_env s [CEvent (AMessage (Some (text, 10)))] = Some t /\
  execute (with_order demo_env (@rev _)) s [CEvent (AMessage (Some (text, 10)))] = Some t' /\
  s_hist t = mixed_history ++ [ENotify 1 10 [("MAINPID", "77"); ("STATUS", "up"); ("READY", "1")]] /\
  s_hist t' = mixed_history ++ [ENotify 1 10 [("READY", "1"); ("STATUS", "up"); ("MAINPID", "77")]] /\ s_g t = s_g t'.
Proof.
  set (ops := mixed_ops ++ [CPoll (Some [EvIn 5])]). set (text := "READY=1" +:+ nl +:+ "STATUS=up" +:+ nl +:+ "MAINPID=77").
  destruct (demo_state mixed ops mixed_history (AtEvents [EvIn 5])) as (s & D & H & P & R); [vm_compute; reflexivity|vm_compute; reflexivity|].
  destruct (demo_state mixed (ops ++ [CEvent (AMessage (Some (text, 10)))]) (mixed_history ++ [ENotify 1 10 [("MAINPID", "77"); ("STATUS", "up"); ("READY", "1")]]) (AtEvents [])) as (t & D1 & H1 & _); [vm_compute; reflexivity|vm_compute; reflexivity|].
  rewrite mixed_configs in R. rewrite (demo_snoc _ _ _ _ D) in D1.
  assert (X : execute demo_env s [CEvent (AMessage (Some (text, 10)))] = Some t) by (cbn [execute]; rewrite D1; reflexivity).
  destruct (order_irrelevant _ _ _ _ (@rev _) _ _ R (fun l => Permutation_sym (Permutation_rev l)) X) as (t' & X' & S).
  exists s, t, t', text. split; [exact R|]. split; [reflexivity|]. split; [exact X|]. split; [exact X'|]. split; [exact H1|].
  split; [|apply S]. assert (K : match demo mixed ops with Some s => match execute (with_order demo_env (@rev _)) s [CEvent (AMessage (Some (text, 10)))] with Some t => s_hist t | None => [] end | None => [] end =
    mixed_history ++ [ENotify 1 10 [("READY", "1"); ("STATUS", "up"); ("MAINPID", "77")]]) by (vm_compute; reflexivity).
  rewrite D, X' in K. exact K.
Qed.

(** * C42: what a message says *)
Theorem C42_message_text k e configs s dg text sender id rest s' : reachable k e configs s ->
  s_pc s = AtEvents (EvIn (e_notify e) :: rest) -> e_notify e <> e_signal e -> e_notify e <> e_status e ->
  readable dg text -> main_of configs (s_hist s) sender = Some id -> kind configs id = Notify ->
  sstep e s (CEvent (AMessage (Some (dg, sender)))) = Some s' ->
  exists vars, s_hist s' = s_hist s ++ [ENotify id sender vars] /\ List.NoDup (map fst vars) /\
    (forall key v, In (key, v) vars <-> sets text key v) /\
    view_of configs (s_hist s') id = notified_view vars (view_of configs (s_hist s) id).
Proof. exact (fun R => message_says R dg text sender id rest s'). Qed.
Print Assumptions C42_message_text.

Theorem C42_main_pid vars n : List.NoDup (map fst vars) -> new_pid vars = Some n <-> exists v, In ("MAINPID", v) vars /\ int_text v n.
Proof. exact (new_pid_text vars n). Qed.
Print Assumptions C42_main_pid.

(** A message with an unknown key, a line without '=', a value containing '=', a
    repeated key and CR LF. *)
Definition odd_message : string :=
  "FOO=1" +:+ nl +:+ "STATUS=a" +:+ nl +:+ "READY" +:+ nl +:+ "STATUS=b=c" +:+ String "013" nl +:+ "READY=1" +:+ nl.
Example C42_example : readable odd_message odd_message /\ sets odd_message "STATUS" "b=c" /\ ~ sets odd_message "STATUS" "a" /\
  sets odd_message "READY" "1" /\ (forall v, ~ sets odd_message "FOO" v) /\ int_text "+77" 77.
Proof.
  split; [apply read_text_spec; reflexivity|]. rewrite <- !parse_spec. split; [vm_compute; intuition|]. split; [vm_compute; intuition discriminate|].
  split; [vm_compute; intuition|]. split; [intros v; rewrite <- parse_spec; vm_compute; intuition discriminate|]. apply parse_i32_spec. reflexivity.
Qed.

(** * C43: no datagram crashes cinit *)
(** Exactly which datagrams do. *)
Theorem C43_datagram_partial k e configs s dg sender rest s' : reachable k e configs s ->
  s_pc s = AtEvents (EvIn (e_notify e) :: rest) -> e_notify e <> e_signal e -> e_notify e <> e_status e ->
  sstep e s (CEvent (AMessage (Some (dg, sender)))) = Some s' ->
  ((exists text, readable dg text) -> s_pc s' = AtEvents rest) /\ ((forall text, ~ readable dg text) -> panicked s').
Proof. exact (fun R => datagram_outcome R dg sender rest s'). Qed.
Print Assumptions C43_datagram_partial.

Example C43_example : exists s, reachable (demo_machine mixed) demo_env mixed s /\ s_pc s = AtEvents [EvIn (e_notify demo_env)] /\
  readable (odd_message +:+ String "000" "STOPPING=1") odd_message.
Proof.
  destruct (demo_state mixed (mixed_ops ++ [CPoll (Some [EvIn 5])]) mixed_history (AtEvents [EvIn 5])) as (s & D & H & P & R); [vm_compute; reflexivity|vm_compute; reflexivity|].
  rewrite mixed_configs in R. exists s. split; [exact R|]. split; [exact P|]. apply read_text_spec. reflexivity.
Qed.

(** From a stranger: an empty datagram, one that is not UTF-8, one that fills the buffer. *)
Fixpoint blanks (n : nat) : string := match n with O => "" | S m => String " " (blanks m) end.
Theorem C43_refuted : exists k e configs s s1 s2 s3, reachable k e configs s /\ main_of configs (s_hist s) 77 = None /\
  sstep e s (CEvent (AMessage (Some ("", 77)))) = Some s1 /\ s_pc s1 = Panicked "called `Option::unwrap()` on a `None` value" /\
  sstep e s (CEvent (AMessage (Some (String "255" "", 77)))) = Some s2 /\ s_pc s2 = Panicked "Could not rescue cstring" /\
  sstep e s (CEvent (AMessage (Some (blanks (64 * 64), 77)))) = Some s3 /\ s_pc s3 = Panicked "undefined behaviour".
Proof.
  set (ops := mixed_ops ++ [CPoll (Some [EvIn 5])]).
  destruct (demo_state mixed ops mixed_history (AtEvents [EvIn 5])) as (s & D & H & P & R); [vm_compute; reflexivity|vm_compute; reflexivity|].
  destruct (demo_state mixed (ops ++ [CEvent (AMessage (Some ("", 77)))]) mixed_history (Panicked "called `Option::unwrap()` on a `None` value")) as (s1 & D1 & _ & P1 & _); [vm_compute; reflexivity|vm_compute; reflexivity|].
  destruct (demo_state mixed (ops ++ [CEvent (AMessage (Some (String "255" "", 77)))]) mixed_history (Panicked "Could not rescue cstring")) as (s2 & D2 & _ & P2 & _); [vm_compute; reflexivity|vm_compute; reflexivity|].
  destruct (demo_state mixed (ops ++ [CEvent (AMessage (Some (blanks (64 * 64), 77)))]) mixed_history (Panicked "undefined behaviour")) as (s3 & D3 & _ & P3 & _); [vm_compute; reflexivity|vm_compute; reflexivity|].
  rewrite (demo_snoc _ _ _ _ D) in D1. rewrite (demo_snoc _ _ _ _ D) in D2. rewrite (demo_snoc _ _ _ _ D) in D3. rewrite mixed_configs in R. exists (demo_machine mixed), demo_env, mixed, s, s1, s2, s3. rewrite H.
  split; [exact R|]. split; [reflexivity|]. split; [exact D1|]. split; [exact P1|]. split; [exact D2|]. split; [exact P2|]. split; [exact D3|exact P3].
Qed.
Print Assumptions C43_refuted.

(** * C44: handing over *)
Theorem C44_new_main k e configs s h1 id old vars n h2 : reachable k e configs s ->
  s_hist s = h1 ++ ENotify id old vars :: h2 -> new_pid vars = Some n ->
  (forall j, ~ In (EStart j n) h2) -> (forall rc, ~ In (EEnd id n rc) h2) ->
  (forall x vars, In (ENotify id x vars) h2 -> new_pid vars = None) ->
  (forall j x vars, In (ENotify j x vars) h2 -> new_pid vars <> Some n) ->
  main_of configs (s_hist s) n = Some id.
Proof. exact (fun R => handover_main R h1 id old vars n h2). Qed.
Print Assumptions C44_new_main.

Theorem C44_old_unknown k e configs s h1 id old vars n h2 : reachable k e configs s ->
  s_hist s = h1 ++ ENotify id old vars :: h2 -> new_pid vars = Some n -> n <> old ->
  (forall j, ~ In (EStart j old) h2) -> (forall j x vars, In (ENotify j x vars) h2 -> new_pid vars <> Some old) ->
  main_of configs (s_hist s) old = None.
Proof. exact (fun R => handover_old R h1 id old vars n h2). Qed.
Print Assumptions C44_old_unknown.

(** Whose end it is when a child is reaped; together with [C36_reaping]. *)
Theorem C44_ends k e configs s h1 id x rc h2 : reachable k e configs s -> s_hist s = h1 ++ EEnd id x rc :: h2 ->
  main_of configs h1 x = Some id /\ forall j, j <> id -> view_of configs (h1 ++ [EEnd id x rc]) j = view_of configs h1 j.
Proof. exact (fun R => end_of_main R h1 id x rc h2). Qed.
Print Assumptions C44_ends.

(** Program 0 hands over from 10 to 77, which is adopted; 10 ends with code 3, which
    does not matter, then 77 ends and completes the program. *)
Definition heir : list proc_config := [task "n" Notify [] []].
Definition heir_ops : list op :=
  [CHead; CSpawnDep (fork 10 20 21)] ++ no_start ++ batch [msg ("READY=1" +:+ nl +:+ "MAINPID=77") 10] [] ++
  [CHead] ++ no_start ++ [KAdopt 77; KExit 10 (XExit 3)] ++ batch [sig SIGCHLD] [10] ++
  [CHead] ++ no_start ++ [KExit 77 (XExit 0)] ++ batch [sig SIGCHLD] [77].
Definition heir_history : list event :=
  [EStart 0 10; EOpen 20 0 true; EOpen 21 0 false; ENotify 0 10 [("MAINPID", "77"); ("READY", "1")]; ESignal SIGCHLD; EReap 10 (XExit 3); EUnknown 10 3;
   ESignal SIGCHLD; EReap 77 (XExit 0); EEnd 0 77 0].
Lemma heir_configs : demo_configs heir = heir.
Proof. vm_compute. reflexivity. Qed.
Example C44_example : exists s h1 h2 h3 vars, reachable (demo_machine heir) demo_env heir s /\ new_pid vars = Some 77 /\
  s_hist s = h1 ++ ENotify 0 10 vars :: h2 ++ [EReap 10 (XExit 3); EUnknown 10 3] ++ h3 ++ [EReap 77 (XExit 0); EEnd 0 77 0].
Proof.
  destruct (demo_state heir heir_ops heir_history AtHead) as (s & D & H & P & R); [vm_compute; reflexivity|vm_compute; reflexivity|].
  rewrite heir_configs in R. exists s, (firstn 3 heir_history), [ESignal SIGCHLD], [ESignal SIGCHLD], [("MAINPID", "77"); ("READY", "1")].
  split; [exact R|]. split; [reflexivity|]. rewrite H. reflexivity.
Qed.

(** A handover to another program's main process affects that program: its end counts
    as the end of the first program, and it is taken for running forever. *)
Definition lost_end_ops : list op := theft_ops ++ [CHead] ++ no_start ++ [KExit 11 (XExit 0); KExit 10 (XExit 0); KHangup 20; KHangup 21; KHangup 22; KHangup 23] ++
  batch [closed 20; closed 21; closed 22; closed 23; sig SIGCHLD] [11; 10] ++ [CHead; CHead].
Definition lost_end_history : list event :=
  theft_history ++ [EClosed 20; EClosed 21; EClosed 22; EClosed 23; ESignal SIGCHLD; EReap 11 (XExit 0); EEnd 1 11 0; EReap 10 (XExit 0); EUnknown 10 0; EExit 0].
Theorem C44_refuted : exists k e configs s id pid, reachable k e configs s /\ s_pc s = Finished 0 /\
  In (EStart id pid) (s_hist s) /\ In (EReap pid (XExit 0)) (s_hist s) /\ (forall x rc, ~ In (EEnd id x rc) (s_hist s)) /\
  v_state (view_of configs (s_hist s) id) = Running.
Proof.
  destruct (demo_state mixed lost_end_ops lost_end_history (Finished 0)) as (s & D & H & P & R); [vm_compute; reflexivity|vm_compute; reflexivity|].
  rewrite mixed_configs in R. exists (demo_machine mixed), demo_env, mixed, s, 0%nat, 11. rewrite H.
  split; [exact R|]. split; [exact P|]. split; [vm_compute; intuition|]. split; [vm_compute; intuition|].
  split; [intros x rc K; vm_compute in K; intuition discriminate|reflexivity].
Qed.
Print Assumptions C44_refuted.

(** * C45: the status report *)
Theorem C45_report k e configs s rest s' : reachable k e configs s -> s_pc s = AtEvents (EvIn (e_status e) :: rest) -> e_status e <> e_signal e ->
  sstep e s (CEvent (AAccept true)) = Some s' ->
  exists next, (forall id, cronjob configs id -> cron_next (g_cron (s_g s)) id = Ret (next id)) /\
    s_hist s' = s_hist s ++ [EReport (unlines ("programs:" :: flat_map (entry configs (s_hist s) (fun id => e_rfc3339 e (next id))) (seq 0 (length configs))))] /\
    s_g s' = s_g s /\ s_k s' = s_k s /\ s_pc s' = AtEvents rest /\ s_shut s' = s_shut s.
Proof. exact (fun R => report_text R rest s'). Qed.
Print Assumptions C45_report.

(** A finished oneshot, a running notify program with a status, a cronjob. *)
Definition listed : list proc_config := [task "a" Oneshot [] []; task "n" Notify [] ["a"]; task "j" (CronJob "0 12 * * *") [] []].
Definition listed_ops : list op :=
  [CHead; CSpawnDep ForkFailed; CSpawnDep (fork 10 20 21)] ++ no_start ++ [KExit 10 (XExit 0)] ++ batch [sig SIGCHLD] [10] ++
  [CHead; CSpawnDep (fork 11 22 23)] ++ no_start ++ batch [msg ("READY=1" +:+ nl +:+ "STATUS=fine") 11] [] ++ [CHead] ++ no_start ++ [CPoll (Some [EvIn 4])].
Definition listed_history : list event :=
  [EStart 0 10; EOpen 20 0 true; EOpen 21 0 false; ESignal SIGCHLD; EReap 10 (XExit 0); EEnd 0 10 0; EStart 1 11; EOpen 22 1 true; EOpen 23 1 false;
   ENotify 1 11 [("STATUS", "fine"); ("READY", "1")]].
Lemma listed_configs : demo_configs listed = listed.
Proof. vm_compute. reflexivity. Qed.
Definition listed_report : string := unlines
  ["programs:"; "  - name: 'a'"; "    state: 'done'"; "    exit_code: 0"; "  - name: 'n'"; "    state: 'running'"; "    status: fine"; "    pid: 11";
   "  - name: 'j'"; "    state: 'sleeping'"; "    scheduled_at: '" +:+ show_Z (midnight + 12 * 3600 * NS) +:+ "'"].
Example C45_example : exists s s', reachable (demo_machine listed) demo_env listed s /\ s_pc s = AtEvents [EvIn (e_status demo_env)] /\
  sstep demo_env s (CEvent (AAccept true)) = Some s' /\ s_hist s' = s_hist s ++ [EReport listed_report].
Proof.
  destruct (demo_state listed listed_ops listed_history (AtEvents [EvIn 4])) as (s & D & H & P & R); [vm_compute; reflexivity|vm_compute; reflexivity|].
  destruct (demo_state listed (listed_ops ++ [CEvent (AAccept true)]) (listed_history ++ [EReport listed_report]) (AtEvents [])) as (s' & D' & H' & _); [vm_compute; reflexivity|vm_compute; reflexivity|].
  rewrite listed_configs in R. rewrite (demo_snoc _ _ _ _ D) in D'. exists s, s'. rewrite H', H. split; [exact R|]. split; [exact P|]. split; [exact D'|reflexivity].
Qed.

(** * C46: process numbers in the report *)
(** Missing from the full claim: a number that was given to another program since, and
    histories that are not calm (see the refutations).  In all histories the number of
    each main process is shown; in calm ones, those of the last starts that belong to a
    live process; without reuse of numbers, those of the live programs. *)
Theorem C46_pid_shown_partial k e configs s rest s' : reachable k e configs s -> s_pc s = AtEvents (EvIn (e_status e) :: rest) -> e_status e <> e_signal e ->
  sstep e s (CEvent (AAccept true)) = Some s' ->
  exists next pid, s_hist s' = s_hist s ++ [EReport (unlines ("programs:" :: flat_map (fun id => match nth_error configs id with
      | None => []
      | Some c => entry_lines (pc_name c) (view_of configs (s_hist s) id) (pid id) (match pc_type c with CronJob _ => Some (next id) | _ => None end)
      end) (seq 0 (length configs))))] /\
    (forall id x, main_of configs (s_hist s) x = Some id -> pid id = Some x) /\
    (calm (s_hist s) -> forall id x, pid id = Some x <-> last_start (s_hist s) id x /\ exists j, alive (s_hist s) j x) /\
    (calm (s_hist s) -> no_reuse (s_hist s) -> forall id x, pid id = Some x <-> alive (s_hist s) id x).
Proof. exact (fun R => reported_pids R rest s'). Qed.
Print Assumptions C46_pid_shown_partial.

(** One program is done, one runs, one was never started. *)
Example C46_example : exists s s', reachable (demo_machine listed) demo_env listed s /\ s_pc s = AtEvents [EvIn (e_status demo_env)] /\ e_status demo_env <> e_signal demo_env /\
  sstep demo_env s (CEvent (AAccept true)) = Some s' /\ s_hist s' = s_hist s ++ [EReport listed_report] /\ calm (s_hist s) /\ no_reuse (s_hist s) /\
  alive (s_hist s) 1 11 /\ (forall x, ~ alive (s_hist s) 0 x) /\ last_start (s_hist s) 0 10.
Proof.
  destruct (demo_state listed listed_ops listed_history (AtEvents [EvIn 4])) as (s & D & H & P & R); [vm_compute; reflexivity|vm_compute; reflexivity|].
  destruct (demo_state listed (listed_ops ++ [CEvent (AAccept true)]) (listed_history ++ [EReport listed_report]) (AtEvents [])) as (s' & D' & H' & _); [vm_compute; reflexivity|vm_compute; reflexivity|].
  rewrite listed_configs in R. rewrite (demo_snoc _ _ _ _ D) in D'. exists s, s'. rewrite H', H.
  split; [exact R|]. split; [exact P|]. split; [discriminate|]. split; [exact D'|]. clear. split; [reflexivity|]. split; [apply calm_check; vm_compute; reflexivity|].
  split; [intros id id' x K K'; vm_compute in K, K'; intuition congruence|].
  split; [exact (alive_here listed_history (take 6 listed_history) 1 11 (drop 7 listed_history) eq_refl eq_refl)|].
  split; [|exists [], (drop 1 listed_history); split; [reflexivity|intros y K; vm_compute in K; intuition discriminate]].
  intros x (h1 & h2 & E & N). destruct h1 as [|a [|b [|c [|d [|f [|g [|i [|j [|l [|m h1]]]]]]]]]]; inversion E; subst; [|destruct h1; discriminate]. apply (N (XExit 0)). vm_compute. intuition.
Qed.

(** The kernel gives the number of a finished program to the next one. *)
Definition reuse_pid : list proc_config := [task "a" Oneshot [] []; task "b" Oneshot [] ["a"]].
Definition reuse_ops : list op :=
  [CHead; CSpawnDep (fork 10 20 21)] ++ no_start ++ [KExit 10 (XExit 0)] ++ batch [sig SIGCHLD] [10] ++ [CHead; CSpawnDep (fork 10 22 23)] ++ no_start ++ batch [status_query] [].
Definition reuse_history : list event := [EStart 0 10; EOpen 20 0 true; EOpen 21 0 false; ESignal SIGCHLD; EReap 10 (XExit 0); EEnd 0 10 0; EStart 1 10; EOpen 22 1 true; EOpen 23 1 false].
Definition reuse_report : string := unlines
  ["programs:"; "  - name: 'a'"; "    state: 'done'"; "    exit_code: 0"; "    pid: 10"; "  - name: 'b'"; "    state: 'running'"; "    pid: 10"].
Theorem C46_reuse_refuted : exists k e configs s h, reachable k e configs s /\ calm h /\ s_hist s = h ++ [EReport reuse_report] /\ forall x, ~ alive h 0 x.
Proof.
  destruct (demo_state reuse_pid reuse_ops (reuse_history ++ [EReport reuse_report]) AtHead) as (s & D & H & P & R); [vm_compute; reflexivity|vm_compute; reflexivity|].
  exists (demo_machine reuse_pid), demo_env, (demo_configs reuse_pid), s, reuse_history. split; [exact R|]. split; [apply calm_check; vm_compute; reflexivity|]. split; [exact H|].
  intros x (h1 & h2 & E & N). destruct h1 as [|a [|b [|c [|d [|f [|g [|i [|j [|l h1]]]]]]]]]; inversion E; subst; [|destruct h1; discriminate]. apply (N (XExit 0)). vm_compute. intuition.
Qed.
Print Assumptions C46_reuse_refuted.

(** After MAINPID=0 every program that was never started is reported with pid 0. *)
Definition zero : list proc_config := [task "n" Notify [] []; task "b" Oneshot [] ["n"]].
Definition zero_ops : list op := [CHead; CSpawnDep (fork 10 20 21)] ++ no_start ++ batch [msg "MAINPID=0" 10] [] ++ [CHead] ++ no_start ++ batch [status_query] [].
Definition zero_history : list event := [EStart 0 10; EOpen 20 0 true; EOpen 21 0 false; ENotify 0 10 [("MAINPID", "0")]].
Definition zero_report : string := unlines
  ["programs:"; "  - name: 'n'"; "    state: 'starting'"; "    pid: 0"; "  - name: 'b'"; "    state: 'blocked'"; "    pid: 0"].
Theorem C46_zero_refuted : exists k e configs s h, reachable k e configs s /\ s_hist s = h ++ [EReport zero_report] /\ forall x, ~ In (EStart 1 x) h.
Proof.
  destruct (demo_state zero zero_ops (zero_history ++ [EReport zero_report]) AtHead) as (s & D & H & P & R); [vm_compute; reflexivity|vm_compute; reflexivity|].
  exists (demo_machine zero), demo_env, (demo_configs zero), s, zero_history. split; [exact R|]. split; [exact H|].
  intros x K. vm_compute in K. intuition discriminate.
Qed.
Print Assumptions C46_zero_refuted.
