(** Properties C33 to C39: signals, reaping, life cycle and output, in all executions
    of the event loop. *)
From stdpp Require Import gmap strings.
From Coq Require Import Ascii ZArith List Bool Lia.
From Verif Require Import Base RStr CronModel ConfigModel ProcessModel EnvModel DepModel NotifyModel ManagerModel SysModel MainModel
  SpecDep SpecMain SpecText SpecRun RunInv RunHist RunThms RunFinal RunSteps RunSteps2 RunSteps3 RunSteps4 RunSteps5 RunExamples.
Import ListNotations.
Local Open Scope string_scope.
Local Open Scope list_scope.
Local Open Scope Z_scope.

(** * C33: termination signals *)
(** Missing from the full claim: notify programs that are starting or stopping (see
    [C33_starting_refuted]), and histories that are not calm. *)
Theorem C33_signal_forwarded_partial k e configs s s' sg rest : reachable k e configs s -> calm (s_hist s) ->
  s_pc s = AtEvents (EvIn (e_signal e) :: rest) -> sg <> SIGCHLD -> sstep e s (CEvent (ASignal (Some sg))) = Some s' ->
  exists l, s_hist s' = s_hist s ++ ESignal sg :: map (fun x => EKill x (forwarded sg)) l /\ List.NoDup l /\
    (forall x, In x l <-> exists id, alive (s_hist s) id x /\ responsive configs (s_hist s) id) /\ s_pc s' = AtEvents rest.
Proof. exact (fun R => signal_forwarded R s' sg rest). Qed.
Print Assumptions C33_signal_forwarded_partial.

(** In all histories: the signal goes to the programs whose state is running. *)
Theorem C33_running_signalled k e configs s s' sg rest : reachable k e configs s ->
  s_pc s = AtEvents (EvIn (e_signal e) :: rest) -> sg <> SIGCHLD -> sstep e s (CEvent (ASignal (Some sg))) = Some s' ->
  (s_hist s' = s_hist s ++ ESignal sg :: map (fun id => EKill (v_pid (view_of configs (s_hist s) id)) (forwarded sg)) (running_programs configs (s_hist s)) /\
   s_pc s' = AtEvents rest) \/ panicked s'.
Proof. exact (fun R => signal_running R s' sg rest). Qed.
Print Assumptions C33_running_signalled.

(** Nothing else makes cinit send signals. *)
Theorem C33_only_then k e configs s h1 x sg h2 : reachable k e configs s -> s_hist s = h1 ++ EKill x sg :: h2 ->
  exists h r l, h1 = h ++ r :: map (fun y => EKill y sg) l /\ reason r sg.
Proof. exact (kill_reason k e configs s h1 x sg h2). Qed.
Print Assumptions C33_only_then.

Theorem C33_crash_forwarded_partial k e configs s s' pid st id : reachable k e configs s -> calm (s_hist s) -> s_pc s = AtWait ->
  k_procs (s_k s) !! pid = Some (KZombie st) -> alive (s_hist s) id pid -> st <> XExit 0 -> (forall n, st <> XRealtime n) ->
  sstep e s (CWait (Some pid)) = Some s' ->
  exists l, s_hist s' = s_hist s ++ EReap pid st :: EEnd id pid (code_of st) :: map (fun x => EKill x SIGINT) l /\ List.NoDup l /\
    (forall x, In x l <-> x <> pid /\ exists j, alive (s_hist s) j x /\ responsive configs (s_hist s) j) /\ s_pc s' = AtWait.
Proof. exact (fun R => crash_forwarded R s' pid st id). Qed.
Print Assumptions C33_crash_forwarded_partial.

(** Two oneshots are running when SIGQUIT arrives and one of them crashes. *)
Definition two : list proc_config := [task "a" Oneshot [] []; task "b" Oneshot [] []].
Definition two_ops : list op := [CHead; CSpawnDep (fork 10 20 21); CSpawnDep (fork 11 22 23)] ++ no_start.
Definition two_history : list event := [EStart 1 10; EOpen 20 1 true; EOpen 21 1 false; EStart 0 11; EOpen 22 0 true; EOpen 23 0 false].
Lemma two_configs : demo_configs two = two.
Proof. vm_compute. reflexivity. Qed.
Example C33_example : exists s s' t t' st, reachable (demo_machine two) demo_env two s /\ calm (s_hist s) /\ s_pc s = AtEvents [EvIn (e_signal demo_env)] /\
  sstep demo_env s (CEvent (ASignal (Some SIGQUIT))) = Some s' /\ s_hist s' = s_hist s ++ [ESignal SIGQUIT; EKill 11 SIGQUIT; EKill 10 SIGQUIT] /\
  reachable (demo_machine two) demo_env two t /\ calm (s_hist t) /\ s_pc t = AtWait /\ k_procs (s_k t) !! 10 = Some (KZombie st) /\ st = XExit 3 /\
  sstep demo_env t (CWait (Some 10)) = Some t' /\ s_hist t' = s_hist t ++ [EReap 10 (XExit 3); EEnd 1 10 3; EKill 11 SIGINT].
Proof.
  destruct (demo_state two (two_ops ++ [CPoll (Some [EvIn 3])]) two_history (AtEvents [EvIn 3])) as (s & D & H & P & R); [vm_compute; reflexivity|vm_compute; reflexivity|].
  destruct (demo_state two ((two_ops ++ [CPoll (Some [EvIn 3])]) ++ [CEvent (ASignal (Some SIGQUIT))]) (two_history ++ [ESignal SIGQUIT; EKill 11 SIGQUIT; EKill 10 SIGQUIT]) (AtEvents []))
    as (s' & D' & H' & _ & _); [vm_compute; reflexivity|vm_compute; reflexivity|].
  set (ops := two_ops ++ [KExit 10 (XExit 3); CPoll (Some []); CEvent (ASignal None)]).
  destruct (demo_state two ops two_history AtWait) as (t & F & J & Q & V); [vm_compute; reflexivity|vm_compute; reflexivity|].
  destruct (demo_state two (ops ++ [CWait (Some 10)]) (two_history ++ [EReap 10 (XExit 3); EEnd 1 10 3; EKill 11 SIGINT]) AtWait)
    as (t' & F' & J' & _ & _); [vm_compute; reflexivity|vm_compute; reflexivity|].
  rewrite two_configs in R, V. exists s, s', t, t', (XExit 3). rewrite H', J', H, J. split; [exact R|]. split; [apply calm_check; vm_compute; reflexivity|].
  split; [exact P|]. split; [rewrite <- (demo_snoc _ _ _ _ D); exact D'|]. split; [reflexivity|]. split; [exact V|].
  split; [apply calm_check; vm_compute; reflexivity|]. split; [exact Q|]. split; [|split; [reflexivity|split; [rewrite <- (demo_snoc _ _ _ _ F); exact F'|reflexivity]]].
  assert (K : match demo two ops with Some t => k_procs (s_k t) !! 10 | None => None end = Some (KZombie (XExit 3))) by (vm_compute; reflexivity).
  rewrite F in K. exact K.
Qed.

(** A notify program that has not reported READY=1, or has reported STOPPING=1, gets no signal. *)
Definition lone : list proc_config := [task "n" Notify [] []].
Definition lone_ops : list op := [CHead; CSpawnDep (fork 10 20 21)] ++ no_start.
Definition lone_history : list event := [EStart 0 10; EOpen 20 0 true; EOpen 21 0 false].
Lemma lone_configs : demo_configs lone = lone.
Proof. vm_compute. reflexivity. Qed.
Theorem C33_starting_refuted : exists k e configs s s' rest, reachable k e configs s /\ calm (s_hist s) /\
  s_pc s = AtEvents (EvIn (e_signal e) :: rest) /\ sstep e s (CEvent (ASignal (Some SIGTERM))) = Some s' /\
  (exists id pid, alive (s_hist s) id pid) /\ s_hist s' = s_hist s ++ [ESignal SIGTERM].
Proof.
  destruct (demo_state lone (lone_ops ++ [CPoll (Some [EvIn 3])]) lone_history (AtEvents [EvIn 3])) as (s & D & H & P & R); [vm_compute; reflexivity|vm_compute; reflexivity|].
  destruct (demo_state lone ((lone_ops ++ [CPoll (Some [EvIn 3])]) ++ [CEvent (ASignal (Some SIGTERM))]) (lone_history ++ [ESignal SIGTERM]) (AtEvents []))
    as (s' & D' & H' & _ & _); [vm_compute; reflexivity|vm_compute; reflexivity|].
  exists (demo_machine lone), demo_env, (demo_configs lone), s, s', []. rewrite H', H. split; [exact R|]. split; [apply calm_check; vm_compute; reflexivity|].
  split; [exact P|]. split; [rewrite <- (demo_snoc _ _ _ _ D); exact D'|]. split; [|reflexivity]. exists 0%nat, 10. apply (alive_here _ [] 0 10 (skipn 1 lone_history)); reflexivity.
Qed.
Print Assumptions C33_starting_refuted.

Theorem C33_stopping_refuted : exists k e configs s s' rest, reachable k e configs s /\ calm (s_hist s) /\
  s_pc s = AtEvents (EvIn (e_signal e) :: rest) /\ sstep e s (CEvent (ASignal (Some SIGTERM))) = Some s' /\
  (exists id pid, alive (s_hist s) id pid /\ notified (s_hist s) id "READY" "1" /\ notified (s_hist s) id "STOPPING" "1") /\ s_hist s' = s_hist s ++ [ESignal SIGTERM].
Proof.
  set (ops := lone_ops ++ [CPoll (Some [EvIn 5; EvIn 3]); CEvent (AMessage (Some ("READY=1" +:+ nl +:+ "STOPPING=1", 10)))]).
  set (h := lone_history ++ [ENotify 0 10 [("STOPPING", "1"); ("READY", "1")]]).
  destruct (demo_state lone ops h (AtEvents [EvIn 3])) as (s & D & H & P & R); [vm_compute; reflexivity|vm_compute; reflexivity|].
  destruct (demo_state lone (ops ++ [CEvent (ASignal (Some SIGTERM))]) (h ++ [ESignal SIGTERM]) (AtEvents []))
    as (s' & D' & H' & _ & _); [vm_compute; reflexivity|vm_compute; reflexivity|].
  exists (demo_machine lone), demo_env, (demo_configs lone), s, s', []. rewrite H', H. split; [exact R|]. split; [apply calm_check; vm_compute; reflexivity|].
  split; [exact P|]. split; [rewrite <- (demo_snoc _ _ _ _ D); exact D'|]. split; [|reflexivity]. exists 0%nat, 10.
  split; [apply (alive_here _ [] 0 10 (skipn 1 h)); reflexivity|].
  split; exists 10, [("STOPPING", "1"); ("READY", "1")]; (split; [right; right; right; left; reflexivity|]); [right; left; reflexivity|left; reflexivity].
Qed.
Print Assumptions C33_stopping_refuted.

(** * C34: signals go to cinit's own children *)
(** Missing from the full claim: histories with a handover or with a program killed by
    a real-time signal (see the refutations). *)
Theorem C34_own_children_partial k e configs s h1 x sg h2 : reachable k e configs s -> s_hist s = h1 ++ EKill x sg :: h2 -> calm h1 ->
  exists id, alive h1 id x.
Proof. exact (fun R => kill_alive R h1 x sg h2). Qed.
Print Assumptions C34_own_children_partial.

Theorem C34_never_fails_partial k e configs s o s' : reachable k e configs s -> ~ panicked s -> calm (s_hist s) ->
  (exists sg, o = CEvent (ASignal sg)) \/ (exists pid, o = CWait pid) -> sstep e s o = Some s' -> ~ panicked s'.
Proof. exact (fun R => kill_safe R o s'). Qed.
Print Assumptions C34_never_fails_partial.

Example C34_example : exists s h1 h2, reachable (demo_machine timed_pair) demo_env timed_pair s /\ s_hist s = h1 ++ EKill 12 SIGINT :: h2 /\ calm h1.
Proof.
  destruct timed_state as (s & _ & H & _ & R). rewrite timed_configs in R. exists s, (firstn 22 timed_history), (skipn 23 timed_history).
  split; [auto|]. split; [rewrite H; reflexivity|apply calm_check; vm_compute; reflexivity].
Qed.

(** A running notify program reports MAINPID=-1: at shutdown every process in the
    container is signalled.  It reports its parent's number: cinit signals itself. *)
Definition hand_over (value : string) : list op :=
  lone_ops ++ batch [msg ("READY=1" +:+ nl +:+ "MAINPID=" +:+ value) 10] [] ++ [CHead] ++ no_start ++ [CPoll (Some [EvIn 3]); CEvent (ASignal (Some SIGTERM))].
Theorem C34_foreign_refuted : exists k e configs s h x, reachable k e configs s /\ s_hist s = h ++ [EKill x SIGINT] /\
  x = -1 /\ (forall id, ~ alive h id x).
Proof.
  set (h := lone_history ++ [ENotify 0 10 [("MAINPID", "-1"); ("READY", "1")]; ESignal SIGTERM]).
  destruct (demo_state lone (hand_over "-1") (h ++ [EKill (-1) SIGINT]) (AtEvents [])) as (s & _ & H & _ & R); [vm_compute; reflexivity|vm_compute; reflexivity|].
  exists (demo_machine lone), demo_env, (demo_configs lone), s, h, (-1). split; [exact R|]. split; [exact H|]. split; [reflexivity|].
  intros id (h1 & h2 & E & _). assert (K : In (EStart id (-1)) h) by (rewrite E; apply in_or_app; right; left; reflexivity). vm_compute in K. intuition discriminate.
Qed.
Print Assumptions C34_foreign_refuted.

Theorem C34_itself_refuted : exists k e configs s h, reachable k e configs s /\ s_hist s = h ++ [EKill 1 SIGINT] /\ k_procs (s_k s) !! 1 = Some KSelf.
Proof.
  set (h := lone_history ++ [ENotify 0 10 [("MAINPID", "1"); ("READY", "1")]; ESignal SIGTERM]).
  destruct (demo_state lone (hand_over "1") (h ++ [EKill 1 SIGINT]) (AtEvents [])) as (s & D & H & _ & R); [vm_compute; reflexivity|vm_compute; reflexivity|].
  exists (demo_machine lone), demo_env, (demo_configs lone), s, h. split; [exact R|]. split; [exact H|].
  assert (K : match demo lone (hand_over "1") with Some t => k_procs (s_k t) !! 1 | None => None end = Some KSelf) by (vm_compute; reflexivity).
  rewrite D in K. exact K.
Qed.
Print Assumptions C34_itself_refuted.

(** It reports a number that does not exist: cinit crashes at shutdown. *)
Theorem C34_crash_refuted : exists k e configs s, reachable k e configs s /\ s_pc s = Panicked "Could not transmit signal to child".
Proof.
  destruct (demo_state lone (hand_over "4242") (lone_history ++ [ENotify 0 10 [("MAINPID", "4242"); ("READY", "1")]; ESignal SIGTERM])
    (Panicked "Could not transmit signal to child")) as (s & _ & _ & P & R); [vm_compute; reflexivity|vm_compute; reflexivity|].
  exists (demo_machine lone), demo_env, (demo_configs lone), s. split; [exact R|exact P].
Qed.
Print Assumptions C34_crash_refuted.

(** Without any handover: a program killed by a real-time signal is still taken for
    running; the next shutdown signal makes cinit crash. *)
Definition one : list proc_config := [task "a" Oneshot [] []].
Definition realtime_ops : list op :=
  lone_ops ++ [KExit 10 (XRealtime 34); CPoll (Some []); CEvent (ASignal None); CWait (Some 10); CHead] ++ no_start ++
  [CPoll (Some [EvIn 3]); CEvent (ASignal (Some SIGTERM))].
Theorem C34_realtime_refuted : exists k e configs s, reachable k e configs s /\ (forall ev, In ev (s_hist s) -> ~ handover ev) /\
  s_pc s = Panicked "Could not transmit signal to child".
Proof.
  destruct (demo_state one realtime_ops (lone_history ++ [EReap 10 (XRealtime 34); ELost 10; ESignal SIGTERM])
    (Panicked "Could not transmit signal to child")) as (s & _ & H & P & R); [vm_compute; reflexivity|vm_compute; reflexivity|].
  exists (demo_machine one), demo_env, (demo_configs one), s. split; [exact R|]. split; [|exact P].
  intros ev K Hd. rewrite H in K. cbn in K. repeat (destruct K as [<-|K]; [exact Hd|]). destruct K.
Qed.
Print Assumptions C34_realtime_refuted.

(** * C35: cinit exits after its children *)
(** Missing from the full claim: histories that are not calm (see [C35_refuted]). *)
Theorem C35_children_reaped_partial k e configs s h1 code h2 : reachable k e configs s -> s_hist s = h1 ++ EExit code :: h2 -> calm h1 ->
  forall id x, ~ alive h1 id x.
Proof. exact (fun R => nobody_left R h1 code h2). Qed.
Print Assumptions C35_children_reaped_partial.

(** In all histories: no program has a main process any more. *)
Theorem C35_no_main_process k e configs s h1 code h2 : reachable k e configs s -> s_hist s = h1 ++ EExit code :: h2 ->
  forall x, main_of configs h1 x = None.
Proof. exact (fun R => no_main_left R h1 code h2). Qed.
Print Assumptions C35_no_main_process.

Theorem C35_streams_drained k e configs s h1 code h2 : reachable k e configs s -> s_hist s = h1 ++ EExit code :: h2 ->
  forall h3 fd id o h4, h1 = h3 ++ EOpen fd id o :: h4 ->
  exists h5 h6, h4 = h5 ++ EClosed fd :: h6 /\ ~ In (EClosed fd) h5 /\ written fd h5 = fetched fd h5.
Proof. exact (fun R => streams_drained R h1 code h2). Qed.
Print Assumptions C35_streams_drained.

Example C35_example : exists s h1, reachable (demo_machine chain) demo_env chain s /\ s_hist s = h1 ++ [EExit 0] /\ calm h1 /\
  exists h3 h4, h1 = h3 ++ EOpen 20 0 true :: h4 /\ In (EWrote 20 ("one" +:+ nl +:+ nl +:+ "two")) h4.
Proof.
  destruct chain_state as (s & _ & H & _ & R). rewrite chain_configs in R. exists s, (firstn 31 chain_history).
  split; [auto|]. split; [rewrite H; reflexivity|]. split; [apply calm_check; vm_compute; reflexivity|].
  exists (firstn 1 chain_history), (firstn 29 (skipn 2 chain_history)). split; [reflexivity|vm_compute; intuition].
Qed.

(** A program hands over to process 77 and keeps running; when 77 ends cinit exits. *)
Definition leave_ops : list op :=
  lone_ops ++ batch [msg "MAINPID=77" 10] [] ++ [CHead] ++ no_start ++ [KAdopt 77; KExit 77 (XExit 0); KHangup 20; KHangup 21] ++
  batch [closed 20; closed 21; sig SIGCHLD] [77] ++ [CHead; CHead].
Definition leave_history : list event :=
  lone_history ++ [ENotify 0 10 [("MAINPID", "77")]; EClosed 20; EClosed 21; ESignal SIGCHLD; EReap 77 (XExit 0); EEnd 0 77 0; EExit 0].
Theorem C35_refuted : exists k e configs s h id x, reachable k e configs s /\ s_hist s = h ++ [EExit 0] /\ alive h id x.
Proof.
  destruct (demo_state lone leave_ops leave_history (Finished 0)) as (s & _ & H & _ & R); [vm_compute; reflexivity|vm_compute; reflexivity|].
  exists (demo_machine lone), demo_env, (demo_configs lone), s, (firstn 9 leave_history), 0%nat, 10.
  split; [exact R|]. split; [rewrite H; reflexivity|]. apply (alive_here _ [] 0 10 (skipn 1 (firstn 9 leave_history))); reflexivity.
Qed.
Print Assumptions C35_refuted.

(** * C36: reaping *)
(** Every round of the loop collects every child that had ended before: whatever cinit is
    doing, before it gets back to the head of the loop, unless it came across a child
    killed by a real-time signal (see [C36_round_refuted]). *)
Theorem C36_round_collects_partial k e configs s ops s' : reachable k e configs s -> s_pc s <> AtHead ->
  execute e s ops = Some s' -> s_pc s' = AtHead -> forall pid st, k_procs (s_k s) !! pid = Some (KZombie st) ->
  exists evs, s_hist s' = s_hist s ++ evs /\ (In (EReap pid st) evs \/ exists x, In (ELost x) evs).
Proof. exact (fun R => round_collects e (reachable_order k e configs s R) ops s s'). Qed.
Print Assumptions C36_round_collects_partial.

(** What collecting a child does, in every reachable state. *)
Theorem C36_reaping k e configs s pid st s' : reachable k e configs s -> s_pc s = AtWait -> k_procs (s_k s) !! pid = Some (KZombie st) ->
  sstep e s (CWait (Some pid)) = Some s' ->
  match st with
  | XRealtime _ => s_hist s' = s_hist s ++ [EReap pid st; ELost pid] /\ s_g s' = s_g s
  | _ =>
      match main_of configs (s_hist s) pid with
      | Some id => exists more, s_hist s' = s_hist s ++ EReap pid st :: EEnd id pid (code_of st) :: more /\
          (forall ev, In ev more -> exists x, ev = EKill x SIGINT) /\
          forall j, j <> id -> g_procs (s_g s') !! j = g_procs (s_g s) !! j
      | None => s_hist s' = s_hist s ++ [EReap pid st; EUnknown pid (code_of st)] /\ s_g s' = s_g s
      end
  end.
Proof. exact (fun R => reap_owner R pid st s'). Qed.
Print Assumptions C36_reaping.

Theorem C36_unknown_changes_nothing_partial k e configs s s' pid : reachable k e configs s -> calm (s_hist s) -> s_pc s = AtWait -> (forall id, ~ alive (s_hist s) id pid) ->
  sstep e s (CWait (Some pid)) = Some s' ->
  s_g s' = s_g s /\ exists st ev, s_hist s' = s_hist s ++ [EReap pid st; ev] /\ (ev = EUnknown pid (code_of st) \/ ev = ELost pid).
Proof. exact (fun R => unknown_nothing R s' pid). Qed.
Print Assumptions C36_unknown_changes_nothing_partial.

Theorem C36_end_noticed_partial k e configs s h1 pid st h2 id : reachable k e configs s -> s_hist s = h1 ++ EReap pid st :: h2 -> (forall n, st <> XRealtime n) ->
  calm h1 -> alive h1 id pid -> exists h3, h2 = EEnd id pid (code_of st) :: h3.
Proof. exact (fun R => end_noticed R h1 pid st h2 id). Qed.
Print Assumptions C36_end_noticed_partial.

(** Two programs and an adopted orphan end before the same round. *)
Example C36_example : exists s s' ops, reachable (demo_machine chain) demo_env chain s /\ s_pc s = AtWait /\
  execute demo_env s ops = Some s' /\ s_pc s' = AtHead /\
  s_hist s' = s_hist s ++ [EReap 77 (XExit 3); EUnknown 77 3; EReap 12 (XExit 0); EEnd 2 12 0; EReap 11 (XExit 0); EEnd 1 11 0].
Proof.
  set (n := (length chain_ops - 6)%nat).
  destruct (demo_state chain (firstn n chain_ops) (firstn 25 chain_history) AtWait) as (s & D & H & P & R); [vm_compute; reflexivity|vm_compute; reflexivity|].
  assert (D1 : exists s1, demo chain (firstn n chain_ops ++ [CWait (Some 77)]) = Some s1 /\ sstep demo_env s (CWait (Some 77)) = Some s1).
  { destruct (demo_state chain (firstn n chain_ops ++ [CWait (Some 77)]) (firstn 27 chain_history) AtWait) as (s1 & D1 & _); [vm_compute; reflexivity|vm_compute; reflexivity|].
    exists s1. split; [exact D1|]. rewrite <- (demo_snoc _ _ _ _ D). exact D1. }
  destruct D1 as (s1 & D1 & E1).
  assert (D2 : exists s2, demo chain ((firstn n chain_ops ++ [CWait (Some 77)]) ++ [CWait (Some 12)]) = Some s2 /\ sstep demo_env s1 (CWait (Some 12)) = Some s2).
  { destruct (demo_state chain ((firstn n chain_ops ++ [CWait (Some 77)]) ++ [CWait (Some 12)]) (firstn 29 chain_history) AtWait) as (s2 & D2 & _); [vm_compute; reflexivity|vm_compute; reflexivity|].
    exists s2. split; [exact D2|]. rewrite <- (demo_snoc _ _ _ _ D1). exact D2. }
  destruct D2 as (s2 & D2 & E2).
  assert (D3 : exists s3, demo chain (((firstn n chain_ops ++ [CWait (Some 77)]) ++ [CWait (Some 12)]) ++ [CWait (Some 11)]) = Some s3 /\ sstep demo_env s2 (CWait (Some 11)) = Some s3).
  { destruct (demo_state chain (((firstn n chain_ops ++ [CWait (Some 77)]) ++ [CWait (Some 12)]) ++ [CWait (Some 11)]) (firstn 31 chain_history) AtWait) as (s3 & D3 & _); [vm_compute; reflexivity|vm_compute; reflexivity|].
    exists s3. split; [exact D3|]. rewrite <- (demo_snoc _ _ _ _ D2). exact D3. }
  destruct D3 as (s3 & D3 & E3).
  destruct (demo_state chain ((((firstn n chain_ops ++ [CWait (Some 77)]) ++ [CWait (Some 12)]) ++ [CWait (Some 11)]) ++ [CWait None]) (firstn 31 chain_history) AtHead)
    as (s4 & D4 & H4 & P4 & _); [vm_compute; reflexivity|vm_compute; reflexivity|].
  assert (E4 : sstep demo_env s3 (CWait None) = Some s4) by (rewrite <- (demo_snoc _ _ _ _ D3); exact D4).
  rewrite chain_configs in R. exists s, s4, [CWait (Some 77); CWait (Some 12); CWait (Some 11); CWait None].
  split; [exact R|]. split; [exact P|].
  split; [cbn [execute]; rewrite E1, E2, E3, E4; reflexivity|]. split; [exact P4|]. rewrite H4, H. reflexivity.
Qed.

(** The first child reported was killed by a real-time signal: cinit does not notice the
    end of that program and leaves the other one for later. *)
Definition missed_ops : list op := two_ops ++ [KExit 10 (XRealtime 34); KExit 11 (XExit 0); CPoll (Some []); CEvent (ASignal None); CWait (Some 10)].
Theorem C36_round_refuted : exists k e configs s h, reachable k e configs s /\ s_pc s = AtHead /\ k_procs (s_k s) !! 11 = Some (KZombie (XExit 0)) /\
  s_hist s = h ++ [EReap 10 (XRealtime 34); ELost 10] /\ alive h 1 10 /\ (exists p, g_procs (s_g s) !! 1%nat = Some p /\ p_state p = Running).
Proof.
  destruct (demo_state two missed_ops (two_history ++ [EReap 10 (XRealtime 34); ELost 10]) AtHead) as (s & D & H & P & R); [vm_compute; reflexivity|vm_compute; reflexivity|].
  exists (demo_machine two), demo_env, (demo_configs two), s, two_history. split; [exact R|]. split; [exact P|].
  assert (K : match demo two missed_ops with Some t => k_procs (s_k t) !! 11 | None => None end = Some (KZombie (XExit 0))) by (vm_compute; reflexivity).
  assert (J : match demo two missed_ops with Some t => match g_procs (s_g t) !! 1%nat with Some p => Some (p_state p) | None => None end | None => None end = Some Running) by (vm_compute; reflexivity).
  rewrite D in K, J. split; [exact K|]. split; [exact H|]. split; [apply (alive_here _ [] 1 10 (skipn 1 two_history)); reflexivity|].
  destruct (g_procs (s_g s) !! 1%nat) as [p|]; [|discriminate]. exists p. split; [reflexivity|]. inversion J; reflexivity.
Qed.
Print Assumptions C36_round_refuted.

(** * C37: life cycle *)
Theorem C37_life_cycle k e configs s o s' : reachable k e configs s -> ~ panicked s -> sstep e s o = Some s' ->
  exists evs, s_hist s' = s_hist s ++ evs /\ forall id c p, nth_error configs id = Some c -> g_procs (s_g s) !! id = Some p ->
    exists p', g_procs (s_g s') !! id = Some p' /\ (p_state p' = p_state p \/ life id evs (pc_type c) (p_state p) (p_state p')).
Proof. exact (fun R => state_step R o s'). Qed.
Print Assumptions C37_life_cycle.

Theorem C37_final k e configs s ops s' id p : reachable k e configs s -> execute e s ops = Some s' -> g_procs (s_g s) !! id = Some p ->
  (p_state p = Done \/ exists rc, p_state p = Crashed rc) -> exists p', g_procs (s_g s') !! id = Some p' /\ p_state p' = p_state p.
Proof. exact (final_state k e configs s ops s' id p). Qed.
Print Assumptions C37_final.

(** The state is the one that follows from the effects (and the one that is
    reported, see C45). *)
Theorem C37_state_from_effects k e configs s id p : reachable k e configs s -> ~ panicked s -> g_procs (s_g s) !! id = Some p ->
  v_state (view_of configs (s_hist s) id) = p_state p.
Proof. exact (fun R => state_known R id p). Qed.
Print Assumptions C37_state_from_effects.

Example C37_example : exists s p q, reachable (demo_machine chain) demo_env chain s /\ ~ panicked s /\
  g_procs (s_g s) !! 0%nat = Some p /\ p_state p = Done /\ g_procs (s_g s) !! 1%nat = Some q /\ p_state q = Starting /\
  life 1 [ENotify 1 11 [("STATUS", "up"); ("READY", "1")]] Notify Starting Running.
Proof.
  set (n := 27%nat).
  destruct (demo_state chain (firstn n chain_ops) (firstn 15 chain_history) (AtEvents [EvIn 5])) as (s & D & H & P & R); [vm_compute; reflexivity|vm_compute; reflexivity|].
  assert (J : match demo chain (firstn n chain_ops) with Some t => map p_state (g_procs (s_g t)) | None => [] end = [Done; Starting; Blocked]) by (vm_compute; reflexivity).
  rewrite D in J. clear D H. rewrite chain_configs in R. destruct (g_procs (s_g s)) as [|p [|q l]] eqn:E; try (cbn in J; congruence). cbn in J. injection J as J1 J2 _.
  exists s, p, q. rewrite E. split; [exact R|]. split; [unfold panicked; rewrite P; intros []|]. split; [reflexivity|]. split; [assumption|].
  split; [reflexivity|]. split; [assumption|]. apply (li_ready 1 _ 11 [("STATUS", "up"); ("READY", "1")]); [left; reflexivity|right; left; reflexivity].
Qed.

(** * C38: output *)
Theorem C38_output_logged k e configs s : reachable k e configs s -> logged configs nobody (s_hist s).
Proof. exact (fun R => pa_logs _ _ (past_of R)). Qed.
Print Assumptions C38_output_logged.

Theorem C38_output_in_order k e configs s h1 fd id out h2 : reachable k e configs s -> ~ panicked s ->
  s_hist s = h1 ++ EOpen fd id out :: h2 -> ~ In (EClosed fd) h2 -> exists rest, written fd h2 = fetched fd h2 +:+ rest.
Proof. exact (fun R => output_kept R h1 fd id out h2). Qed.
Print Assumptions C38_output_in_order.

Example C38_example : exists s h1 h2, reachable (demo_machine chain) demo_env chain s /\ ~ panicked s /\
  s_hist s = h1 ++ EOpen 20 0 true :: h2 /\ ~ In (EClosed 20) h2 /\
  In (EChunk 20 ("one" +:+ nl +:+ nl +:+ "two")) h2 /\ List.filter (fun ev => match ev with ELog _ _ _ => true | _ => false end) h2 = [ELog true "a" "one"; ELog true "a" "two"].
Proof.
  destruct (demo_state chain (firstn 7 chain_ops) (firstn 7 chain_history) (AtEvents [])) as (s & D & H & P & R); [vm_compute; reflexivity|vm_compute; reflexivity|].
  rewrite chain_configs in R. exists s, (firstn 1 chain_history), (firstn 5 (skipn 2 chain_history)).
  split; [exact R|]. split; [unfold panicked; rewrite P; intros []|]. split; [exact H|]. split; [intros K; vm_compute in K; intuition discriminate|].
  split; [vm_compute; intuition|reflexivity].
Qed.

(** * C39: event dispatch *)
Theorem C39_dispatch k e configs s ev rest a s' : reachable k e configs s -> s_pc s = AtEvents (ev :: rest) -> is_fixed e (ev_fd ev) = false ->
  sstep e s (CEvent a) = Some s' ->
  match ev with
  | EvIn fd => exists id out c, opened (s_hist s) fd id out /\ nth_error configs id = Some c /\ s_g s' = s_g s /\
      (s_hist s' = s_hist s \/ exists data ls, s_hist s' = s_hist s ++ EChunk fd data :: map (ELog out (pc_name c)) ls)
  | EvHup fd => (exists id out, opened (s_hist s) fd id out) /\ s_hist s' = s_hist s ++ [EClosed fd] /\ g_procs (s_g s') = g_procs (s_g s) /\
      forall fd' id' out', fd' <> fd -> opened (s_hist s) fd' id' out' -> opened (s_hist s') fd' id' out'
  | EvOther _ => s_g s' = s_g s /\ s_hist s' = s_hist s
  end /\ s_pc s' = AtEvents rest.
Proof. exact (fun R => stream_event R ev rest a s'). Qed.
Print Assumptions C39_dispatch.

Theorem C39_one_owner k e configs s fd id out id' out' : reachable k e configs s -> ~ panicked s ->
  opened (s_hist s) fd id out -> opened (s_hist s) fd id' out' -> id' = id /\ out' = out.
Proof. exact (fun R => opened_fun R fd id out id' out'). Qed.
Print Assumptions C39_one_owner.

(** Descriptor 20 belonged to "a" and, after it was closed, belongs to "b". *)
Example C39_example : exists s h, reachable (demo_machine chain) demo_env chain s /\ s_pc s = AtEvents [EvHup 20; EvHup 21; EvHup 22; EvHup 23; EvIn 3] /\
  is_fixed demo_env 20 = false /\ s_hist s = EStart 0 10 :: EOpen 20 0 true :: h /\ opened (s_hist s) 20 1 true.
Proof.
  set (n := (length chain_ops - 12)%nat).
  destruct (demo_state chain (firstn n chain_ops) (firstn 20 chain_history) (AtEvents [EvHup 20; EvHup 21; EvHup 22; EvHup 23; EvIn 3])) as (s & D & H & P & R); [vm_compute; reflexivity|vm_compute; reflexivity|].
  rewrite chain_configs in R. exists s, (skipn 2 (firstn 20 chain_history)). rewrite H. split; [exact R|]. split; [exact P|]. split; [reflexivity|]. split; [reflexivity|].
  exists (firstn 13 chain_history), (firstn 6 (skipn 14 chain_history)). split; [reflexivity|]. intros K. vm_compute in K. intuition discriminate.
Qed.
