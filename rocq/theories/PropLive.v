(** Properties C54 and C55: programs start as soon as they can, and cinit ends. *)
From stdpp Require Import gmap strings.
From Coq Require Import Ascii ZArith List Bool Lia.
From Verif Require Import Base RStr CronModel ConfigModel ProcessModel EnvModel DepModel NotifyModel ManagerModel SysModel MainModel
  SpecDep SpecMain SpecText SpecRun SpecLive RunInv RunThms RunFinal RunLive RunStop RunExamples PropRun2.
Import ListNotations.
Local Open Scope string_scope.
Local Open Scope list_scope.
Local Open Scope Z_scope.

(** * C54: no delay *)
(** Whenever cinit is about to wait for events and nothing has asked it to shut down,
    it has tried to start every program whose dependencies are completed. *)
Theorem C54_started_at_once k e configs s id : reachable k e configs s -> s_pc s = AtPoll ->
  (forall ev, In ev (s_hist s) -> ~ shutdown_trigger ev) ->
  startable configs (s_hist s) id -> attempted (s_hist s) id.
Proof. exact (prompt k e configs s id). Qed.
Print Assumptions C54_started_at_once.

(** What one attempt does: only a program whose dependencies are met and that was not
    started before, and it fails only if fork does. *)
Theorem C54_start_round k e configs s r s' : reachable k e configs s -> s_pc s = AtSpawnDep -> sstep e s (CSpawnDep r) = Some s' ->
  (s' = with_pc s AtSpawnCron /\ forall id, startable configs (s_hist s) id -> attempted (s_hist s) id) \/
  (s_pc s' = AtSpawnDep /\ exists id, (id < length configs)%nat /\ deps_met configs (s_hist s) id /\
     ((cronjob configs id /\ s_hist s' = s_hist s) \/
      (~ cronjob configs id /\ (forall pid, ~ In (EStart id pid) (s_hist s)) /\
       s_hist s' = s_hist s ++ match r with ForkFailed => [EStartFail id] | Forked pid out err _ _ => [EStart id pid; EOpen out id true; EOpen err id false] end))).
Proof. exact (dep_round k e configs s r s'). Qed.
Print Assumptions C54_start_round.

(** After "a" ended and before "b" is ready, "b" has been started and "c" has not. *)
Definition early_ops : list op :=
  [CHead; CSpawnDep (fork 10 20 21)] ++ no_start ++ [KExit 10 (XExit 0)] ++ batch [sig SIGCHLD] [10] ++
  [CHead; CSpawnDep (fork 11 22 23)] ++ no_start.
Definition early_history : list event :=
  [EStart 0 10; EOpen 20 0 true; EOpen 21 0 false; ESignal SIGCHLD; EReap 10 (XExit 0); EEnd 0 10 0; EStart 1 11; EOpen 22 1 true; EOpen 23 1 false].
Lemma chain_depends u : depends chain u 1 -> u = 0%nat.
Proof.
  intros D. destruct u as [|[|[|u]]]; auto; exfalso; destruct D as (cu & cv & Hu & Hv & D); cbn in Hu, Hv; try (destruct u; discriminate);
    injection Hv as <-; try (injection Hu as <-; cbn in D); repeat destruct D as [D|D]; try discriminate; try contradiction.
Qed.
Example C54_example : exists s, reachable (demo_machine chain) demo_env chain s /\ s_pc s = AtPoll /\
  (forall ev, In ev (s_hist s) -> ~ shutdown_trigger ev) /\ startable chain (s_hist s) 1 /\ attempted (s_hist s) 1 /\ ~ attempted (s_hist s) 2.
Proof.
  destruct (demo_state chain early_ops early_history AtPoll) as (s & D & H & P & R); [vm_compute; reflexivity|vm_compute; reflexivity|].
  rewrite chain_configs in R. clear D. exists s. split; [exact R|]. split; [exact P|].
  assert (N : forall ev, In ev (s_hist s) -> ~ shutdown_trigger ev).
  { rewrite H. cbn. intros ev K. repeat (destruct K as [<-|K]; [cbn; try exact (fun x => x); lia|]). destruct K. }
  split; [exact N|]. assert (St : startable chain (s_hist s) 1).
  { split; [cbn; lia|]. split; [intros (c & t & X & Y); cbn in X; injection X as <-; discriminate Y|].
    intros u Du. apply chain_depends in Du. subst u. left. exists 10. rewrite H. cbn. tauto. }
  split; [exact St|]. split; [exact (C54_started_at_once _ _ _ _ _ R P N St)|].
  rewrite H. intros [[pid K]|K]; cbn in K; repeat (destruct K as [K|K]; [discriminate K|]); exact K.
Qed.

(** The round right after "a" ended: fork fails for "b", and only for it. *)
Example C54_round_example : exists s s', reachable (demo_machine chain) demo_env chain s /\ s_pc s = AtSpawnDep /\
  sstep demo_env s (CSpawnDep ForkFailed) = Some s' /\ s_pc s' = AtSpawnDep /\ s_hist s' = s_hist s ++ [EStartFail 1].
Proof.
  destruct (demo_state chain ([CHead; CSpawnDep (fork 10 20 21)] ++ no_start ++ [KExit 10 (XExit 0)] ++ batch [sig SIGCHLD] [10] ++ [CHead])
    [EStart 0 10; EOpen 20 0 true; EOpen 21 0 false; ESignal SIGCHLD; EReap 10 (XExit 0); EEnd 0 10 0] AtSpawnDep)
    as (s & D & H & P & R); [vm_compute; reflexivity|vm_compute; reflexivity|].
  rewrite chain_configs in R. destruct (sstep demo_env s (CSpawnDep ForkFailed)) as [s'|] eqn:E.
  2:{ exfalso. revert E. clear - D. revert D. vm_compute. intros D. inversion D; subst. discriminate. }
  exists s, s'. split; [exact R|]. split; [exact P|]. split; [exact E|].
  revert D E. vm_compute. intros D. inversion D; subst. vm_compute. intros E. inversion E; subst. split; reflexivity.
Qed.

(** * C55: cinit ends *)
(** cinit never gets stuck: until it has ended, it can go on. *)
Theorem C55_never_stuck k e configs s : reachable k e configs s ->
  terminated s \/ exists o s', inner_step o /\ sstep e s o = Some s'.
Proof. exact (fun _ => not_stuck e s). Qed.
Print Assumptions C55_never_stuck.

(** After a reason to shut down, once the programs have ended and nobody writes to their
    streams any more, the number of further steps is bounded by what is left to read and
    by the children that are reaped, whatever else happens (signals, status requests,
    notifications, forks, orphans).  Missing from the full claim: histories with a handover
    or a program killed by a real-time signal (see [C55_handover_refuted] and [C55_hang_refuted]). *)
Theorem C55_ends_partial k e configs s ops s' h : reachable k e configs s -> ~ panicked s -> calm (s_hist s') ->
  (exists ev, In ev (s_hist s) /\ shutdown_trigger ev) ->
  (forall id pid, alive (s_hist s) id pid -> over s pid) ->
  (forall fd q, k_pipes (s_k s) !! fd = Some q -> abandoned s fd q) ->
  execute e s ops = Some s' -> attentive e s ops -> s_hist s' = s_hist s ++ h ->
  (effort ops <= 14 * (backlog (s_k s) + 4) + 15 * reaped h)%nat.
Proof. exact (ends_soon k e configs s ops s' h). Qed.
Print Assumptions C55_ends_partial.

(** The number of rounds of the loop: one for every byte left, every stream left, every
    child killed by a real-time signal, and three. *)
Theorem C55_rounds_partial k e configs s ops s' : reachable k e configs s -> ~ panicked s -> calm (s_hist s') ->
  (exists ev, In ev (s_hist s) /\ shutdown_trigger ev) ->
  (forall id pid, alive (s_hist s) id pid -> over s pid) ->
  (forall fd q, k_pipes (s_k s) !! fd = Some q -> abandoned s fd q) ->
  execute e s ops = Some s' -> attentive e s ops ->
  (rounds ops + lost (s_hist s) <= backlog (s_k s) + 3 + lost (s_hist s'))%nat.
Proof. exact (ends k e configs s ops s'). Qed.
Print Assumptions C55_rounds_partial.

(** The end of two programs after SIGTERM: nine bytes are left, one of the programs has
    not been reaped; the last steps of the execution meet the bound. *)
Definition closing_ops : list op :=
  lone_ops ++ [KWrite 20 "last words"] ++ batch [sig SIGTERM] [] ++ [CHead; CHead; KHangup 20; KHangup 21; KExit 10 (XSignal 9)].
Definition final_ops : list op :=
  batch [output 20 10; sig SIGCHLD] [10] ++ [CHead] ++ batch [closed 20; closed 21] [] ++ [CHead].
Definition closing_history : list event := lone_history ++ [EWrote 20 "last words"; ESignal SIGTERM; EKill 10 SIGINT].
Definition final_history : list event :=
  [EChunk 20 "last words"; ELog true "a" "last words"; ESignal SIGCHLD; EReap 10 (XSignal 9); EEnd 0 10 9; EClosed 20; EClosed 21; EExit 6].

(** Deciding the hypotheses about the kernel. *)
Definition over_check (s : sys) (pid : Z) : bool := match k_procs (s_k s) !! pid with Some (KZombie _) => true | _ => false end.
Definition abandoned_check (s : sys) : bool :=
  forallb (fun x => negb (pp_open (snd x)) && bool_decide (fst x ∈ g_epoll (s_g s))) (map_to_list (k_pipes (s_k s))).
Lemma over_check_spec s pid : over_check s pid = true -> over s pid.
Proof. unfold over_check, over. destruct (k_procs (s_k s) !! pid) as [[| | |st]|]; try discriminate. eauto. Qed.
Lemma abandoned_check_spec s : abandoned_check s = true -> forall fd q, k_pipes (s_k s) !! fd = Some q -> abandoned s fd q.
Proof.
  unfold abandoned_check, abandoned. rewrite forallb_forall. intros H fd q K. specialize (H (fd, q)). cbn in H.
  rewrite andb_true_iff, negb_true_iff, bool_decide_eq_true in H. apply H. apply elem_of_list_In, elem_of_map_to_list. exact K.
Qed.

Example C55_example : exists s s', reachable (demo_machine one) demo_env (demo_configs one) s /\ ~ panicked s /\ calm (s_hist s') /\
  (exists ev, In ev (s_hist s) /\ shutdown_trigger ev) /\ (forall id pid, alive (s_hist s) id pid -> over s pid) /\
  (forall fd q, k_pipes (s_k s) !! fd = Some q -> abandoned s fd q) /\ execute demo_env s final_ops = Some s' /\ attentive demo_env s final_ops /\
  s_hist s' = s_hist s ++ final_history /\ s_pc s' = Finished 6 /\ backlog (s_k s) = 12%nat /\ effort final_ops = 13%nat /\ rounds final_ops = 2%nat.
Proof.
  destruct (demo_state one closing_ops closing_history AtPoll) as (s & D & H & P & R); [vm_compute; reflexivity|vm_compute; reflexivity|].
  assert (Ck : match demo one closing_ops with
    | Some s => over_check s 10 && abandoned_check s && Nat.eqb (backlog (s_k s)) 12 | None => false end = true) by (vm_compute; reflexivity).
  assert (Ex : match demo one closing_ops with
    | Some s => match execute demo_env s final_ops with Some s' => Some (s_pc s', s_hist s') | None => None end | None => None end =
    Some (Finished 6, closing_history ++ final_history)) by (vm_compute; reflexivity).
  rewrite D in Ck, Ex. clear D. rewrite !andb_true_iff in Ck. destruct Ck as [[C1 C2] C3]. apply Nat.eqb_eq in C3.
  destruct (execute demo_env s final_ops) as [s'|] eqn:X; [|discriminate Ex].
  injection Ex as E1 E2. exists s, s'. rewrite E2, H.
  split; [exact R|]. split; [unfold panicked; rewrite P; exact (fun x => x)|]. split; [apply calm_check; vm_compute; reflexivity|].
  split; [exists (ESignal SIGTERM); split; [cbn; tauto|exact Logic.I]|].
  split.
  { intros id pid (h1 & h2 & E & _). apply over_check_spec. assert (K : In (EStart id pid) closing_history) by (rewrite E; apply in_or_app; right; left; reflexivity).
    cbn in K. repeat (destruct K as [K|K]; [try discriminate K; injection K as <- <-; exact C1|]). destruct K. }
  split; [exact (abandoned_check_spec _ C2)|]. split; [exact X|]. split; [|split; [reflexivity|split; [exact E1|split; [exact C3|split; reflexivity]]]].
  clear - X. unfold final_ops, batch in *. cbn [map app fst snd] in *. cbn [execute] in X.
  cbn [attentive].
  destruct (sstep demo_env s _) as [s1|] eqn:X1; [|discriminate X].
  split; [intros _; exists [EvIn 20; EvIn 3], (EvIn 20); split; [reflexivity|]; split; [left; reflexivity|reflexivity]|].
  destruct (sstep demo_env s1 _) as [s2|] eqn:X2; [|discriminate X]. split; [discriminate|].
  destruct (sstep demo_env s2 _) as [s3|] eqn:X3; [|discriminate X]. split; [exact Logic.I|].
  destruct (sstep demo_env s3 _) as [s4|] eqn:X4; [|discriminate X]. split; [exact Logic.I|].
  destruct (sstep demo_env s4 _) as [s5|] eqn:X5; [|discriminate X]. split; [exact Logic.I|].
  destruct (sstep demo_env s5 _) as [s6|] eqn:X6; [|discriminate X]. split; [exact Logic.I|].
  destruct (sstep demo_env s6 _) as [s7|] eqn:X7; [|discriminate X]. split; [exact Logic.I|].
  destruct (sstep demo_env s7 _) as [s8|] eqn:X8; [|discriminate X].
  split; [intros _; exists [EvHup 20; EvHup 21], (EvHup 20); split; [reflexivity|]; split; [left; reflexivity|reflexivity]|].
  destruct (sstep demo_env s8 _) as [s9|] eqn:X9; [|discriminate X]. split; [exact Logic.I|].
  destruct (sstep demo_env s9 _) as [s10|] eqn:X10; [|discriminate X]. split; [exact Logic.I|].
  destruct (sstep demo_env s10 _) as [s11|] eqn:X11; [|discriminate X]. split; [exact Logic.I|].
  destruct (sstep demo_env s11 _) as [s12|] eqn:X12; [|discriminate X]. split; [exact Logic.I|].
  destruct (sstep demo_env s12 _) as [s13|] eqn:X13; [|discriminate X]. split; exact Logic.I.
Qed.

(** Without handovers, cinit only exits after it has noticed the end of every process it
    started. *)
Theorem C55_exit_after_all_ends k e configs s h1 id pid h2 code : reachable k e configs s -> s_pc s = Finished code ->
  (forall ev, In ev (s_hist s) -> ~ handover ev) -> s_hist s = h1 ++ EStart id pid :: h2 -> exists id' rc, In (EEnd id' pid rc) h2.
Proof. exact (no_early_exit k e configs s h1 id pid h2 code). Qed.
Print Assumptions C55_exit_after_all_ends.

Example C55_exit_example : exists s h1 h2, reachable (demo_machine chain) demo_env (demo_configs chain) s /\ s_pc s = Finished 0 /\
  (forall ev, In ev (s_hist s) -> ~ handover ev) /\ s_hist s = h1 ++ EStart 1 11 :: h2 /\ In (EEnd 1 11 0) h2.
Proof.
  destruct chain_state as (s & _ & H & P & R). exists s, (firstn 12 chain_history), (skipn 13 chain_history).
  split; [exact R|]. split; [exact P|]. split; [|split; [exact H|cbn; tauto]].
  intros ev K. rewrite H in K. apply (proj1 (calm_check chain_history ltac:(vm_compute; reflexivity)) _ K).
Qed.

(** A program killed by a real-time signal after SIGTERM: cinit loops forever, although
    the program has ended and been reaped and its streams are closed. *)
Definition stuck_ops : list op :=
  lone_ops ++ batch [sig SIGTERM] [] ++ [CHead; CHead; KHangup 20; KHangup 21; KExit 10 (XRealtime 34)] ++
  [CPoll (Some [EvHup 20; EvHup 21]); CEvent (ASignal None); CEvent (ASignal None); CEvent (ASignal None); CWait (Some 10)].
Definition stuck_history : list event :=
  lone_history ++ [ESignal SIGTERM; EKill 10 SIGINT; EClosed 20; EClosed 21; EReap 10 (XRealtime 34); ELost 10].
Definition turn : list op := [CHead; CPoll (Some []); CEvent (ASignal None); CWait None].
Fixpoint turns (n : nat) : list op := match n with O => [] | S m => turn ++ turns m end.

Definition circles (s : sys) : Prop :=
  s_pc s = AtHead /\ s_shut s = true /\ has_running_processes (s_g s) = true /\ k_pipes (s_k s) = ∅ /\
  forallb (fun x => match snd x with KZombie _ => false | _ => true end) (map_to_list (k_procs (s_k s))) = true.
Lemma circles_on e s n : circles s -> execute e s (turns n) = Some s /\ attentive e s (turns n).
Proof.
  intros (P & Sh & HR & K & Z). destruct s as [g k p sh h]. cbn in P, Sh, HR, K, Z. subst p sh.
  induction n as [|n [IH1 IH2]]; [split; [reflexivity|exact Logic.I]|]. cbn [turns turn app execute attentive sstep s_pc step_head s_shut s_g s_k with_pc] in *.
  rewrite HR. cbn [sstep s_pc with_pc length map List.map forallb Nat.leb andb s_k s_g s_shut s_hist].
  rewrite (bool_decide_eq_true_2 (base.NoDup (map ev_fd []))) by (constructor). cbn [sstep s_pc with_pc s_k s_g s_shut s_hist andb forallb].
  rewrite Z. cbn [with_pc s_k s_g s_shut s_hist]. split; [exact IH1|].
  split; [exact Logic.I|]. split; [|split; [exact Logic.I|split; [exact Logic.I|exact IH2]]].
  intros (ev & O & Rd). exfalso. destruct ev as [fd|fd|fd]; cbn in O; cbn in Rd.
  - rewrite O, K, lookup_empty, andb_false_r in Rd. discriminate Rd.
  - rewrite K, lookup_empty, andb_false_r in Rd. discriminate Rd.
  - destruct O.
Qed.

Theorem C55_hang_refuted : exists k e configs s, reachable k e configs s /\ ~ panicked s /\
  (exists ev, In ev (s_hist s) /\ shutdown_trigger ev) /\ (forall id pid, ~ alive (s_hist s) id pid) /\ k_pipes (s_k s) = ∅ /\
  (forall ev, In ev (s_hist s) -> ~ handover ev) /\
  forall n, exists ops, execute e s ops = Some s /\ attentive e s ops /\ (n <= rounds ops)%nat.
Proof.
  destruct (demo_state one stuck_ops stuck_history AtHead) as (s & D & H & P & R); [vm_compute; reflexivity|vm_compute; reflexivity|].
  assert (C : match demo one stuck_ops with
    | Some s => s_shut s && has_running_processes (s_g s) && bool_decide (k_pipes (s_k s) = ∅) &&
        forallb (fun x => match snd x with KZombie _ => false | _ => true end) (map_to_list (k_procs (s_k s))) | None => false end = true) by (vm_compute; reflexivity).
  rewrite D in C. clear D. rewrite !andb_true_iff in C. destruct C as [[[C1 C2] C3] C4]. apply bool_decide_eq_true in C3.
  exists (demo_machine one), demo_env, (demo_configs one), s. split; [exact R|]. split; [unfold panicked; rewrite P; exact (fun x => x)|].
  split; [exists (ESignal SIGTERM); rewrite H; split; [cbn; tauto|exact Logic.I]|].
  split.
  { intros id pid (h1 & h2 & E & NR). assert (K : In (EStart id pid) stuck_history) by (rewrite <- H, E; apply in_or_app; right; left; reflexivity).
    cbn in K. repeat (destruct K as [K|K]; [try discriminate K|]); [|destruct K]. injection K as <- <-.
    assert (K : In (EReap 10 (XRealtime 34)) (h1 ++ EStart 0 10 :: h2)) by (rewrite <- E, H; cbn; tauto).
    apply in_app_or in K. destruct K as [K|[K|K]]; [|discriminate K|exact (NR _ K)].
    rewrite H in E. destruct h1 as [|ev h1]; [destruct K|]. cbn in E. injection E as <- E.
    assert (Y : In (EStart 0 10) (h1 ++ EStart 0 10 :: h2)) by (apply in_or_app; right; left; reflexivity).
    rewrite <- E in Y. cbn in Y. repeat (destruct Y as [Y|Y]; [discriminate Y|]). exact Y. }
  split; [exact C3|]. split; [intros ev K Hd; rewrite H in K; cbn in K; repeat (destruct K as [<-|K]; [exact Hd|]); exact K|].
  intros n. exists (turns n). destruct (circles_on demo_env s n) as [A B]; [exact (conj P (conj C1 (conj C2 (conj C3 C4))))|].
  split; [exact A|]. split; [exact B|]. clear. induction n as [|n IH]; [apply Nat.le_0_l|]. unfold rounds in *. cbn. apply le_n_S. exact IH.
Qed.
Print Assumptions C55_hang_refuted.

(** A program declares process 88 to be its own, which does not exist, and ends. *)
Definition nobody_ops : list op :=
  lone_ops ++ batch [msg "MAINPID=88" 10] [] ++ [CHead] ++ no_start ++ batch [sig SIGTERM] [] ++ [CHead; CHead; KHangup 20; KHangup 21; KExit 10 (XExit 0)] ++
  batch [closed 20; closed 21; sig SIGCHLD] [10].
Definition nobody_history : list event :=
  lone_history ++ [ENotify 0 10 [("MAINPID", "88")]; ESignal SIGTERM; EClosed 20; EClosed 21; ESignal SIGCHLD; EReap 10 (XExit 0); EUnknown 10 0].
Theorem C55_handover_refuted : exists k e configs s, reachable k e configs s /\ ~ panicked s /\
  (exists ev, In ev (s_hist s) /\ shutdown_trigger ev) /\ (forall id pid, ~ alive (s_hist s) id pid) /\ k_pipes (s_k s) = ∅ /\
  (forall pid n, ~ In (EReap pid (XRealtime n)) (s_hist s)) /\
  forall n, exists ops, execute e s ops = Some s /\ attentive e s ops /\ (n <= rounds ops)%nat.
Proof.
  destruct (demo_state lone nobody_ops nobody_history AtHead) as (s & D & H & P & R); [vm_compute; reflexivity|vm_compute; reflexivity|].
  assert (C : match demo lone nobody_ops with
    | Some s => s_shut s && has_running_processes (s_g s) && bool_decide (k_pipes (s_k s) = ∅) &&
        forallb (fun x => match snd x with KZombie _ => false | _ => true end) (map_to_list (k_procs (s_k s))) | None => false end = true) by (vm_compute; reflexivity).
  rewrite D in C. clear D. rewrite !andb_true_iff in C. destruct C as [[[C1 C2] C3] C4]. apply bool_decide_eq_true in C3.
  exists (demo_machine lone), demo_env, (demo_configs lone), s. split; [exact R|]. split; [unfold panicked; rewrite P; exact (fun x => x)|].
  split; [exists (ESignal SIGTERM); rewrite H; split; [cbn; tauto|exact Logic.I]|].
  split.
  { intros id pid (h1 & h2 & E & NR). rewrite H in E. destruct h1 as [|ev h1].
    - injection E as <- <- <-. apply (NR (XExit 0)). cbn. tauto.
    - injection E as <- E. assert (Y : In (EStart id pid) (h1 ++ EStart id pid :: h2)) by (apply in_or_app; right; left; reflexivity).
      rewrite <- E in Y. cbn in Y. repeat (destruct Y as [Y|Y]; [discriminate Y|]). exact Y. }
  split; [exact C3|]. split; [intros pid n K; rewrite H in K; vm_compute in K; intuition discriminate|].
  intros n. exists (turns n). destruct (circles_on demo_env s n) as [A B]; [exact (conj P (conj C1 (conj C2 (conj C3 C4))))|].
  split; [exact A|]. split; [exact B|]. clear. induction n as [|n IH]; [apply Nat.le_0_l|]. unfold rounds in *. cbn. apply le_n_S. exact IH.
Qed.
Print Assumptions C55_handover_refuted.
