(** Concrete executions, for the examples and refutations about the event loop. *)
From stdpp Require Import gmap strings.
From Coq Require Import Ascii ZArith List Bool Lia.
From Verif Require Import Base RStr CronModel ConfigModel ProcessModel EnvModel DepModel NotifyModel ManagerModel SysModel MainModel
  SpecSched SpecMain SpecRun PropEnv PropDep PropMain.
Import ListNotations.
Local Open Scope string_scope.
Local Open Scope list_scope.
Local Open Scope Z_scope.

Definition demo_env : env :=
  {| e_zone := fixed 0; e_signal := 3; e_status := 4; e_notify := 5; e_order := fun l => l; e_rfc3339 := show_Z |}.
Definition demo_machine (programs : list proc_config) : machine := example_machine 0 (rev programs) true true.

(** cinit has pid 1; process 77 is not its child. *)
Definition demo_others : gmap Z kproc := <[77 := KOther]> {[1 := KSelf]}.
Definition demo (programs : list proc_config) (ops : list op) : option sys :=
  match run (demo_machine programs) with
  | Ret (EntersLoop configs a) =>
      if bool_decide (map pc_name configs = map pc_name programs)
      then execute demo_env (initial (a_processes a) (a_dep a) (a_cron a) demo_others) ops else None
  | _ => None
  end.
Definition demo_configs (programs : list proc_config) : list proc_config :=
  match run (demo_machine programs) with Ret (EntersLoop configs _) => configs | _ => [] end.

Lemma demo_plausible : plausible demo_others.
Proof.
  intros pid x H. unfold demo_others in H. apply lookup_insert_Some in H. destruct H as [[<- <-]|[_ H]].
  - split; [lia|]. intros st E. discriminate.
  - apply lookup_singleton_Some in H. destruct H as [<- <-]. split; [lia|]. intros st E. discriminate.
Qed.

Lemma demo_launched programs s : demo programs [] = Some s -> launched (demo_machine programs) demo_env (demo_configs programs) s.
Proof.
  unfold demo, demo_configs. destruct (run (demo_machine programs)) as [[c|configs a]|m] eqn:E; try discriminate.
  destruct (bool_decide _); [|discriminate]. cbn [execute]. intros H. inversion H; subst.
  split; [apply example_honest|]. split; [reflexivity|]. split; [intros l; apply Permutation_refl|].
  exists a, demo_others. split; [exact E|]. split; [apply demo_plausible|reflexivity].
Qed.
Lemma demo_reachable programs ops s : demo programs ops = Some s -> reachable (demo_machine programs) demo_env (demo_configs programs) s.
Proof.
  intros H. assert (L : exists s0, demo programs [] = Some s0 /\ execute demo_env s0 ops = Some s).
  { revert H. unfold demo. destruct (run (demo_machine programs)) as [[c|configs a]|m]; try discriminate. destruct (bool_decide _); [|discriminate].
    intros H. cbn [execute] in *. eauto. }
  destruct L as (s0 & L & X). exists s0, ops. split; [apply demo_launched; auto|auto].
Qed.

(** Continuing an execution. *)
Lemma execute_snoc e s ops s' o : execute e s ops = Some s' -> execute e s (ops ++ [o]) = sstep e s' o.
Proof.
  revert s. induction ops as [|q ops IH]; intros s H; cbn in *.
  - inversion H; subst. destruct (sstep e s' o); reflexivity.
  - destruct (sstep e s q); [auto|discriminate].
Qed.
Lemma demo_snoc programs ops s o : demo programs ops = Some s -> demo programs (ops ++ [o]) = sstep demo_env s o.
Proof.
  unfold demo. destruct (run (demo_machine programs)) as [[c|configs a]|m]; try discriminate. destruct (bool_decide _); [|discriminate]. apply execute_snoc.
Qed.

Definition history (r : option sys) : list event := match r with Some s => s_hist s | None => [] end.
Definition place (r : option sys) : option pc := match r with Some s => Some (s_pc s) | None => None end.

(** Programs. *)
Definition task (name : string) (type : process_type) (before after : list string) : proc_config :=
  {| pc_name := name; pc_path := Some "/bin/true"; pc_args := []; pc_workdir := None; pc_type := type;
     pc_uid := None; pc_gid := None; pc_user := None; pc_group := None; pc_before := before; pc_after := after;
     pc_pty := false; pc_caps := []; pc_env := [] |}.

(** * Pieces of executions *)
Definition midnight : instant := 18687 * 86400 * NS.
(** Nothing (more) to start. *)
Definition no_start : list op := [CSpawnDep ForkFailed; CSpawnCron midnight ForkFailed].
Definition fork (pid out err : Z) : fork_result := Forked pid out err true true.
(** A batch of events with the answers, and children to collect. *)
Definition batch (evs : list (epev * answer)) (ended : list Z) : list op :=
  CPoll (Some (map fst evs)) :: map (fun x => CEvent (snd x)) evs ++ [CEvent (ASignal None)] ++
  map (fun pid => CWait (Some pid)) ended ++ [CWait None].
Definition sig (sg : signal) : epev * answer := (EvIn 3, ASignal (Some sg)).
Definition msg (text : string) (sender : Z) : epev * answer := (EvIn 5, AMessage (Some (text, sender))).
Definition status_query : epev * answer := (EvIn 4, AAccept true).
Definition output (fd : Z) (n : nat) : epev * answer := (EvIn fd, ARead (Some n)).
Definition closed (fd : Z) : epev * answer := (EvHup fd, ASignal None).
Definition nl : string := String "010" "".

(** A oneshot, a notify program after it, and a oneshot after that. *)
Definition chain : list proc_config := [task "a" Oneshot [] []; task "b" Notify [] ["a"]; task "c" Oneshot [] ["b"]].
Definition chain_ops : list op :=
  [CHead; CSpawnDep (fork 10 20 21)] ++ no_start ++
  [KWrite 20 ("one" +:+ nl +:+ nl +:+ "two")] ++ batch [output 20 8] [] ++
  [CHead] ++ no_start ++ [KHangup 20; KHangup 21; KExit 10 (XExit 0)] ++ batch [closed 20; closed 21; sig SIGCHLD] [10] ++
  [CHead; CSpawnDep (fork 11 20 22)] ++ no_start ++ batch [msg ("READY=1" +:+ nl +:+ "STATUS=up") 11] [] ++
  [CHead; CSpawnDep (fork 12 21 23)] ++ no_start ++
  batch [status_query] [] ++ [CHead] ++ no_start ++
  [KAdopt 77; KExit 77 (XExit 3); KExit 12 (XExit 0); KExit 11 (XExit 0); KHangup 20; KHangup 21; KHangup 22; KHangup 23] ++
  batch [closed 20; closed 21; closed 22; closed 23; sig SIGCHLD] [77; 12; 11] ++ [CHead; CHead].

Lemma demo_state programs ops h p : history (demo programs ops) = h -> place (demo programs ops) = Some p ->
  exists s, demo programs ops = Some s /\ s_hist s = h /\ s_pc s = p /\
    reachable (demo_machine programs) demo_env (demo_configs programs) s.
Proof.
  destruct (demo programs ops) as [s|] eqn:E; cbn; [|discriminate]. intros H1 H2. exists s. inversion H2. eauto 10 using demo_reachable.
Qed.

Definition chain_history : list event :=
  [EStart 0 10; EOpen 20 0 true; EOpen 21 0 false; EWrote 20 ("one" +:+ nl +:+ nl +:+ "two"); EChunk 20 ("one" +:+ nl +:+ nl +:+ "two");
   ELog true "a" "one"; ELog true "a" "two"; EClosed 20; EClosed 21; ESignal SIGCHLD; EReap 10 (XExit 0); EEnd 0 10 0;
   EStart 1 11; EOpen 20 1 true; EOpen 22 1 false; ENotify 1 11 [("STATUS", "up"); ("READY", "1")];
   EStart 2 12; EOpen 21 2 true; EOpen 23 2 false;
   EReport ("programs:" +:+ nl +:+ "  - name: 'a'" +:+ nl +:+ "    state: 'done'" +:+ nl +:+ "    exit_code: 0" +:+ nl +:+
            "  - name: 'b'" +:+ nl +:+ "    state: 'running'" +:+ nl +:+ "    status: up" +:+ nl +:+ "    pid: 11" +:+ nl +:+
            "  - name: 'c'" +:+ nl +:+ "    state: 'running'" +:+ nl +:+ "    pid: 12" +:+ nl);
   EClosed 20; EClosed 21; EClosed 22; EClosed 23; ESignal SIGCHLD; EReap 77 (XExit 3); EUnknown 77 3;
   EReap 12 (XExit 0); EEnd 2 12 0; EReap 11 (XExit 0); EEnd 1 11 0; EExit 0].
Lemma chain_state : exists s, demo chain chain_ops = Some s /\ s_hist s = chain_history /\ s_pc s = Finished 0 /\
  reachable (demo_machine chain) demo_env (demo_configs chain) s.
Proof. apply demo_state; vm_compute; reflexivity. Qed.
Lemma chain_configs : demo_configs chain = chain.
Proof. vm_compute. reflexivity. Qed.

(** A cronjob every five minutes, after a oneshot: not run while the oneshot is
    running, run later, not run again while its process is alive. *)
Definition timed_pair : list proc_config := [task "a" Oneshot [] []; task "j" (CronJob "*/5 * * * *") [] ["a"]].
Definition minute (n : Z) : instant := midnight + n * 60 * NS.
Definition timed_ops : list op :=
  [CHead; CSpawnDep (fork 10 20 21)] ++ [CSpawnDep ForkFailed; CSpawnCron (minute 1) ForkFailed] ++ batch [] [] ++
  [CHead; CSpawnDep ForkFailed; CSpawnCron (minute 7) ForkFailed; CSpawnCron (minute 7) ForkFailed; KExit 10 (XExit 0)] ++ batch [sig SIGCHLD] [10] ++
  [CHead; CSpawnDep ForkFailed; CSpawnDep ForkFailed; CSpawnCron (minute 10) (fork 11 30 31); CSpawnCron (minute 10) ForkFailed] ++ batch [] [] ++
  [CHead; CSpawnDep ForkFailed; CSpawnCron (minute 15) (fork 12 40 41); CSpawnCron (minute 15) ForkFailed; KExit 11 (XExit 0)] ++ batch [sig SIGCHLD] [11] ++
  [CHead; CSpawnDep ForkFailed; CSpawnCron (minute 20) (fork 12 40 41); CSpawnCron (minute 20) ForkFailed] ++
  batch [sig SIGTERM] [] ++ [CHead; CHead; KExit 12 (XSignal 2)] ++ batch [sig SIGCHLD] [12] ++
  [CHead; KHangup 20; KHangup 21; KHangup 30; KHangup 31; KHangup 40; KHangup 41] ++
  batch [closed 20; closed 21; closed 30; closed 31; closed 40; closed 41] [] ++ [CHead].
Definition timed_history : list event :=
  [EStart 0 10; EOpen 20 0 true; EOpen 21 0 false; EDue 1 (minute 7); ESkipped 1; ESignal SIGCHLD; EReap 10 (XExit 0); EEnd 0 10 0;
   EDue 1 (minute 10); EStart 1 11; EOpen 30 1 true; EOpen 31 1 false; EDue 1 (minute 15); ERefused 1;
   ESignal SIGCHLD; EReap 11 (XExit 0); EEnd 1 11 0; EDue 1 (minute 20); EStart 1 12; EOpen 40 1 true; EOpen 41 1 false;
   ESignal SIGTERM; EKill 12 SIGINT; ESignal SIGCHLD; EReap 12 (XSignal 2); EEnd 1 12 2;
   EClosed 20; EClosed 21; EClosed 30; EClosed 31; EClosed 40; EClosed 41; EExit 6].
Lemma timed_state : exists s, demo timed_pair timed_ops = Some s /\ s_hist s = timed_history /\ s_pc s = Finished 6 /\
  reachable (demo_machine timed_pair) demo_env (demo_configs timed_pair) s.
Proof. apply demo_state; vm_compute; reflexivity. Qed.
Lemma timed_configs : demo_configs timed_pair = timed_pair.
Proof. vm_compute. reflexivity. Qed.

(** ** Calm histories, decided *)
Definition hands_over (ev : event) : bool :=
  match ev with
  | ENotify _ _ vars => existsb (fun kv => String.eqb (fst kv) "MAINPID" && is_some (parse_i32 (snd kv))) vars
  | _ => false
  end.
Definition realtime (ev : event) : bool := match ev with EReap _ (XRealtime _) => true | _ => false end.
Lemma calm_check h : forallb (fun ev => negb (hands_over ev) && negb (realtime ev)) h = true -> calm h.
Proof.
  intros H. rewrite forallb_forall in H. split.
  - intros ev K Hd. apply H in K. destruct ev; cbn in *; try contradiction. destruct Hd as (v & n & Hv & Hn).
    apply andb_true_iff in K. destruct K as [K _]. apply negb_true_iff in K.
    assert (X : existsb (fun kv => String.eqb (fst kv) "MAINPID" && is_some (parse_i32 (snd kv))) vars = true).
    { apply existsb_exists. exists ("MAINPID", v). split; [auto|]. cbn. now rewrite Hn. }
    congruence.
  - intros h1 pid n h2 E. exfalso. assert (K : In (EReap pid (XRealtime n)) h) by (rewrite E; apply in_or_app; right; left; auto).
    apply H in K. cbn in K. discriminate.
Qed.

Lemma alive_here h h1 id pid h2 : h = h1 ++ EStart id pid :: h2 -> forallb (fun ev => match ev with EReap x _ => negb (x =? pid) | _ => true end) h2 = true -> alive h id pid.
Proof.
  intros -> H. exists h1, h2. split; [auto|]. intros st K. rewrite forallb_forall in H. apply H in K. cbn in K. rewrite Z.eqb_refl in K. discriminate.
Qed.
