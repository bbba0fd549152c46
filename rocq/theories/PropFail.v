(** Property C73: a program that cannot be executed counts as one that failed. *)
From stdpp Require Import gmap strings.
From Coq Require Import Ascii ZArith List Bool Lia Relations.
From Verif Require Import Base RStr CronModel ConfigModel ProcessModel EnvModel DepModel NotifyModel ManagerModel SysModel MainModel
  SpecDep SpecMain SpecRun SpecFail RunExamples FailProofs.
From Verif Require ChildModel SpecChild ChildThms ChildExamples.
Import ListNotations.
Local Open Scope string_scope.
Local Open Scope list_scope.
Local Open Scope Z_scope.

Theorem C73_not_executed_is_failed k e configs s h1 id pid h2 q h fault t0 st x mask ign dir cr f :
  reachable k e configs s -> s_hist s = h1 ++ EStart id pid :: h2 -> program_of s id q ->
  SpecChild.inherited t0 -> SpecChild.fd_reachable t0 st -> SpecChild.launch h fault q st x mask ign dir cr f -> (forall ch, f <> ChildModel.Runs ch) ->
  meets f pid h2 -> unclaimed_number pid h2 ->
  (forall a status b, h2 = a ++ EReap pid status :: b -> (forall y, ~ In (EReap pid y) a) ->
     status = XExit 4 /\ exists b', b = EEnd id pid 4 :: b' /\ forall j y, ~ In (EStart j y) b') /\
  (forall a code b, h2 = a ++ EExit code :: b -> code = 6 /\ In (EReap pid (XExit 4)) a) /\
  forall v y, clos_trans nat (depends configs) id v -> ~ In (EStart v y) (s_hist s).
Proof. exact (fun R E _ => not_executed k e configs s h1 id pid h2 q h fault t0 st x mask ign dir cr f R E). Qed.
Print Assumptions C73_not_executed_is_failed.

Theorem C73_impossible_settings k e configs s h1 id pid h2 q h fault t0 st x mask ign dir cr f :
  reachable k e configs s -> s_hist s = h1 ++ EStart id pid :: h2 -> program_of s id q ->
  SpecChild.inherited t0 -> SpecChild.fd_reachable t0 st -> SpecChild.launch h fault q st x mask ign dir cr f -> ~ SpecChild.can_dress h q ->
  meets f pid h2 -> unclaimed_number pid h2 ->
  (forall a code b, h2 = a ++ EExit code :: b -> code = 6 /\ In (EReap pid (XExit 4)) a) /\
  forall v y, clos_trans nat (depends configs) id v -> ~ In (EStart v y) (s_hist s).
Proof. exact (fun R E _ => impossible k e configs s h1 id pid h2 q h fault t0 st x mask ign dir cr f R E). Qed.
Print Assumptions C73_impossible_settings.

(** The working directory of the first program does not exist; the second program
    waits for the first one, the third one waits for nothing. *)
Definition nowhere : list proc_config :=
  [{| pc_name := "a"; pc_path := Some "/bin/true"; pc_args := []; pc_workdir := Some "/missing"; pc_type := Oneshot;
      pc_uid := None; pc_gid := None; pc_user := None; pc_group := None; pc_before := []; pc_after := [];
      pc_pty := false; pc_caps := []; pc_env := [] |};
   task "b" Oneshot [] ["a"]; task "c" Oneshot [] []].
Definition nowhere_ops : list op :=
  [CHead; CSpawnDep (fork 11 22 23); CSpawnDep (fork 10 20 21)] ++ no_start ++
  [KHangup 20; KHangup 21; KExit 10 (XExit 4)] ++ batch [closed 20; closed 21; sig SIGCHLD] [10] ++
  [CHead; CHead; KHangup 22; KHangup 23; KExit 11 (XExit 0)] ++ batch [closed 22; closed 23; sig SIGCHLD] [11] ++ [CHead].
Definition nowhere_before : list event := [EStart 2 11; EOpen 22 2 true; EOpen 23 2 false].
Definition nowhere_after : list event :=
  [EOpen 20 0 true; EOpen 21 0 false; EClosed 20; EClosed 21; ESignal SIGCHLD; EReap 10 (XExit 4); EEnd 0 10 4; EKill 11 SIGINT;
   EClosed 22; EClosed 23; ESignal SIGCHLD; EReap 11 (XExit 0); EEnd 2 11 0; EExit 6].
Definition nowhere_program : process :=
  {| p_name := "a"; p_path := "/bin/true"; p_args := ["/bin/true"]; p_workdir := "/missing"; p_uid := 0; p_gid := 0; p_pty := false; p_caps := [];
     p_env := ["SHELL=/bin/sh"; "USER=root"; "LOGNAME=root"; "LANGUAGE="; "LANG="; "TERM="; "HOME=/root"; "PWD=/root"; "PATH="];
     p_state := Crashed 4; p_type := ROneshot; p_pid := 10; p_status := "" |}.
Definition nowhere_fate : ChildModel.fate := ChildExamples.demo_fate nowhere_program ChildExamples.demo_caps.

Definition quiet_b (l : list event) : bool := forallb (fun ev => match ev with ENotify _ _ _ => false | _ => true end) l.
Lemma no_notify l id x vars : quiet_b l = true -> ~ In (ENotify id x vars) l.
Proof. intros Q K. unfold quiet_b in Q. rewrite forallb_forall in Q. specialize (Q _ K). discriminate. Qed.
Definition reaps_b (pid code : Z) (l : list event) : bool :=
  forallb (fun ev => match ev with EReap p (XExit c) => negb (p =? pid) || (c =? code) | EReap p _ => negb (p =? pid) | _ => true end) l.
Lemma reap_only l pid code st : reaps_b pid code l = true -> In (EReap pid st) l -> st = XExit code.
Proof.
  intros Q K. unfold reaps_b in Q. rewrite forallb_forall in Q. specialize (Q _ K). cbn in Q. rewrite Z.eqb_refl in Q.
  destruct st; try discriminate. cbn in Q. apply Z.eqb_eq in Q. subst. reflexivity.
Qed.

Lemma nowhere_meets : (forall ch, nowhere_fate <> ChildModel.Runs ch) /\ meets nowhere_fate 10 nowhere_after.
Proof.
  assert (F : exists c, nowhere_fate = ChildModel.Exits 4 c) by (apply ChildExamples.exits_b_spec; vm_compute; reflexivity).
  destruct F as [c F]. rewrite F. clear F. split; [discriminate|]. intros code c' E. injection E as <- _. split.
  - intros h1 st h2 E _. apply (reap_only nowhere_after 10 4); [vm_compute; reflexivity|rewrite E; apply in_or_app; cbn; auto].
  - intros h1 id vars h2 E. exfalso. apply (no_notify nowhere_after id 10 vars); [vm_compute; reflexivity|rewrite E; apply in_or_app; cbn; auto].
Qed.
Example C73_example : exists s, reachable (demo_machine nowhere) demo_env (demo_configs nowhere) s /\
  s_hist s = nowhere_before ++ EStart 0 10 :: nowhere_after /\ program_of s 0 nowhere_program /\
  SpecChild.inherited ChildExamples.demo_table /\ SpecChild.fd_reachable ChildExamples.demo_table ChildExamples.demo_state /\
  SpecChild.launch ChildExamples.demo_host ChildExamples.nofault nowhere_program ChildExamples.demo_state ChildExamples.demo_numbers [1; 15] ∅ "/"
    (ChildExamples.demo_cred ChildExamples.demo_caps) nowhere_fate /\
  ~ SpecChild.can_dress ChildExamples.demo_host nowhere_program /\ (forall ch, nowhere_fate <> ChildModel.Runs ch) /\
  meets nowhere_fate 10 nowhere_after /\ unclaimed_number 10 nowhere_after /\ depends (demo_configs nowhere) 0 1.
Proof.
  destruct (demo_state nowhere nowhere_ops (nowhere_before ++ EStart 0 10 :: nowhere_after) (Finished 6)) as (s & D & H & _ & R); [vm_compute; reflexivity..|].
  exists s. split; [exact R|]. split; [exact H|]. split.
  { unfold program_of. assert (X : match demo nowhere nowhere_ops with Some s => nth_error (g_procs (s_g s)) 0 | None => None end = Some nowhere_program) by (vm_compute; reflexivity).
    rewrite D in X. exact X. }
  split; [exact ChildExamples.demo_inherited|]. split; [exact ChildExamples.demo_reachable|]. split; [apply ChildExamples.demo_launch|].
  split; [intros (X & _); vm_compute in X; discriminate|].
  split; [apply nowhere_meets|]. split; [apply nowhere_meets|].
  split.
  { intros id x vars K. exfalso. revert K. apply (no_notify nowhere_after). vm_compute. reflexivity. }
  do 2 eexists. split; [vm_compute; reflexivity|]. split; [vm_compute; reflexivity|]. right. left. reflexivity.
Qed.
