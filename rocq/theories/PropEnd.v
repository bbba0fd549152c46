(** Properties C69 and C70: from an entry in a file to the program that is run. *)
From stdpp Require Import gmap strings.
From Coq Require Import ZArith List Bool Lia Permutation.
From Verif Require Import Base RStr CronModel ConfigModel ProcessModel EnvModel DepModel ManagerModel SysModel MainModel ChildModel FdModel
  SpecConfig SpecEnv SpecSched SpecMain SpecRun SpecChild DepProofs PropEnv PropMain RunExamples.
From Verif Require ChildExamples.
From Verif Require Import YamlModel SpecYaml YamlProofs PropYaml SpecEnd EndProofs.
Import ListNotations.
Local Open Scope string_scope.
Local Open Scope list_scope.
Local Open Scope Z_scope.

(** * C69: nothing that happens changes what a program is run with *)
Theorem C69_settings_kept k e configs s id q : reachable k e configs s -> g_procs (s_g s) !! id = Some q ->
  exists c q0, nth_error configs id = Some c /\ process_from (m_world k) c = Ret (Ok q0) /\ same_settings q0 q.
Proof. exact (settings_kept k e configs s id q). Qed.
Print Assumptions C69_settings_kept.
Theorem C69_programs_kept k e configs s : reachable k e configs s -> length (g_procs (s_g s)) = length configs.
Proof. exact (programs_kept k e configs s). Qed.
Print Assumptions C69_programs_kept.
(** Programs were started, refused, stopped and ended. *)
Example C69_example : exists s q, reachable (demo_machine timed_pair) demo_env (demo_configs timed_pair) s /\ s_hist s = timed_history /\
  g_procs (s_g s) !! 1%nat = Some q.
Proof.
  destruct timed_state as (s & D & H & _ & R). exists s. assert (X : match demo timed_pair timed_ops with Some s => exists q, g_procs (s_g s) !! 1%nat = Some q | None => False end).
  { vm_compute. eauto. }
  rewrite D in X. destruct X as (q & X). exists q. auto.
Qed.

(** * C70: a program runs as its entry says *)
Theorem C70_entry_is_a_program k lib syntax e configs s p i l n :
  SpecYaml.any_order lib -> m_yaml k = read_yaml lib syntax -> ordinary k syntax ->
  stands k syntax p i (YMap l) -> field l "name" text n -> sole k syntax p i n -> reachable k e configs s ->
  exists id c q q0, nth_error configs id = Some c /\ pc_name c = n /\ says lib l c /\
    process_from (m_world k) c = Ret (Ok q0) /\ g_procs (s_g s) !! id = Some q /\ same_settings q0 q.
Proof. exact (fun AO MY ORD => entry_config k lib syntax AO MY ORD e configs s p i l n). Qed.
Print Assumptions C70_entry_is_a_program.

Theorem C70_every_program_has_an_entry k lib syntax e configs s id q :
  SpecYaml.any_order lib -> m_yaml k = read_yaml lib syntax -> ordinary k syntax ->
  reachable k e configs s -> g_procs (s_g s) !! id = Some q -> exists p i l, stands k syntax p i (YMap l) /\ field l "name" text (p_name q).
Proof. exact (every_program_has_entry k lib syntax e configs s id q). Qed.
Print Assumptions C70_every_program_has_an_entry.

Theorem C70_runs_as_written k lib syntax e configs s p i l n id q h fault t0 st x mask ign dir cr ch :
  SpecYaml.any_order lib -> m_yaml k = read_yaml lib syntax -> ordinary k syntax -> SpecEnv.any_order (m_world k) -> consistent (m_world k) ->
  stands k syntax p i (YMap l) -> field l "name" text n -> sole k syntax p i n ->
  reachable k e configs s -> g_procs (s_g s) !! id = Some q -> p_name q = n ->
  inherited t0 -> fd_reachable t0 st -> launch h fault q st x mask ign dir cr (Runs ch) ->
  runs_as_written (m_world k) l ch /\
  (c_euid (ch_cred ch) <> 0 -> forall z, (z ∈ c_eff (ch_cred ch) <-> listed l z) /\ (z ∈ c_prm (ch_cred ch) <-> listed l z)).
Proof. exact (runs_entry k lib syntax e configs s p i l n id q h fault t0 st x mask ign dir cr ch). Qed.
Print Assumptions C70_runs_as_written.

(** Two files.  The second has a web server that runs as user 7 with one capability. *)
Definition web_entry : list (yaml * yaml) :=
  [(plain "name", plain "www"); (plain "path", plain "/bin/web"); (plain "user", plain "web"); (plain "args", YSeq [plain "-v"; plain "{{X}}"]);
   (plain "env", YSeq [YMap [(plain "X", plain "80")]]); (plain "capabilities", YSeq [plain "CAP_NET_BIND_SERVICE"]); (plain "workdir", plain "/srv")].
Definition db_entry : list (yaml * yaml) := [(plain "name", plain "db"); (plain "path", plain "/bin/db"); (plain "before", YSeq [plain "www"])].
Definition two_syntax (s : string) : option yaml :=
  if String.eqb s "one" then Some (YMap [(plain "programs", YSeq [YMap db_entry])])
  else if String.eqb s "two" then Some (YMap [(plain "programs", YSeq [YMap web_entry])]) else None.
Definition two_files : machine :=
  {| m_release := Some "5.10.0"; m_uid := 0; m_yaml := read_yaml example_library two_syntax;
     m_drain := fun d => d; m_files := Dir (Some [Entry true (File (Some "one")); Entry true (File (Some "two"))]); m_world := example_world (fun _ => None);
     m_order := fun l => l; m_toposort := find_cycle; m_zone := fixed 0; m_clock := repeat (18687 * 86400 * NS)%Z 10;
     m_sockets := true; m_epoll := true; m_setup := true |}.
Lemma two_at p s : file_at (m_files two_files) p s -> (p = [0%nat] /\ s = "one") \/ (p = [1%nat] /\ s = "two").
Proof.
  intros H. inversion H as [|es i u m q n E N]; subst. destruct i as [|[|i]]; [| |destruct i; discriminate];
    inversion E; subst; inversion N; subst; auto.
Qed.
Lemma two_stands p i y : stands two_files two_syntax p i y -> (p = [0%nat] /\ i = 0%nat /\ y = YMap db_entry) \/ (p = [1%nat] /\ i = 0%nat /\ y = YMap web_entry).
Proof.
  intros (s & doc & es & F & Sy & (st & E) & N). apply two_at in F. destruct F as [(-> & ->)|(-> & ->)];
    inversion Sy; subst; destruct E as [E|[]]; inversion E; subst; (destruct i as [|[|i]]; [|discriminate|discriminate]); inversion N; subst; auto.
Qed.
Definition two_processes : list process := match run two_files with Ret (EntersLoop _ a) => a_processes a | _ => [] end.
Definition two_configs : list proc_config := match run two_files with Ret (EntersLoop c _) => c | _ => [] end.
Lemma two_reachable : exists s, reachable two_files demo_env two_configs s /\ g_procs (s_g s) = two_processes.
Proof.
  destruct (run two_files) as [[c|configs a]|m] eqn:E; try (vm_compute in E; discriminate).
  exists (initial (a_processes a) (a_dep a) (a_cron a) demo_others). unfold two_processes, two_configs. rewrite E. split; [|reflexivity].
  eexists. exists []. split; [|reflexivity]. split; [|split; [reflexivity|split; [intros l; apply Permutation_refl|]]].
  - split; [intros d; apply Permutation_refl|]. split; [intros l; apply Permutation_refl|]. split; [exact find_cycle_ok|].
    intros (p & es & n & H & I). inversion H as [|es' i u m q n' E' N]; subst; [destruct I as [I|[I|[]]]; discriminate|].
    destruct i as [|[|i]]; [| |destruct i; discriminate]; inversion E'; subst; inversion N.
  - exists a, demo_others. split; [exact E|]. split; [apply demo_plausible|reflexivity].
Qed.
Definition www : process :=
  {| p_name := "www"; p_path := "/bin/web"; p_args := ["/bin/web"; "-v"; "80"]; p_workdir := "/srv"; p_uid := 7; p_gid := 0; p_pty := false;
     p_caps := ["CAP_NET_BIND_SERVICE"];
     p_env := ["SHELL=/bin/sh"; "USER=web"; "LOGNAME=web"; "LANGUAGE="; "LANG="; "TERM="; "X=80"; "HOME=/srv/web"; "PWD=/srv/web"; "PATH="];
     p_state := Blocked; p_type := ROneshot; p_pid := 0; p_status := "" |}.
Lemma two_ordinary : ordinary two_files two_syntax.
Proof.
  split.
  - intros p s y F Sy. apply two_at in F. destruct F as [(-> & ->)|(-> & ->)]; inversion Sy; subst; eauto.
  - intros p i y St. apply two_stands in St. destruct St as [(_ & _ & ->)|(_ & _ & ->)]; eauto.
Qed.
Lemma web_stands : stands two_files two_syntax [1%nat] 0 (YMap web_entry).
Proof.
  exists "two", [(plain "programs", YSeq [YMap web_entry])], [YMap web_entry].
  split; [eapply at_child; [reflexivity|constructor]|]. split; [reflexivity|].
  split; [exists Plain; left; reflexivity|reflexivity].
Qed.
Lemma web_name : field web_entry "name" text "www".
Proof. exists (plain "www"). split; [exists Plain; left; reflexivity|exists Plain; reflexivity]. Qed.
Lemma web_sole : sole two_files two_syntax [1%nat] 0 "www".
Proof.
  intros p i l St (v & (st & E) & (st' & ->)). apply two_stands in St. destruct St as [(_ & _ & Y)|(-> & -> & _)]; [|auto].
  inversion Y; subst. destruct E as [E|[E|[E|[]]]]; discriminate.
Qed.
Lemma two_consistent : consistent (m_world two_files) /\ SpecEnv.any_order (m_world two_files).
Proof.
  split; [|intros l; symmetry; apply Permutation_rev]. split; intros i u; cbn; unfold example_user.
  - destruct (Z.eqb_spec i 0); [intros H; inversion H; subst; reflexivity|].
    destruct (Z.eqb_spec i 7); intros H; inversion H; subst; reflexivity.
  - destruct (Z.eqb_spec i 0); intros H; inversion H; subst; reflexivity.
Qed.
Example C70_example : SpecYaml.any_order example_library /\ ordinary two_files two_syntax /\
  stands two_files two_syntax [1%nat] 0 (YMap web_entry) /\ field web_entry "name" text "www" /\ sole two_files two_syntax [1%nat] 0 "www" /\
  SpecEnv.any_order (m_world two_files) /\ consistent (m_world two_files) /\
  (exists s id, reachable two_files demo_env two_configs s /\ g_procs (s_g s) !! id = Some www) /\
  exists ch, launch ChildExamples.demo_host ChildExamples.nofault www ChildExamples.demo_state ChildExamples.demo_numbers [1; 15] ∅ "/"
               (ChildExamples.demo_cred ChildExamples.demo_caps) (Runs ch) /\
    c_euid (ch_cred ch) = 7 /\ c_groups (ch_cred ch) = [0] /\ 10 ∈ c_eff (ch_cred ch) /\ ch_dir ch = "/srv" /\
    ch_image ch = Some ("/bin/web", ["/bin/web"; "-v"; "80"], p_env www).
Proof.
  split; [exact example_any_order|]. split; [exact two_ordinary|]. split; [exact web_stands|]. split; [exact web_name|]. split; [exact web_sole|].
  split; [apply two_consistent|]. split; [apply two_consistent|]. split.
  - destruct two_reachable as (s & R & E). exists s, 0%nat. split; [exact R|]. rewrite E. vm_compute. reflexivity.
  - exists (ChildExamples.demo_runs www ChildExamples.demo_caps). split; [apply ChildExamples.demo_runs_launch; vm_compute; reflexivity|].
    split; [vm_compute; reflexivity|]. split; [vm_compute; reflexivity|]. split; [ChildExamples.decide_now|]. split; vm_compute; reflexivity.
Qed.
