(** Property C100: a program runs as all its entries together say. *)
From stdpp Require Import gmap strings.
From Coq Require Import ZArith List Bool Lia Permutation.
From Verif Require Import Base RStr CronModel ConfigModel ProcessModel EnvModel DepModel ManagerModel SysModel MainModel ChildModel FdModel
  SpecConfig SpecEnv SpecSched SpecMain SpecRun SpecChild DepProofs PropEnv PropMain RunExamples.
From Verif Require ChildExamples.
From Verif Require Import YamlModel SpecYaml YamlProofs PropYaml SpecEnd EndProofs PropEnd SpecDropin DropinProofs.
Import ListNotations.
Local Open Scope string_scope.
Local Open Scope list_scope.
Local Open Scope Z_scope.

(** * C100: main entry and drop-ins *)
Theorem C100_entries_together k lib syntax configs a n ls :
  SpecYaml.any_order lib -> m_yaml k = read_yaml lib syntax -> ordinary k syntax -> honest k ->
  run k = Ret (EntersLoop configs a) -> entries_of k syntax n ls -> ls <> [] ->
  exists c, In c configs /\ pc_name c = n /\ together lib ls c.
Proof. exact (run_together k lib syntax configs a n ls). Qed.
Print Assumptions C100_entries_together.

Theorem C100_contradictory_refused k lib syntax configs a n ls :
  SpecYaml.any_order lib -> m_yaml k = read_yaml lib syntax -> ordinary k syntax -> honest k ->
  entries_of k syntax n ls -> ls <> [] -> contradictory lib ls -> run k <> Ret (EntersLoop configs a).
Proof. exact (contradictory_refused k lib syntax configs a n ls). Qed.
Print Assumptions C100_contradictory_refused.

Theorem C100_runs_together k lib syntax e configs s ls id q h fault t0 st x mask ign dir cr ch :
  SpecYaml.any_order lib -> m_yaml k = read_yaml lib syntax -> ordinary k syntax -> SpecEnv.any_order (m_world k) -> consistent (m_world k) ->
  reachable k e configs s -> g_procs (s_g s) !! id = Some q -> entries_of k syntax (p_name q) ls ->
  inherited t0 -> fd_reachable t0 st -> launch h fault q st x mask ign dir cr (Runs ch) ->
  runs_together lib (m_world k) ls ch /\
  (c_euid (ch_cred ch) <> 0 -> forall z,
     let some := exists l, In l ls /\ listed l z in (z ∈ c_eff (ch_cred ch) <-> some) /\ (z ∈ c_prm (ch_cred ch) <-> some)).
Proof. exact (runs_all_entries k lib syntax e configs s ls id q h fault t0 st x mask ign dir cr ch). Qed.
Print Assumptions C100_runs_together.

(** Two files.  The first has a database and a drop-in for the web server of the second, with its user, an
    argument that is a template, a variable and a capability. *)
Definition more_entry : list (yaml * yaml) :=
  [(plain "name", plain "www"); (plain "user", plain "web"); (plain "args", YSeq [plain "{{X}}"]);
   (plain "env", YSeq [YMap [(plain "X", plain "80")]]); (plain "capabilities", YSeq [plain "CAP_NET_BIND_SERVICE"])].
Definition main_entry : list (yaml * yaml) :=
  [(plain "name", plain "www"); (plain "path", plain "/bin/web"); (plain "args", YSeq [plain "-v"]); (plain "workdir", plain "/srv")].
Definition over_entry : list (yaml * yaml) := [(plain "name", plain "www"); (plain "path", plain "/bin/other")].
Definition drop_syntax (s : string) : option yaml :=
  if String.eqb s "one" then Some (YMap [(plain "programs", YSeq [YMap db_entry; YMap more_entry])])
  else if String.eqb s "two" then Some (YMap [(plain "programs", YSeq [YMap main_entry])])
  else if String.eqb s "three" then Some (YMap [(plain "programs", YSeq [YMap over_entry])]) else None.
Definition drop_files (files : list string) : machine :=
  {| m_release := Some "5.10.0"; m_uid := 0; m_yaml := read_yaml example_library drop_syntax;
     m_drain := fun d => d; m_files := Dir (Some (map (fun s => Entry true (File (Some s))) files)); m_world := example_world (fun _ => None);
     m_order := fun l => l; m_toposort := find_cycle; m_zone := fixed 0; m_clock := repeat (18687 * 86400 * NS)%Z 10;
     m_sockets := true; m_epoll := true; m_setup := true |}.
Lemma drop_at files p s : file_at (m_files (drop_files files)) p s -> exists i, p = [i] /\ nth_error files i = Some s.
Proof.
  intros H. inversion H as [|es i u m q n E N]; subst. exists i. rewrite nth_error_map in E.
  destruct (nth_error files i) as [t|]; [|discriminate]. inversion E; subst. inversion N; subst. auto.
Qed.
Lemma drop_stands files p i y : stands (drop_files files) drop_syntax p i y -> exists j s, p = [j] /\ nth_error files j = Some s /\
  ((s = "one" /\ i = 0%nat /\ y = YMap db_entry) \/ (s = "one" /\ i = 1%nat /\ y = YMap more_entry) \/
   (s = "two" /\ i = 0%nat /\ y = YMap main_entry) \/ (s = "three" /\ i = 0%nat /\ y = YMap over_entry)).
Proof.
  intros (s & doc & es & F & Sy & (st & E) & N). apply drop_at in F. destruct F as (j & -> & Hj). exists j, s. split; [reflexivity|]. split; [exact Hj|].
  unfold drop_syntax in Sy. destruct (String.eqb_spec s "one") as [->|]; [|destruct (String.eqb_spec s "two") as [->|]; [|destruct (String.eqb_spec s "three") as [->|]; [|discriminate]]];
    inversion Sy; subst; destruct E as [E|[]]; inversion E; subst; (destruct i as [|[|i]]; [| |try discriminate; destruct i; discriminate]); inversion N; subst; auto 8.
Qed.
Lemma drop_ordinary files : ordinary (drop_files files) drop_syntax.
Proof.
  split.
  - intros p s y _ Sy. unfold drop_syntax in Sy. destruct (String.eqb s "one"); [|destruct (String.eqb s "two"); [|destruct (String.eqb s "three"); [|discriminate]]]; inversion Sy; subst; eauto.
  - intros p i y St. apply drop_stands in St. destruct St as (j & s & _ & _ & [(_ & _ & ->)|[(_ & _ & ->)|[(_ & _ & ->)|(_ & _ & ->)]]]); eauto.
Qed.
Lemma drop_honest files : honest (drop_files files).
Proof.
  split; [intros d; apply Permutation_refl|]. split; [intros l; apply Permutation_refl|]. split; [exact find_cycle_ok|].
  intros (p & es & n & H & I). inversion H as [|es' i u m q n' E' N]; subst.
  - apply in_map_iff in I. destruct I as (s & E & _). discriminate.
  - rewrite nth_error_map in E'. destruct (nth_error files i); [|discriminate]. inversion E'; subst. inversion N.
Qed.
Lemma db_no_name : ~ field db_entry "name" text "www".
Proof. intros (v & (st & E) & (st' & ->)). destruct E as [E|[E|[E|[]]]]; discriminate. Qed.
Lemma www_named l : In l [more_entry; main_entry; over_entry] -> field l "name" text "www".
Proof. intros I. exists (plain "www"). split; [exists Plain|exists Plain; reflexivity]. destruct I as [<-|[<-|[<-|[]]]]; left; reflexivity. Qed.
Lemma drop_entries : entries_of (drop_files ["one"; "two"]) drop_syntax "www" [main_entry; more_entry].
Proof.
  exists [([1], 0); ([0], 1)]%nat. split; [constructor; [intros [E|[]]; discriminate|constructor; [intros []|constructor]]|]. split.
  - constructor; [split; [|apply www_named; simpl; auto]|constructor; [split; [|apply www_named; simpl; auto]|constructor]]; cbn [fst snd].
    + exists "two", [(plain "programs", YSeq [YMap main_entry])], [YMap main_entry].
      split; [eapply at_child; [reflexivity|constructor]|]. split; [reflexivity|]. split; [exists Plain; left; reflexivity|reflexivity].
    + exists "one", [(plain "programs", YSeq [YMap db_entry; YMap more_entry])], [YMap db_entry; YMap more_entry].
      split; [eapply at_child; [reflexivity|constructor]|]. split; [reflexivity|]. split; [exists Plain; left; reflexivity|reflexivity].
  - intros p i l St Nm. apply drop_stands in St. destruct St as (j & s & -> & Hj & H).
    destruct j as [|[|j]]; [| |destruct j; discriminate]; inversion Hj; subst;
      destruct H as [(E & -> & Y)|[(E & -> & _)|[(E & -> & _)|(E & -> & _)]]]; try discriminate; simpl; auto.
    inversion Y; subst. destruct (db_no_name Nm).
Qed.
Lemma over_entries : entries_of (drop_files ["two"; "three"]) drop_syntax "www" [main_entry; over_entry].
Proof.
  exists [([0], 0); ([1], 0)]%nat. split; [constructor; [intros [E|[]]; discriminate|constructor; [intros []|constructor]]|]. split.
  - constructor; [split; [|apply www_named; simpl; auto]|constructor; [split; [|apply www_named; simpl; auto]|constructor]]; cbn [fst snd].
    + exists "two", [(plain "programs", YSeq [YMap main_entry])], [YMap main_entry].
      split; [eapply at_child; [reflexivity|constructor]|]. split; [reflexivity|]. split; [exists Plain; left; reflexivity|reflexivity].
    + exists "three", [(plain "programs", YSeq [YMap over_entry])], [YMap over_entry].
      split; [eapply at_child; [reflexivity|constructor]|]. split; [reflexivity|]. split; [exists Plain; left; reflexivity|reflexivity].
  - intros p i l St Nm. apply drop_stands in St. destruct St as (j & s & -> & Hj & H).
    destruct j as [|[|j]]; [| |destruct j; discriminate]; inversion Hj; subst;
      destruct H as [(E & -> & _)|[(E & -> & _)|[(E & -> & _)|(E & -> & _)]]]; try discriminate; simpl; auto.
Qed.
Definition drop_processes : list process := match run (drop_files ["one"; "two"]) with Ret (EntersLoop _ a) => a_processes a | _ => [] end.
Definition drop_configs : list proc_config := match run (drop_files ["one"; "two"]) with Ret (EntersLoop c _) => c | _ => [] end.
Lemma drop_reachable : exists s a, reachable (drop_files ["one"; "two"]) demo_env drop_configs s /\ g_procs (s_g s) = drop_processes /\
  run (drop_files ["one"; "two"]) = Ret (EntersLoop drop_configs a).
Proof.
  destruct (run (drop_files ["one"; "two"])) as [[c|configs a]|m] eqn:E; try (vm_compute in E; discriminate).
  exists (initial (a_processes a) (a_dep a) (a_cron a) demo_others), a. unfold drop_processes, drop_configs. rewrite E. split; [|split; reflexivity].
  eexists. exists []. split; [|reflexivity]. split; [apply drop_honest|split; [reflexivity|split; [intros l; apply Permutation_refl|]]].
  exists a, demo_others. split; [exact E|]. split; [apply demo_plausible|reflexivity].
Qed.
Example C100_example : SpecYaml.any_order example_library /\ ordinary (drop_files ["one"; "two"]) drop_syntax /\
  entries_of (drop_files ["one"; "two"]) drop_syntax "www" [main_entry; more_entry] /\
  SpecEnv.any_order (m_world (drop_files ["one"; "two"])) /\ consistent (m_world (drop_files ["one"; "two"])) /\
  (exists s a id, reachable (drop_files ["one"; "two"]) demo_env drop_configs s /\ g_procs (s_g s) !! id = Some www /\
     run (drop_files ["one"; "two"]) = Ret (EntersLoop drop_configs a)) /\
  exists ch, launch ChildExamples.demo_host ChildExamples.nofault www ChildExamples.demo_state ChildExamples.demo_numbers [1; 15] ∅ "/"
               (ChildExamples.demo_cred ChildExamples.demo_caps) (Runs ch) /\
    c_euid (ch_cred ch) = 7 /\ 10 ∈ c_eff (ch_cred ch) /\ ch_dir ch = "/srv" /\
    ch_image ch = Some ("/bin/web", ["/bin/web"; "-v"; "80"], p_env www).
Proof.
  split; [exact example_any_order|]. split; [apply drop_ordinary|]. split; [exact drop_entries|].
  split; [apply two_consistent|]. split; [apply two_consistent|]. split.
  - destruct drop_reachable as (s & a & R & E & X). exists s, a, 0%nat. split; [exact R|]. split; [|exact X]. rewrite E. vm_compute. reflexivity.
  - exists (ChildExamples.demo_runs www ChildExamples.demo_caps). split; [apply ChildExamples.demo_runs_launch; vm_compute; reflexivity|].
    split; [vm_compute; reflexivity|]. split; [ChildExamples.decide_now|]. split; vm_compute; reflexivity.
Qed.
(** A drop-in with a path of its own. *)
Example C100_refused_example : ordinary (drop_files ["two"; "three"]) drop_syntax /\ honest (drop_files ["two"; "three"]) /\
  entries_of (drop_files ["two"; "three"]) drop_syntax "www" [main_entry; over_entry] /\ contradictory example_library [main_entry; over_entry] /\
  run (drop_files ["two"; "three"]) = Ret (MainModel.Exits 1).
Proof.
  split; [apply drop_ordinary|]. split; [apply drop_honest|]. split; [exact over_entries|]. split; [|vm_compute; reflexivity].
  left. exists "path". split; [left; reflexivity|]. exists [], main_entry, [], over_entry, []. split; [reflexivity|].
  assert (N : forall t, ~ In t [""; "null"; "Null"; "NULL"; "~"] -> ~ null (plain t)) by (intros t N (t' & E & I); inversion E; subst; auto).
  split; [exists (plain "/bin/web")|exists (plain "/bin/other")]; (split; [exists Plain; simpl; auto|]);
    apply N; intros [E|[E|[E|[E|[E|[]]]]]]; discriminate.
Qed.
