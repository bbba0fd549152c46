(** What the log says before the event loop. *)
From stdpp Require Import gmap strings.
From Coq Require Import Ascii ZArith List Bool.
From Verif Require Import Base RStr CronModel ConfigModel ProcessModel EnvModel DepModel MainModel LogModel TemplModel StartModel
  SpecConfig SpecEnv SpecDep SpecMain SpecSched SpecStart DepProofs StartProofs StartProofs2 PropEnv PropDep PropMain.
Import ListNotations.
Local Open Scope string_scope.
Local Open Scope list_scope.

Definition demo_texts : texts :=
  {| t_uname := "EFAULT"; t_path := fun _ => "Permission denied"; t_yaml := fun s => "Error in " +:+ s; t_tera := fun _ => "no";
     t_sockets := "EACCES"; t_setup := "ENOMEM" |}.
(** A machine whose configuration is [root]; the file contents are taken from [yaml]. *)
Definition configured (root : tree) (yaml : string -> option (list proc_config)) : machine :=
  {| m_release := Some "5.10.0"; m_uid := 0; m_yaml := yaml;
     m_drain := fun d => d; m_files := nameless root; m_world := example_world (fun _ => None);
     m_order := fun l => l; m_toposort := find_cycle; m_zone := fixed 0; m_clock := repeat (18687 * 86400 * NS)%Z 10;
     m_sockets := true; m_epoll := true; m_setup := true |}.
Definition one_file (programs : list proc_config) : machine :=
  configured (TFile (Some "good")) (fun s => if String.eqb s "good" then Some programs else None).
Definition says_of (root : tree) (k : machine) : list string := texts_of LError (fst (start_says demo_texts "/etc/cinit.d" root k)).
Definition says_with (programs : list proc_config) : list string := says_of (TFile (Some "good")) (one_file programs).
Definition without_path (name : string) : proc_config :=
  {| pc_name := name; pc_path := None; pc_args := []; pc_workdir := None; pc_type := Oneshot;
     pc_uid := None; pc_gid := None; pc_user := None; pc_group := None; pc_before := []; pc_after := [];
     pc_pty := false; pc_caps := []; pc_env := [] |}.
Definition cron_dropin (name timer : string) : proc_config :=
  {| pc_name := name; pc_path := None; pc_args := []; pc_workdir := None; pc_type := CronJob timer;
     pc_uid := None; pc_gid := None; pc_user := None; pc_group := None; pc_before := []; pc_after := [];
     pc_pty := false; pc_caps := []; pc_env := [] |}.
Definition cron_with (before after : list string) : proc_config :=
  {| pc_name := "c"; pc_path := Some "/bin/true"; pc_args := []; pc_workdir := None; pc_type := CronJob "* * * * *";
     pc_uid := None; pc_gid := None; pc_user := None; pc_group := None; pc_before := before; pc_after := after;
     pc_pty := false; pc_caps := []; pc_env := [] |}.
Definition folder (a b : string) (x y : tree) : tree := TDir (Some [TEntry a true x; TEntry b true y]).

Lemma configured_honest root yaml : ~ non_utf8 (nameless root) -> honest (configured root yaml).
Proof.
  intros H. split; [intros d; apply Permutation_refl|]. split; [intros l; apply Permutation_refl|].
  split; [exact find_cycle_ok|exact H].
Qed.
Lemma one_file_honest programs : honest (one_file programs).
Proof. apply configured_honest. intros (p & es & n & H & _). inversion H. Qed.

(** ** C85: when cinit refuses to start, the log gives a true reason *)
Theorem C85_reasons t path root k : honest k -> m_files k = nameless root ->
  snd (start_says t path root k) = run k /\
  Forall (reason t path root k) (texts_of LError (fst (start_says t path root k))) /\
  (forall code, run k = Ret (Exits code) -> texts_of LError (fst (start_says t path root k)) <> []) /\
  (forall configs a, run k = Ret (EntersLoop configs a) -> texts_of LError (fst (start_says t path root k)) = []).
Proof. exact (start_reasons t path root k). Qed.
Print Assumptions C85_reasons.

(** The log also tells how far cinit came. *)
Theorem C85_progress t path root k : honest k -> m_files k = nameless root ->
  texts_of LInfo (fst (start_says t path root k)) = firstn (phases (run k)) (milestones path).
Proof. exact (start_progress t path root k). Qed.
Print Assumptions C85_progress.

Example C85_example :
  honest (one_file [simple "a" [] ["b"]]) /\
  says_with [simple "a" [] ["b"]] = ["Unknown 'after' dependency 'b' of program a"] /\
  says_with [simple "a" ["b"] []] = ["Unknown 'before' dependency 'b' of program a"] /\
  says_with [simple "a" [] ["a"]] = ["Found cycle involving process 'a'"] /\
  says_with [timed "c" "* * * * *"; simple "a" [] ["c"]] = ["Program a contains error: Depending on cronjobs is not allowed"] /\
  says_with [without_path "a"] = ["Program a contains error: Missing 'path' attribute"] /\
  says_with [simple "a" [] []; simple "a" [] []] = ["Duplicate program found for name a"] /\
  says_with [simple "a" [] []; cron_dropin "a" "* * * * *"] = ["Configuration drop-in for a changes type to cronjob"] /\
  says_with [simple "a" [] ["b"]; timed "c" "61 * * * *"] =
    ["Unknown 'after' dependency 'b' of program a"; "Timer parse error for program 'c': Invalid range in timer spec"] /\
  says_of (folder "a.yml" "b" (TFile (Some "good")) (folder "x" "y" TSpecial (TFile None)))
    (configured (folder "a.yml" "b" (TFile (Some "good")) (folder "x" "y" TSpecial (TFile None))) (fun _ => Some [])) =
    ["Failed to read file /etc/cinit.d/b/y: Permission denied"] /\
  texts_of LInfo (fst (start_says demo_texts "/etc/cinit.d" (TFile (Some "good")) (one_file [without_path "a"]))) =
    ["Starting up"; "Config is at /etc/cinit.d"; "Parsing config"; "Perform analysis on programs"].
Proof. split; [apply one_file_honest|]. vm_compute. repeat (split; [reflexivity|]). reflexivity. Qed.

(** The reason is not always well worded: a drop-in is said to change the type to cronjob
    when the program is a cronjob already. *)
Theorem C85_changes_type_refuted : exists t path root k parsed,
  honest k /\ m_files k = nameless root /\ read_as k parsed /\ run k = Ret (Exits 1) /\
  texts_of LError (fst (start_says t path root k)) = ["Configuration drop-in for a changes type to cronjob"] /\
  Forall (fun c => is_cronjob (pc_type c) = true) (fragments "a" (concat parsed)).
Proof.
  exists demo_texts, "/etc/cinit.d", (TFile (Some "good")), (one_file [timed "a" "* * * * *"; cron_dropin "a" "0 * * * *"]).
  exists [[timed "a" "* * * * *"; cron_dropin "a" "0 * * * *"]].
  split; [apply one_file_honest|]. split; [reflexivity|]. split.
  { exists [[]], ["good"]. split; [|reflexivity]. split; [repeat constructor; intros []|]. split; [repeat constructor|].
    intros p s H. inversion H; subst. left. reflexivity. }
  split; [vm_compute; reflexivity|]. split; [vm_compute; reflexivity|]. repeat constructor.
Qed.
Print Assumptions C85_changes_type_refuted.

(** And "Cronjobs may not have dependencies" is said of a cronjob with [before], though
    one with [after] is accepted. *)
Theorem C85_dependencies_refuted : exists k k' : machine,
  honest k /\ honest k' /\ run k = Ret (Exits 2) /\
  says_of (TFile (Some "good")) k = ["Program c contains error: Cronjobs may not have dependencies"] /\
  exists configs a c, run k' = Ret (EntersLoop configs a) /\ In c configs /\ is_cronjob (pc_type c) = true /\ pc_after c = ["a"].
Proof.
  exists (one_file [cron_with ["a"] []; simple "a" [] []]), (one_file [cron_with [] ["a"]; simple "a" [] []]).
  split; [apply one_file_honest|]. split; [apply one_file_honest|].
  split; [vm_compute; reflexivity|]. split; [vm_compute; reflexivity|].
  eexists _, _, (cron_with [] ["a"]). split; [vm_compute; reflexivity|]. split; [cbn; tauto|]. split; reflexivity.
Qed.
Print Assumptions C85_dependencies_refuted.

(** ** C86: all the mistakes are reported *)
(** It holds of files that do not parse, if all can be read. *)
Theorem C86_files_partial t path root k p s : honest k -> m_files k = nameless root -> ~ precondition_fails k -> ~ broken (m_files k) ->
  at_path path root p (TFile (Some s)) -> m_yaml k s = None -> In (t_yaml t s) (texts_of LError (fst (start_says t path root k))).
Proof. exact (every_file_reported t path root k p s). Qed.
Print Assumptions C86_files_partial.

Example C86_example :
  says_of (folder "a" "b" (TFile (Some "x")) (TFile (Some "y"))) (configured (folder "a" "b" (TFile (Some "x")) (TFile (Some "y"))) (fun _ => None)) =
    ["Could not parse config: "; "Error in x"; "Error in y"].
Proof. vm_compute. reflexivity. Qed.

(** The file itself is not named: the log (without DEBUG) is the same whichever of the
    two files is the faulty one. *)
Theorem C86_place_refuted : exists root root' k k',
  honest k /\ honest k' /\ m_files k = nameless root /\ m_files k' = nameless root' /\ run k = Ret (Exits 1) /\ run k' = Ret (Exits 1) /\
  at_path "/etc" root "/etc/a" (TFile (Some "bad")) /\ at_path "/etc" root "/etc/b" (TFile (Some "good")) /\
  at_path "/etc" root' "/etc/a" (TFile (Some "good")) /\ at_path "/etc" root' "/etc/b" (TFile (Some "bad")) /\
  m_yaml k "bad" = None /\ m_yaml k "good" <> None /\ m_yaml k' = m_yaml k /\
  forall t, fst (start_says t "/etc" root k) = fst (start_says t "/etc" root' k').
Proof.
  set (yaml := fun s => if String.eqb s "good" then Some (@nil proc_config) else None).
  exists (folder "a" "b" (TFile (Some "bad")) (TFile (Some "good"))), (folder "a" "b" (TFile (Some "good")) (TFile (Some "bad"))).
  exists (configured (folder "a" "b" (TFile (Some "bad")) (TFile (Some "good"))) yaml), (configured (folder "a" "b" (TFile (Some "good")) (TFile (Some "bad"))) yaml).
  assert (U : forall x y, honest (configured (folder "a" "b" (TFile (Some x)) (TFile (Some y))) yaml)).
  { intros x y. apply configured_honest. unfold folder. rewrite nameless_dir. intros H. apply ConfigProofs.dir_non_utf8 in H.
    destruct H as [(m & [H|[H|[]]])|(u & m & [H|[H|[]]] & p & es & m' & K & _)]; [discriminate H|discriminate H|..];
      (injection H as <- <-; inversion K). }
  assert (P : forall x y, at_path "/etc" (folder "a" "b" x y) "/etc/a" x /\ at_path "/etc" (folder "a" "b" x y) "/etc/b" y).
  { intros x y. split.
    - apply (ap_below "/etc" _ "a" x "/etc/a"); [left; reflexivity|apply (join_joined "/etc" "a")|apply ap_here].
    - apply (ap_below "/etc" _ "b" y "/etc/b"); [right; left; reflexivity|apply (join_joined "/etc" "b")|apply ap_here]. }
  split; [apply U|]. split; [apply U|]. split; [reflexivity|]. split; [reflexivity|].
  split; [vm_compute; reflexivity|]. split; [vm_compute; reflexivity|].
  split; [apply P|]. split; [apply P|]. split; [apply P|]. split; [apply P|].
  split; [reflexivity|]. split; [discriminate|]. split; [reflexivity|]. intros t. vm_compute. reflexivity.
Qed.
Print Assumptions C86_place_refuted.

(** Of several faulty programs only one is reported. *)
Theorem C86_programs_refuted : exists k configs, honest k /\ merged configs configs /\ read_as k [configs] /\ run k = Ret (Exits 2) /\
  (forall c, In c configs -> program_fault (m_world k) c) /\ map pc_name configs = ["a"; "b"] /\
  forall t, texts_of LError (fst (start_says t "/etc/cinit.d" (TFile (Some "good")) k)) = ["Program b contains error: Missing 'path' attribute"].
Proof.
  exists (one_file [without_path "a"; without_path "b"]), [without_path "a"; without_path "b"].
  split; [apply one_file_honest|]. split.
  { split; [repeat constructor; cbn; intuition discriminate|]. split; [intros n; tauto|].
    intros c [<-|[<-|[]]]; reflexivity. }
  split.
  { exists [[]], ["good"]. split; [|reflexivity]. split; [repeat constructor; intros []|]. split; [repeat constructor|].
    intros p s H. inversion H; subst. left. reflexivity. }
  split; [vm_compute; reflexivity|]. split; [intros c [<-|[<-|[]]]; right; right; right; reflexivity|].
  split; [reflexivity|]. intros t. vm_compute. reflexivity.
Qed.
Print Assumptions C86_programs_refuted.

(** ** C88: what is ignored before the event loop is said, and nothing else is *)
(** The whole log of a start that succeeds; C79 describes what [build] says. *)
Theorem C88_started t path root k configs a : m_files k = nameless root -> run k = Ret (EntersLoop configs a) ->
  exists note files saids, version_note t (m_release k) note /\ ignored path root files /\
    List.Forall2 (fun c said => exists p, build (t_tera t) (m_world k) c = (said, Ret (Ok p))) configs saids /\
    fst (start_says t path root k) =
      [(LInfo, "Starting up")] ++ note ++ [(LInfo, "Config is at " +:+ path); (LInfo, "Parsing config")] ++
      map (fun p => (LWarn, "Ignoring file " +:+ p)) files ++ [(LInfo, "Perform analysis on programs")] ++ concat saids ++
      [(LInfo, "Spawning processes")].
Proof. exact (start_log t path root k configs a). Qed.
Print Assumptions C88_started.

(** Whether it succeeds or not, the warnings are true. *)
Theorem C88_warnings t path root k : honest k -> m_files k = nameless root ->
  Forall (caution t path root k) (texts_of LWarn (fst (start_says t path root k))).
Proof. exact (start_cautions t path root k). Qed.
Print Assumptions C88_warnings.

Definition strange_release (k : machine) (r : option string) : machine :=
  {| m_release := r; m_uid := m_uid k; m_yaml := m_yaml k; m_drain := m_drain k; m_files := m_files k; m_world := m_world k;
     m_order := m_order k; m_toposort := m_toposort k; m_zone := m_zone k; m_clock := m_clock k; m_sockets := m_sockets k;
     m_epoll := m_epoll k; m_setup := m_setup k |}.
Definition with_fifo : tree := folder "a.yml" "b" (TFile (Some "good")) (folder "x" "y" TSpecial (TFile (Some "none"))).
Example C88_example :
  let k r := strange_release (configured with_fifo (fun s => Some (if String.eqb s "good" then [simple "a" [] []] else []))) r in
  (exists configs a, run (k (Some "unknown")) = Ret (EntersLoop configs a)) /\
  fst (start_says demo_texts "/etc/cinit.d" with_fifo (k (Some "unknown"))) =
    [(LInfo, "Starting up"); (LWarn, "Could not determine kernel version from input 'unknown'"); (LInfo, "Config is at /etc/cinit.d");
     (LInfo, "Parsing config"); (LWarn, "Ignoring file /etc/cinit.d/b/x"); (LInfo, "Perform analysis on programs"); (LInfo, "Spawning processes")] /\
  texts_of LWarn (fst (start_says demo_texts "/etc/cinit.d" with_fifo (k None))) =
    ["Could not read kernel version: EFAULT"; "Ignoring file /etc/cinit.d/b/x"] /\
  texts_of LWarn (fst (start_says demo_texts "/etc/cinit.d" with_fifo (k (Some "5.10.0")))) = ["Ignoring file /etc/cinit.d/b/x"].
Proof.
  cbv zeta. split; [eexists _, _; vm_compute; reflexivity|]. split; [vm_compute; reflexivity|]. split; vm_compute; reflexivity.
Qed.
