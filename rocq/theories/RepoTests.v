(** The remaining unit tests of /repo and its system tests, run on the model.  Like
    RepoTestsCron these are no proofs about cinit; they check that the model does what
    the authors of the code expect.  Names are those of the tests. *)
From stdpp Require Import gmap strings.
From Coq Require Import Ascii ZArith List Bool.
From Verif Require Import Base RStr CronModel ConfigModel YamlModel ProcessModel EnvModel DepModel NotifyModel ManagerModel SysModel MainModel
  SpecSched SpecDep RunExamples.
From Verif Require ChildModel FdModel ChildExamples DepProofs TemplModel.
Import ListNotations.
Local Open Scope string_scope.
Local Open Scope list_scope.

(** * Unit tests *)

(** src/config/mod.rs:430-448 *)
Definition default_config (name : string) : proc_config :=
  {| pc_name := name; pc_path := Some "test"; pc_args := []; pc_workdir := None; pc_type := Oneshot; pc_uid := None; pc_gid := None;
     pc_user := None; pc_group := None; pc_before := []; pc_after := []; pc_pty := false; pc_caps := []; pc_env := [] |}.
(** A configuration of a test: path, working directory, type, uid, gid, user, group,
    list of strings used for several options, arguments, environment *)
Definition config_with (path workdir : option string) (t : process_type) (uid gid : option Z) (user group : option string)
  (names args : list string) (env : list env_map) : proc_config :=
  {| pc_name := "test"; pc_path := path; pc_args := args; pc_workdir := workdir; pc_type := t; pc_uid := uid; pc_gid := gid;
     pc_user := user; pc_group := group; pc_before := names; pc_after := names; pc_pty := false; pc_caps := names; pc_env := env |}.
Definition forbidden : option string := Some "forbidden".

(** config/mod.rs:240 (a panic is expected) *)
Example test_merging_different_name_causes_panic : exists m, merge (default_config "test") (default_config "test2") = Panic m.
Proof. eexists. vm_compute. reflexivity. Qed.
(** config/mod.rs:248 *)
Example test_merging_with_two_paths_gives_error :
  merge (default_config "test") (config_with forbidden None Oneshot None None None None [] [] []) = Ret (Err (PathSpecified "test")).
Proof. vm_compute. reflexivity. Qed.
(** config/mod.rs:259 *)
Example test_merging_with_workdir_gives_error :
  merge (config_with (Some "test") forbidden Oneshot None None None None [] [] []) (config_with None forbidden Oneshot None None None None [] [] [])
  = Ret (Err (InvalidFieldSpecified "test" "workdir")).
Proof. vm_compute. reflexivity. Qed.
(** config/mod.rs:278 *)
Example test_merging_with_uid_gives_error :
  merge (config_with (Some "test") None Oneshot (Some 1%Z) None None None [] [] []) (config_with None None Oneshot (Some 1%Z) None None None [] [] [])
  = Ret (Err (InvalidFieldSpecified "test" "uid")).
Proof. vm_compute. reflexivity. Qed.
(** config/mod.rs:297 *)
Example test_merging_with_gid_gives_error :
  merge (config_with (Some "test") None Oneshot None (Some 1%Z) None None [] [] []) (config_with None None Oneshot None (Some 1%Z) None None [] [] [])
  = Ret (Err (InvalidFieldSpecified "test" "gid")).
Proof. vm_compute. reflexivity. Qed.
(** config/mod.rs:316 *)
Example test_merging_with_user_gives_error :
  merge (config_with (Some "test") None Oneshot None None forbidden None [] [] []) (config_with None None Oneshot None None forbidden None [] [] [])
  = Ret (Err (InvalidFieldSpecified "test" "user")).
Proof. vm_compute. reflexivity. Qed.
(** config/mod.rs:335 *)
Example test_merging_with_group_gives_error :
  merge (config_with (Some "test") None Oneshot None None None forbidden [] [] []) (config_with None None Oneshot None None None forbidden [] [] [])
  = Ret (Err (InvalidFieldSpecified "test" "group")).
Proof. vm_compute. reflexivity. Qed.
(** config/mod.rs:354 *)
Example test_merging_with_cronjob_gives_error :
  merge (default_config "test") (config_with None None (CronJob "") None None None None [] [] []) = Ret (Err (CronjobSpecified "test")).
Proof. vm_compute. reflexivity. Qed.
(** config/mod.rs:368 *)
Example test_relevant_lists_are_merged_and_pruned :
  match merge (config_with (Some "test") None Oneshot None None None None ["1"; "2"] ["1"; "2"] [[]])
              (config_with None None Oneshot None None None None ["1"; "2"] ["1"; "2"] [[]]) with
  | Ret (Ok m) => length (pc_env m) = 2 /\ pc_args m = ["1"; "2"; "1"; "2"] /\ pc_before m = ["1"; "2"] /\ pc_after m = ["1"; "2"] /\ pc_caps m = ["1"; "2"]
  | _ => False
  end.
Proof. vm_compute. repeat split. Qed.
(** config/mod.rs:404 and 419 *)
Definition args_primary : proc_config := config_with (Some "test") None Oneshot None None None None [] ["2"] [].
Definition args_dropin : proc_config := config_with None None Oneshot None None None None [] ["1"] [].
Example test_args_of_primary_are_kept_first :
  match merge args_primary args_dropin with Ret (Ok m) => pc_args m = ["2"; "1"] | _ => False end.
Proof. vm_compute. reflexivity. Qed.
Example test_args_of_primary_are_kept_first_with_reverse_arguments :
  match merge args_dropin args_primary with Ret (Ok m) => pc_args m = ["2"; "1"] | _ => False end.
Proof. vm_compute. reflexivity. Qed.

(** src/runtime/dependency_graph.rs:350-369 *)
Definition node_of (name : string) (before after : list string) : proc_config :=
  {| pc_name := name; pc_path := Some ""; pc_args := []; pc_workdir := None; pc_type := Oneshot; pc_uid := None; pc_gid := None;
     pc_user := None; pc_group := None; pc_before := before; pc_after := after; pc_pty := false; pc_caps := []; pc_env := [] |}.
(** Both orders in which a HashMap might give two programs. *)
Definition orders : list (list nat -> list nat) := [fun l => l; @rev nat].
Definition graph (order : list nat -> list nat) (l : list proc_config) : outcome (result dep_manager dep_error) :=
  with_nodes order DepProofs.find_cycle (enumerate l).
(** Asking for runnable programs ([None]) and reporting finished ones; what the
    questions give. *)
Fixpoint talk (m : dep_manager) (l : list (option nat)) : outcome (list (bool * option nat)) :=
  match l with
  | [] => Ret []
  | None :: rest =>
      match pop_dep m with
      | Some (i, m') => match talk m' rest with Ret r => Ret ((has_runnables m, Some i) :: r) | Panic e => Panic e end
      | None => match talk m rest with Ret r => Ret ((has_runnables m, None) :: r) | Panic e => Panic e end
      end
  | Some i :: rest => match notify_process_finished m i with Ret m' => talk m' rest | Panic e => Panic e end
  end.
Definition asked (order : list nat -> list nat) (l : list proc_config) (questions : list (option nat)) : option (list (bool * option nat)) :=
  match graph order l with Ret (Ok m) => match talk m questions with Ret r => Some r | _ => None end | _ => None end.
(** dependency_graph.rs:276 *)
Example test_single_runnable_process : forall order, In order orders ->
  asked order [node_of "first" [] []] [None; None] = Some [(true, Some 0); (false, None)].
Proof. intros order [<-|[<-|[]]]; vm_compute; reflexivity. Qed.
(** dependency_graph.rs:289 *)
Example test_cyclic_dependency : forall order, In order orders ->
  In (graph order [node_of "first" ["second"] []; node_of "second" ["first"] []]) [Ret (Err (Cycle 0)); Ret (Err (Cycle 1))].
Proof. intros order [<-|[<-|[]]]; vm_compute; auto. Qed.
(** dependency_graph.rs:303 (a panic is expected) *)
Example test_duplicate_name : forall order, In order orders -> exists m, graph order [node_of "first" [] []; node_of "first" [] []] = Panic m.
Proof. intros order [<-|[<-|[]]]; eexists; vm_compute; reflexivity. Qed.
(** dependency_graph.rs:313 *)
Example test_dependants_are_marked_runnable : forall order, In order orders ->
  asked order [node_of "first" ["second"] []; node_of "second" [] []] [None; Some 0; None; None] = Some [(true, Some 0); (true, Some 1); (false, None)].
Proof. intros order [<-|[<-|[]]]; vm_compute; reflexivity. Qed.
(** dependency_graph.rs:330; which of the first two comes first is left open *)
Example test_have_two_dependencies : forall order, In order orders ->
  match asked order [node_of "first" [] []; node_of "second" ["third"] []; node_of "third" [] ["first"]]
              [None; None; None; Some 0; None; Some 1; None; None] with
  | Some [(true, Some _); (true, Some _); (false, None); (false, None); (true, Some 2); (false, None)] => True
  | _ => False
  end.
Proof. intros order [<-|[<-|[]]]; vm_compute; exact Logic.I. Qed.

(** The container of the tests (/repo/Dockerfile): root, and testuser with number 1409. *)
Definition test_user (n : string) : option (option user) :=
  if String.eqb n "root" then Some (Some {| u_uid := 0; u_name := "root"; u_dir := "/root" |})
  else if String.eqb n "testuser" then Some (Some {| u_uid := 1409; u_name := "testuser"; u_dir := "/home/testuser" |}) else Some None.
Definition test_uid (i : Z) : option (option user) :=
  if (i =? 0)%Z then test_user "root" else if (i =? 1409)%Z then test_user "testuser" else Some None.
Definition test_group (n : string) : option (option group) :=
  if String.eqb n "root" then Some (Some {| g_gid := 0 |}) else if String.eqb n "testgroup" then Some (Some {| g_gid := 1409 |}) else Some None.
Definition test_gid (i : Z) : option (option group) :=
  if (i =? 0)%Z then test_group "root" else if (i =? 1409)%Z then test_group "testgroup" else Some None.

(** process_builder.rs:410, 418, 426, 434, 442 *)
Example test_invalid_user_id_gives_error : map_id (Some 1410%Z) None test_uid test_user = Err UserGroupInvalid.
Proof. vm_compute. reflexivity. Qed.
Example test_invalid_group_id_gives_error : map_id (Some 1410%Z) None test_gid test_group = Err UserGroupInvalid.
Proof. vm_compute. reflexivity. Qed.
Example test_no_user_config_gives_root : match map_id None None test_uid test_user with Ok u => u_uid u = 0%Z | _ => False end.
Proof. vm_compute. reflexivity. Qed.
Example test_both_user_config_gives_error : map_id (Some 1000%Z) (Some "builder") test_uid test_user = Err UserGroupInvalid.
Proof. vm_compute. reflexivity. Qed.
Example test_unknown_user_gives_error : map_id None (Some "unknownuser") test_uid test_user = Err UserGroupInvalid.
Proof. vm_compute. reflexivity. Qed.

(** * Configurations *)
Definition plain (t : string) : yaml := YScalar Plain t.
Definition library_of_tests : library :=
  {| l_empty := true; l_program := fun _ => None; l_config := fun _ => None; l_timer := fun _ => None; l_order := fun m => m |}.

(** config_parser.rs:171 with the document at 263-283 *)
Example test_parse_single_program :
  decode_config library_of_tests (YMap [(plain "programs", YSeq [YMap
    [(plain "name", plain "test"); (plain "path", plain "/some/path"); (plain "args", YSeq []); (plain "workdir", plain "/hello/path");
     (plain "type", plain "oneshot"); (plain "uid", plain "3"); (plain "gid", plain "1"); (plain "user", plain "root"); (plain "group", plain "group");
     (plain "before", YSeq [plain "ever"]); (plain "after", YSeq [plain "after"]); (plain "emulate_pty", plain "false");
     (plain "capabilities", YSeq [plain "some"]);
     (plain "env", YSeq [YMap [(plain "key", plain "value")]; YMap [(plain "empty_key", plain "")]])]])])
  = Some [{| pc_name := "test"; pc_path := Some "/some/path"; pc_args := []; pc_workdir := Some "/hello/path"; pc_type := Oneshot;
             pc_uid := Some 3%Z; pc_gid := Some 1%Z; pc_user := Some "root"; pc_group := Some "group"; pc_before := ["ever"]; pc_after := ["after"];
             pc_pty := false; pc_caps := ["some"]; pc_env := [[("key", Some "value")]; [("empty_key", None)]] |}].
Proof. vm_compute. reflexivity. Qed.
(** config_parser.rs:204 with the document at 249-253 *)
Example test_parse_omitting_all_optional_values :
  decode_config library_of_tests (YMap [(plain "programs", YSeq [YMap [(plain "name", plain "test"); (plain "path", plain "/path")]])])
  = Some [{| pc_name := "test"; pc_path := Some "/path"; pc_args := []; pc_workdir := None; pc_type := Oneshot;
             pc_uid := None; pc_gid := None; pc_user := None; pc_group := None; pc_before := []; pc_after := [];
             pc_pty := false; pc_caps := []; pc_env := [] |}].
Proof. vm_compute. reflexivity. Qed.
(** config_parser.rs:231 with the document at 255-262 *)
Example test_parse_cronjob :
  match decode_config library_of_tests (YMap [(plain "programs", YSeq [YMap [(plain "name", plain "test"); (plain "path", plain "/path");
    (plain "type", YMap [(plain "cronjob", YMap [(plain "timer", plain "1 2 3 4 5")])])]])]) with
  | Some [c] => pc_name c = "test" /\ pc_path c = Some "/path" /\ pc_type c = CronJob "1 2 3 4 5"
  | _ => False
  end.
Proof. vm_compute. repeat split. Qed.

(** * System tests *)
(** The documents, as the syntax tree of each file ([None]: no YAML). *)
(** system-tests/usecases/arg-template-warn-template/config/example.yml *)
Definition files_arg_template_warn_template : list (option yaml) := [Some (
    YMap [(plain "programs", YSeq [YMap [(plain "name", plain "program"); (plain "path", plain "target/path/harness"); (plain "args", YSeq [plain "-o"; plain "system-tests/child-dump/program.yml"; YScalar Quoted "{{ ENV_VAR }} plus appendix"; YScalar Quoted "{{ ENV_VAR } plus appendix"; YScalar Quoted "{ ENV_VAR } plus appendix"]); (plain "env", YSeq [YMap [(plain "ENV_VAR", YScalar Quoted "hello world")]; YMap [(plain "VAR_1", YScalar Quoted "{{ ENV_VAR } plus appendix")]; YMap [(plain "VAR_2", YScalar Quoted "{ ENV_VAR } plus appendix")]])]])])].
(** system-tests/usecases/arg-templates/config/example.yml *)
Definition files_arg_templates : list (option yaml) := [Some (
    YMap [(plain "programs", YSeq [YMap [(plain "name", plain "program"); (plain "path", plain "target/path/harness"); (plain "args", YSeq [plain "-o"; plain "system-tests/child-dump/program.yml"; YScalar Quoted "{{ ENV_VAR }} plus appendix"; YScalar Quoted "{{ ENV_VAR } plus appendix"]); (plain "env", YSeq [YMap [(plain "ENV_VAR", YScalar Quoted "hello world")]])]])])].
(** system-tests/usecases/capabilities/config/example.yml *)
Definition files_capabilities : list (option yaml) := [Some (
    YMap [(plain "programs", YSeq [YMap [(plain "name", plain "some-caps"); (plain "path", plain "target/path/harness"); (plain "args", YSeq [plain "-o"; plain "system-tests/child-dump/some-caps.yml"]); (plain "uid", plain "1409"); (plain "gid", plain "1409"); (plain "capabilities", YSeq [plain "CAP_KILL"; plain "CAP_NET_RAW"])]; YMap [(plain "name", plain "root-gets-all-caps"); (plain "path", plain "target/path/harness"); (plain "args", YSeq [plain "-o"; plain "system-tests/child-dump/root-gets-all-caps.yml"]); (plain "capabilities", YSeq [plain "CAP_KILL"; plain "CAP_NET_RAW"])]; YMap [(plain "name", plain "no-caps"); (plain "path", plain "target/path/harness"); (plain "args", YSeq [plain "-o"; plain "system-tests/child-dump/no-caps.yml"]); (plain "uid", plain "1409"); (plain "gid", plain "1409")]])])].
(** system-tests/usecases/children-can-handle-sigchld/config/cinit.yml *)
Definition files_children_can_handle_sigchld : list (option yaml) := [Some (
    YMap [(plain "programs", YSeq [YMap [(plain "name", plain "child"); (plain "path", plain "target/path/forker")]])])].
(** system-tests/usecases/conf-directory/config/first.yml and second.yml *)
Definition files_conf_directory : list (option yaml) := [Some (
    YMap [(plain "programs", YSeq [YMap [(plain "name", plain "first"); (plain "path", plain "target/path/harness"); (plain "args", YSeq [plain "-o"; plain "system-tests/child-dump/first.yml"])]])]); Some (
    YMap [(plain "programs", YSeq [YMap [(plain "name", plain "second"); (plain "path", plain "target/path/harness"); (plain "args", YSeq [plain "-o"; plain "system-tests/child-dump/second.yml"]); (plain "after", YSeq [plain "first"])]])])].
(** system-tests/usecases/cronjob/config/example.yml *)
Definition files_cronjob : list (option yaml) := [Some (
    YMap [(plain "programs", YSeq [YMap [(plain "name", plain "echo"); (plain "path", plain "echo"); (plain "args", YSeq [plain "Hello World"]); (plain "type", YMap [(plain "cronjob", YMap [(plain "timer", YScalar Quoted "* * * * *")])])]; YMap [(plain "name", plain "waiter"); (plain "path", plain "target/path/harness"); (plain "workdir", YScalar Quoted "."); (plain "args", YSeq [plain "-o"; plain "system-tests/child-dump/waiter.yml"; plain "-s"; plain "125"]); (plain "type", plain "oneshot")]; YMap [(plain "name", plain "non-reentrant"); (plain "path", plain "target/path/harness"); (plain "workdir", YScalar Quoted "."); (plain "args", YSeq [plain "-o"; plain "system-tests/child-dump/non-reentrant.yml"; plain "-s"; plain "62"]); (plain "type", YMap [(plain "cronjob", YMap [(plain "timer", YScalar Quoted "* * * * *")])])]; YMap [(plain "name", plain "dependency"); (plain "path", plain "target/path/harness"); (plain "workdir", YScalar Quoted "."); (plain "args", YSeq [plain "-o"; plain "system-tests/child-dump/dependency.yml"; plain "-s"; plain "65"]); (plain "type", plain "oneshot")]; YMap [(plain "name", plain "dependent-cronjob"); (plain "path", plain "echo"); (plain "after", YSeq [plain "dependency"]); (plain "type", YMap [(plain "cronjob", YMap [(plain "timer", YScalar Quoted "* * * * *")])])]; YMap [(plain "name", plain "independent-cronjob"); (plain "path", plain "echo"); (plain "type", YMap [(plain "cronjob", YMap [(plain "timer", YScalar Quoted "* * * * *")])])]])])].
(** system-tests/usecases/cronjob-with-after-dependency/config/example.yml *)
Definition files_cronjob_with_after_dependency : list (option yaml) := [Some (
    YMap [(plain "programs", YSeq [YMap [(plain "name", plain "dummy"); (plain "path", plain "echo"); (plain "after", YSeq [plain "cronjob"])]; YMap [(plain "name", plain "cronjob"); (plain "path", plain "echo"); (plain "args", YSeq [plain "Hello World"]); (plain "type", YMap [(plain "cronjob", YMap [(plain "timer", YScalar Quoted "* * * * *")])])]])])].
(** system-tests/usecases/cronjob-with-before-dependency/config/example.yml *)
Definition files_cronjob_with_before_dependency : list (option yaml) := [Some (
    YMap [(plain "programs", YSeq [YMap [(plain "name", plain "dummy"); (plain "path", plain "echo")]; YMap [(plain "name", plain "cronjob"); (plain "path", plain "echo"); (plain "args", YSeq [plain "Hello World"]); (plain "type", YMap [(plain "cronjob", YMap [(plain "timer", YScalar Quoted "* * * * *")])]); (plain "before", YSeq [plain "dummy"])]])])].
(** system-tests/usecases/cronjobs-between-regular-programs/config/config.yml *)
Definition files_cronjobs_between_regular_programs : list (option yaml) := [Some (
    YMap [(plain "programs", YSeq [YMap [(plain "name", plain "first"); (plain "path", plain "echo")]; YMap [(plain "name", plain "cronjob"); (plain "path", plain "echo"); (plain "type", YMap [(plain "cronjob", YMap [(plain "timer", YScalar Quoted "0 0 * * *")])])]; YMap [(plain "name", plain "second"); (plain "after", YSeq [plain "first"]); (plain "path", plain "echo")]])])].
(** system-tests/usecases/cyclic-dependency/config/cycle.yml *)
Definition files_cyclic_dependency : list (option yaml) := [Some (
    YMap [(plain "programs", YSeq [YMap [(plain "name", plain "first"); (plain "path", plain "/dummy"); (plain "after", YSeq [plain "second"])]; YMap [(plain "name", plain "second"); (plain "path", plain "/dummy"); (plain "after", YSeq [plain "first"])]])])].
(** system-tests/usecases/cyclic-dependency-in-middle/config/cycle.yml *)
Definition files_cyclic_dependency_in_middle : list (option yaml) := [Some (
    YMap [(plain "programs", YSeq [YMap [(plain "name", plain "first"); (plain "path", plain "target/path/harness"); (plain "args", YSeq [plain "-o"; plain "system-tests/child-dump/first.yml"]); (plain "uid", plain "1409"); (plain "gid", plain "1409")]; YMap [(plain "name", plain "second"); (plain "path", plain "target/path/harness"); (plain "args", YSeq [plain "-o"; plain "system-tests/child-dump/second.yml"]); (plain "after", YSeq [plain "first"; plain "fourth"]); (plain "uid", plain "1409"); (plain "gid", plain "1409")]; YMap [(plain "name", plain "third"); (plain "path", plain "target/path/harness"); (plain "args", YSeq [plain "-o"; plain "system-tests/child-dump/third.yml"]); (plain "after", YSeq [plain "first"; plain "second"]); (plain "uid", plain "1409"); (plain "gid", plain "1409")]; YMap [(plain "name", plain "fourth"); (plain "path", plain "target/path/harness"); (plain "args", YSeq [plain "-o"; plain "system-tests/child-dump/fourth.yml"]); (plain "after", YSeq [plain "first"; plain "third"]); (plain "uid", plain "1409"); (plain "gid", plain "1409")]])])].
(** system-tests/usecases/different-workdir/config/config.yml *)
Definition files_different_workdir : list (option yaml) := [Some (
    YMap [(plain "programs", YSeq [YMap [(plain "name", plain "first"); (plain "path", plain "/usr/src/cinit/target/path/harness"); (plain "workdir", plain "/tmp"); (plain "args", YSeq [plain "-o"; plain "/usr/src/cinit/system-tests/child-dump/first.yml"])]])])].
(** system-tests/usecases/drop-in-configuration/config/dropin.yml and main.yml *)
Definition files_drop_in_configuration : list (option yaml) := [Some (
    YMap [(plain "programs", YSeq [YMap [(plain "name", plain "program"); (plain "args", YSeq [YScalar Quoted "{{ ONETWO }}"; YScalar Quoted "{{ THREEFOUR }}"]); (plain "before", YSeq [plain "echo-before-1"; plain "echo-before-2"]); (plain "after", YSeq [plain "echo-after-2"; plain "echo-after-1"]); (plain "capabilities", YSeq [plain "CAP_DAC_OVERRIDE"; plain "CAP_CHOWN"]); (plain "env", YSeq [YMap [(plain "THREE", plain "three")]; YMap [(plain "FOUR", plain "four")]; YMap [(plain "THREEFOUR", YScalar Quoted "{{ THREE }}-{{ FOUR }}")]])]])]); Some (
    YMap [(plain "programs", YSeq [YMap [(plain "name", plain "program"); (plain "path", plain "target/path/harness"); (plain "args", YSeq [plain "-o"; plain "system-tests/child-dump/program.yml"]); (plain "uid", plain "1409"); (plain "gid", plain "1409"); (plain "capabilities", YSeq [plain "CAP_NET_BIND_SERVICE"; plain "CAP_CHOWN"]); (plain "before", YSeq [plain "echo-before-1"]); (plain "after", YSeq [plain "echo-after-1"]); (plain "env", YSeq [YMap [(plain "ONE", plain "one")]; YMap [(plain "TWO", plain "two")]; YMap [(plain "ONETWO", YScalar Quoted "{{ ONE }}-{{ TWO }}")]])]; YMap [(plain "name", plain "echo-before-1"); (plain "path", plain "echo")]; YMap [(plain "name", plain "echo-before-2"); (plain "path", plain "echo")]; YMap [(plain "name", plain "echo-after-1"); (plain "path", plain "echo")]; YMap [(plain "name", plain "echo-after-2"); (plain "path", plain "echo")]])])].
(** system-tests/usecases/duplicate-program-name/config/config.yml *)
Definition files_duplicate_program_name : list (option yaml) := [Some (
    YMap [(plain "programs", YSeq [YMap [(plain "name", plain "first"); (plain "path", plain "/dummy")]; YMap [(plain "name", plain "first"); (plain "path", plain "/dummy")]])])].
(** system-tests/usecases/env-sanitisation/config/example.yml *)
Definition files_env_sanitisation : list (option yaml) := [Some (
    YMap [(plain "programs", YSeq [YMap [(plain "name", plain "first"); (plain "path", plain "target/path/harness"); (plain "args", YSeq [plain "-o"; plain "system-tests/child-dump/first.yml"]); (plain "user", plain "testuser"); (plain "group", plain "testgroup")]])])].
(** system-tests/usecases/exit-on-crash/config/example.yml *)
Definition files_exit_on_crash : list (option yaml) := [Some (
    YMap [(plain "programs", YSeq [YMap [(plain "name", plain "first"); (plain "path", plain "target/path/harness"); (plain "args", YSeq [plain "-o"; plain "system-tests/child-dump/first.yml"; plain "-r"; plain "42"])]; YMap [(plain "name", plain "second"); (plain "path", plain "target/path/harness"); (plain "uid", plain "1409"); (plain "gid", plain "1409"); (plain "args", YSeq [plain "-o"; plain "system-tests/child-dump/second.yml"]); (plain "after", YSeq [plain "first"])]])])].
(** system-tests/usecases/full-test/config/example.yml *)
Definition files_full_test : list (option yaml) := [Some (
    YMap [(plain "programs", YSeq [YMap [(plain "name", plain "first"); (plain "path", plain "target/path/harness"); (plain "args", YSeq [plain "-o"; plain "system-tests/child-dump/first.yml"]); (plain "uid", plain "0"); (plain "gid", plain "0"); (plain "pty", plain "true")]; YMap [(plain "name", plain "second"); (plain "path", plain "target/path/harness"); (plain "args", YSeq [plain "-o"; plain "system-tests/child-dump/second.yml"]); (plain "after", YSeq [plain "first"]); (plain "uid", plain "1409"); (plain "gid", plain "1409")]; YMap [(plain "name", plain "third"); (plain "path", plain "target/path/harness"); (plain "args", YSeq [plain "-o"; plain "system-tests/child-dump/third.yml"]); (plain "after", YSeq [plain "first"]); (plain "uid", plain "1409"); (plain "gid", plain "1409"); (plain "pty", plain "true")]; YMap [(plain "name", plain "fourth"); (plain "path", plain "target/path/harness"); (plain "args", YSeq [plain "-o"; plain "system-tests/child-dump/fourth.yml"]); (plain "after", YSeq [plain "second"; plain "third"]); (plain "uid", plain "1409"); (plain "gid", plain "1409"); (plain "pty", plain "true")]])])].
(** system-tests/usecases/invalid-config/config/example.yml *)
Definition files_invalid_config : list (option yaml) := [None].
(** system-tests/usecases/invalid-user-group-as-string/config/example.yml *)
Definition files_invalid_user_group_as_string : list (option yaml) := [Some (
    YMap [(plain "programs", YSeq [YMap [(plain "name", plain "first"); (plain "path", plain "target/path/harness"); (plain "args", YSeq [plain "-o"; plain "system-tests/child-dump/first.yml"]); (plain "type", plain "oneshot"); (plain "user", plain "invaliduser"); (plain "group", plain "invalidgroup")]])])].
(** system-tests/usecases/missing-env-forwarding/config/config.yml *)
Definition files_missing_env_forwarding : list (option yaml) := [Some (
    YMap [(plain "programs", YSeq [YMap [(plain "name", plain "program"); (plain "path", plain "target/path/harness"); (plain "args", YSeq [plain "-o"; plain "system-tests/child-dump/program.yml"]); (plain "env", YSeq [YMap [(plain "MISSING_VALUE", plain "")]])]])])].
(** system-tests/usecases/notify-changed-mainpid/config/example.yml *)
Definition files_notify_changed_mainpid : list (option yaml) := [Some (
    YMap [(plain "programs", YSeq [YMap [(plain "name", plain "program"); (plain "path", plain "bash"); (plain "type", plain "notify"); (plain "user", plain "testuser"); (plain "group", plain "testgroup"); (plain "args", YSeq [plain "-c"; YScalar Quoted ("bash -c 'sleep 2' &" +:+ nl +:+ "exec python3 -c 'from systemd import daemon; import time; daemon.notify(""READY=1\nMAINPID='$!'""); time.sleep(1)'" +:+ nl +:+ "")])]; YMap [(plain "name", plain "program2"); (plain "path", plain "bash"); (plain "type", plain "notify"); (plain "user", plain "testuser"); (plain "group", plain "testgroup"); (plain "args", YSeq [plain "-c"; YScalar Quoted ("bash -c 'sleep 2' &" +:+ nl +:+ "exec python3 -c 'from systemd import daemon; import time; daemon.notify(""MAINPID='$!'\nREADY=1""); time.sleep(1)'" +:+ nl +:+ "")])]])])].
(** system-tests/usecases/notify-processes/config/example.yml *)
Definition files_notify_processes : list (option yaml) := [Some (
    YMap [(plain "programs", YSeq [YMap [(plain "name", plain "first"); (plain "path", plain "target/path/harness"); (plain "type", plain "notify"); (plain "user", plain "testuser"); (plain "group", plain "testgroup"); (plain "before", YSeq [plain "second"]); (plain "args", YSeq [plain "-o"; plain "system-tests/child-dump/first.yml"; plain "-n"; plain "-s"; plain "1"])]; YMap [(plain "name", plain "second"); (plain "path", plain "target/path/harness"); (plain "args", YSeq [plain "-o"; plain "system-tests/child-dump/second.yml"]); (plain "user", plain "testuser"); (plain "group", plain "testgroup")]; YMap [(plain "name", plain "harness"); (plain "path", plain "target/path/harness"); (plain "type", plain "notify"); (plain "args", YSeq [plain "-o"; plain "system-tests/child-dump/harness.yml"]); (plain "user", plain "testuser"); (plain "group", plain "testgroup")]; YMap [(plain "name", plain "status-publisher"); (plain "path", plain "target/path/harness"); (plain "type", plain "notify"); (plain "args", YSeq [plain "-S"; plain "test status"; plain "-n"; plain "-s"; plain "1"; plain "-o"; plain "system-tests/child-dump/status-publisher.yml"]); (plain "user", plain "testuser"); (plain "group", plain "testgroup")]])])].
(** system-tests/usecases/path-lookup/config/example.yml *)
Definition files_path_lookup : list (option yaml) := [Some (
    YMap [(plain "programs", YSeq [YMap [(plain "name", plain "sh"); (plain "path", plain "sh"); (plain "args", YSeq [plain "-c"; plain "echo"]); (plain "type", plain "oneshot")]])])].
(** system-tests/usecases/single-dependency/config/example.yml *)
Definition files_single_dependency : list (option yaml) := [Some (
    YMap [(plain "programs", YSeq [YMap [(plain "name", plain "ping"); (plain "path", plain "target/path/harness"); (plain "args", YSeq [plain "-o"; plain "system-tests/child-dump/ping.yml"; plain "--"; plain "-c 4"; plain "google.ch"]); (plain "type", plain "oneshot"); (plain "before", YSeq [plain "failping"])]; YMap [(plain "name", plain "failping"); (plain "path", plain "target/path/harness"); (plain "uid", plain "1409"); (plain "gid", plain "1409"); (plain "args", YSeq [plain "-o"; plain "system-tests/child-dump/failping.yml"; plain "--"; plain "-c 4"; plain "google.ch"]); (plain "type", plain "oneshot"); (plain "after", YSeq [plain "ping"])]])])].
(** system-tests/usecases/supplementary-groups-are-empty/config/example.yml *)
Definition files_supplementary_groups_are_empty : list (option yaml) := [Some (
    YMap [(plain "programs", YSeq [YMap [(plain "name", plain "first"); (plain "path", plain "target/path/harness"); (plain "args", YSeq [plain "-o"; plain "system-tests/child-dump/first.yml"]); (plain "uid", plain "1409"); (plain "gid", plain "1409")]])])].
(** system-tests/usecases/template-env-var/config/first.yml *)
Definition files_template_env_var : list (option yaml) := [Some (
    YMap [(plain "programs", YSeq [YMap [(plain "name", plain "first"); (plain "path", plain "target/path/harness"); (plain "args", YSeq [plain "-o"; plain "system-tests/child-dump/first.yml"]); (plain "env", YSeq [YMap [(plain "FOO", plain "bar")]; YMap [(plain "BAR", YScalar Quoted "{{ USER }}-{{ FOO }}")]])]])])].
(** system-tests/usecases/template-env-var-invalid/config/first.yml *)
Definition files_template_env_var_invalid : list (option yaml) := [Some (
    YMap [(plain "programs", YSeq [YMap [(plain "name", plain "first"); (plain "path", plain "target/path/harness"); (plain "args", YSeq [plain "-o"; plain "system-tests/child-dump/first.yml"]); (plain "env", YSeq [YMap [(plain "FOO", plain "bar")]; YMap [(plain "BAR", YScalar Quoted "{{ USER -{{ FOO }}")]])]])])].
(** system-tests/usecases/unknown-after-dependency/config/example.yml *)
Definition files_unknown_after_dependency : list (option yaml) := [Some (
    YMap [(plain "programs", YSeq [YMap [(plain "name", plain "echo"); (plain "path", plain "echo"); (plain "after", YSeq [plain "doesnotexist"])]])])].
(** system-tests/usecases/unknown-before-dependency/config/example.yml *)
Definition files_unknown_before_dependency : list (option yaml) := [Some (
    YMap [(plain "programs", YSeq [YMap [(plain "name", plain "echo"); (plain "path", plain "echo"); (plain "before", YSeq [plain "doesnotexist"])]])])].
(** system-tests/usecases/user-group-as-string/config/example.yml *)
Definition files_user_group_as_string : list (option yaml) := [Some (
    YMap [(plain "programs", YSeq [YMap [(plain "name", plain "first"); (plain "path", plain "target/path/harness"); (plain "args", YSeq [plain "-o"; plain "system-tests/child-dump/first.yml"]); (plain "type", plain "oneshot"); (plain "user", plain "testuser"); (plain "group", plain "testgroup")]])])].
(** system-tests/usecases/zombies-are-reaped/config/cinit.yml *)
Definition files_zombies_are_reaped : list (option yaml) := [Some (
    YMap [(plain "programs", YSeq [YMap [(plain "name", plain "bash1"); (plain "path", plain "bash"); (plain "args", YSeq [plain "-c"; plain "sleep 1 &"])]; YMap [(plain "name", plain "bash2"); (plain "path", plain "bash"); (plain "args", YSeq [plain "-c"; plain "sleep 2 &"])]])])].

(** ** The machine of the tests *)
Definition test_environment (n : string) : option string :=
  if String.eqb n "PATH" then Some "/usr/bin:/bin" else if String.eqb n "TERM" then Some "xterm" else None.
Definition test_world : world :=
  {| w_uid := test_uid; w_user := test_user; w_gid := test_gid; w_group := test_group; w_env := test_environment;
     w_render := fun name env t => match TemplModel.tera name env t with Some r => r | None => None end; w_order := fun l => l |}.
(** File number [i] has the contents "i". *)
Definition test_machine (files : list (option yaml)) : machine :=
  {| m_release := Some "5.10.0"; m_uid := 0%Z;
     m_yaml := read_yaml library_of_tests (fun s => match parse_u32 s with Some i => match nth_error files (Z.to_nat i) with Some y => y | None => None end | None => None end);
     m_drain := @rev _; m_files := Dir (Some (map (fun i => Entry true (File (Some (show_Z (Z.of_nat i))))) (seq 0 (length files))));
     m_world := test_world; m_order := fun l => l; m_toposort := DepProofs.find_cycle; m_zone := fixed 0; m_clock := repeat midnight 10;
     m_sockets := true; m_epoll := true; m_setup := true |}.

(** ** Refused configurations: the exit codes *)
Definition exits_with (files : list (option yaml)) (code : Z) : Prop := run (test_machine files) = Ret (Exits code).
Example test_cronjob_with_after_dependency : exits_with files_cronjob_with_after_dependency 2.
Proof. vm_compute. reflexivity. Qed.
Example test_cronjob_with_before_dependency : exits_with files_cronjob_with_before_dependency 2.
Proof. vm_compute. reflexivity. Qed.
Example test_cyclic_dependency_config : exits_with files_cyclic_dependency 2.
Proof. vm_compute. reflexivity. Qed.
Example test_cyclic_dependency_in_middle : exits_with files_cyclic_dependency_in_middle 2.
Proof. vm_compute. reflexivity. Qed.
Example test_duplicate_program_name : exits_with files_duplicate_program_name 1.
Proof. vm_compute. reflexivity. Qed.
Example test_invalid_config : exits_with files_invalid_config 1.
Proof. vm_compute. reflexivity. Qed.
Example test_invalid_user_group_as_string : exits_with files_invalid_user_group_as_string 2.
Proof. vm_compute. reflexivity. Qed.
Example test_unknown_after_dependency : exits_with files_unknown_after_dependency 2.
Proof. vm_compute. reflexivity. Qed.
Example test_unknown_before_dependency : exits_with files_unknown_before_dependency 2.
Proof. vm_compute. reflexivity. Qed.

(** ** What programs are run with *)
Definition programs_of (files : list (option yaml)) : list process :=
  match run (test_machine files) with Ret (EntersLoop _ a) => a_processes a | _ => [] end.
Definition program_of (files : list (option yaml)) (name : string) : option process :=
  find (fun p => String.eqb (p_name p) name) (programs_of files).
Definition has_args (files : list (option yaml)) (name : string) (args : list string) : bool :=
  match program_of files name with Some p => forallb (fun a => existsb (String.eqb a) (p_args p)) args | None => false end.
Definition has_env (files : list (option yaml)) (name : string) (vars : list string) : bool :=
  match program_of files name with Some p => forallb (fun a => existsb (String.eqb a) (p_env p)) vars | None => false end.
Definition env_keys (files : list (option yaml)) (name : string) : list string :=
  match program_of files name with Some p => sort_strings (map (fun x => fst (splitn2 "=" x)) (p_env p)) | None => [] end.
Definition runs_as (files : list (option yaml)) (name : string) : option (Z * Z) :=
  match program_of files name with Some p => Some (p_uid p, p_gid p) | None => None end.
Definition nine_keys : list string := ["HOME"; "LANG"; "LANGUAGE"; "LOGNAME"; "PATH"; "PWD"; "SHELL"; "TERM"; "USER"].

Example test_arg_template_warn_template :
  has_args files_arg_template_warn_template "program" ["hello world plus appendix"; "{{ ENV_VAR } plus appendix"] = true.
Proof. vm_compute. reflexivity. Qed.
Example test_arg_templates : has_args files_arg_templates "program" ["hello world plus appendix"; "{{ ENV_VAR } plus appendix"] = true.
Proof. vm_compute. reflexivity. Qed.
Example test_drop_in_configuration_programs :
  has_args files_drop_in_configuration "program" ["-o"; "system-tests/child-dump/program.yml"; "one-two"; "three-four"] = true /\
  runs_as files_drop_in_configuration "program" = Some (1409, 1409)%Z /\
  has_env files_drop_in_configuration "program" ["ONE=one"; "TWO=two"; "THREE=three"; "FOUR=four"; "ONETWO=one-two"; "THREEFOUR=three-four"] = true.
Proof. vm_compute. repeat split. Qed.
Example test_env_sanitisation :
  runs_as files_env_sanitisation "first" = Some (1409, 1409)%Z /\
  has_env files_env_sanitisation "first" ["USER=testuser"; "LOGNAME=testuser"; "SHELL=/bin/sh"; "PWD=/home/testuser"; "HOME=/home/testuser"] = true.
Proof. vm_compute. repeat split. Qed.
Example test_exit_on_crash_program :
  runs_as files_exit_on_crash "first" = Some (0, 0)%Z /\ env_keys files_exit_on_crash "first" = nine_keys /\
  match program_of files_exit_on_crash "first" with Some p => p_pty p = false | None => False end.
Proof. vm_compute. repeat split. Qed.
Example test_full_test_programs :
  map (fun n => match program_of files_full_test n with Some p => Some (p_uid p, p_gid p, p_pty p) | None => None end) ["first"; "second"; "third"; "fourth"]
  = [Some (0, 0, true); Some (1409, 1409, false); Some (1409, 1409, true); Some (1409, 1409, true)]%Z.
Proof. vm_compute. reflexivity. Qed.
Example test_missing_env_forwarding : env_keys files_missing_env_forwarding "program" = nine_keys.
Proof. vm_compute. reflexivity. Qed.
Example test_notify_processes_environment : has_env files_notify_processes "harness" ["NOTIFY_SOCKET=/run/cinit-notify.socket"] = true.
Proof. vm_compute. reflexivity. Qed.
Example test_single_dependency_programs :
  has_args files_single_dependency "ping" ["-c 4"; "google.ch"] = true /\ env_keys files_single_dependency "ping" = nine_keys /\
  has_args files_single_dependency "failping" ["-c 4"; "google.ch"] = true /\ runs_as files_single_dependency "failping" = Some (1409, 1409)%Z /\
  env_keys files_single_dependency "failping" = nine_keys.
Proof. vm_compute. repeat split. Qed.
Example test_template_env_var_invalid : has_env files_template_env_var_invalid "first" ["FOO=bar"; "USER=root"; "BAR={{ USER -{{ FOO }}"] = true.
Proof. vm_compute. reflexivity. Qed.
Example test_template_env_var : has_env files_template_env_var "first" ["FOO=bar"; "USER=root"; "BAR=root-bar"] = true.
Proof. vm_compute. reflexivity. Qed.
Example test_user_group_as_string : runs_as files_user_group_as_string "first" = Some (1409, 1409)%Z.
Proof. vm_compute. reflexivity. Qed.

(** ** Credentials of the running program (the container of ChildExamples) *)
Definition running (files : list (option yaml)) (name : string) : option ChildModel.child :=
  match program_of files name with
  | Some p => match ChildExamples.demo_fate p ChildExamples.demo_caps with ChildModel.Runs c => Some c | _ => None end
  | None => None
  end.
Definition members (caps : gset Z) : list Z := List.filter (fun z => bool_decide (z ∈ caps)) (map Z.of_nat (seq 0 64)).
(** Permitted, effective, inheritable and ambient capabilities *)
Definition sets_of (files : list (option yaml)) (name : string) : option (list Z * list Z * list Z * list Z) :=
  match running files name with
  | Some c => let k := ChildModel.ch_cred c in Some (members (ChildModel.c_prm k), members (ChildModel.c_eff k), members (ChildModel.c_inh k), members (ChildModel.c_amb k))
  | None => None
  end.
(** CAP_KILL is 5 and CAP_NET_RAW 13. *)
Example test_capabilities :
  sets_of files_capabilities "some-caps" = Some ([5; 13], [5; 13], [5; 13], [5; 13])%Z /\
  sets_of files_capabilities "no-caps" = Some ([], [], [], [])%Z /\
  sets_of files_capabilities "root-gets-all-caps" =
    Some (members ChildExamples.demo_caps, members ChildExamples.demo_caps, [5; 13], [5; 13])%Z /\
  match running files_capabilities "some-caps" with Some c => ChildModel.c_ruid (ChildModel.ch_cred c) = 1409%Z | None => False end.
Proof. vm_compute. repeat split. Qed.
(** CAP_CHOWN 0, CAP_DAC_OVERRIDE 1, CAP_NET_BIND_SERVICE 10 *)
Example test_drop_in_configuration_capabilities :
  sets_of files_drop_in_configuration "program" = Some ([0; 1; 10], [0; 1; 10], [0; 1; 10], [0; 1; 10])%Z.
Proof. vm_compute. reflexivity. Qed.
Example test_different_workdir : match running files_different_workdir "first" with Some c => ChildModel.ch_dir c = "/tmp" | None => False end.
Proof. vm_compute. reflexivity. Qed.
Example test_supplementary_groups_are_empty :
  match running files_supplementary_groups_are_empty "first" with
  | Some c => let k := ChildModel.ch_cred c in ChildModel.c_groups k = [1409%Z] /\ ChildModel.c_ruid k = 1409%Z /\ ChildModel.c_rgid k = 1409%Z
  | None => False
  end.
Proof. vm_compute. repeat split. Qed.

(** ** Executions *)
Definition launched_state (files : list (option yaml)) : option sys :=
  match run (test_machine files) with
  | Ret (EntersLoop _ a) => Some (initial (a_processes a) (a_dep a) (a_cron a) demo_others)
  | _ => None
  end.

(** Programs that do what the tests make them do: [says] is what a notify program that is
    starting sends; when none has anything to say, all running programs end, with the
    code [code].  Forks get consecutive numbers. *)
Section driver.
Context (says : string -> option string) (code : string -> Z).
Definition starts (s : sys) : Z := Z.of_nat (length (List.filter (fun ev => match ev with EStart _ _ => true | _ => false end) (s_hist s))).
Definition name_of_pid (s : sys) (pid : Z) : string :=
  match find (fun p => (p_pid p =? pid)%Z) (g_procs (s_g s)) with Some p => p_name p | None => "" end.
Definition pending (s : sys) : list (string * Z) :=
  flat_map (fun p => match p_type p, p_state p, says (p_name p) with RNotify, Starting, Some text => [(text, p_pid p)] | _, _, _ => [] end) (g_procs (s_g s)).
Definition next_ops (s : sys) : list op :=
  match s_pc s with
  | AtHead => [CHead]
  | AtSpawnDep => let n := starts s in [CSpawnDep (fork (100 + n) (1000 + 2 * n) (1001 + 2 * n))]%Z
  | AtSpawnCron => [CSpawnCron midnight ForkFailed]
  | AtPoll =>
      match pending s with
      | (text, pid) :: _ => batch [msg text pid] []
      | [] =>
          let fds := map fst (map_to_list (k_pipes (s_k s))) in
          let pids := map fst (List.filter (fun x => match snd x with KChild => true | _ => false end) (map_to_list (k_procs (s_k s)))) in
          map KHangup fds ++ map (fun pid => KExit pid (XExit (code (name_of_pid s pid)))) pids ++
          batch (map closed (take 8 fds) ++ [sig SIGCHLD]) pids
      end
  | _ => []
  end.
Fixpoint drive (fuel : nat) (s : sys) : sys :=
  match fuel with
  | O => s
  | S fuel => match next_ops s with [] => s | ops => match execute demo_env s ops with Some s' => drive fuel s' | None => s end end
  end.
End driver.

(** The messages the tests look for. *)
Inductive message := Spawned (name : string) | Started (name : string) | PidChanged (name : string) | Status (name text : string)
  | Exited (name : string) | Crashed (name : string) (rc : Z) | GoesToSleep (name : string) | Zombie (pid : Z) | Refused (name : string) | Postponed (name : string) | Exiting (code : Z).
Definition messages_of (s : sys) : list message :=
  let name i := match nth_error (g_procs (s_g s)) i with Some p => p_name p | None => "" end in
  let is_job i := match nth_error (g_procs (s_g s)) i with Some p => match p_type p with RCronjob => true | _ => false end | None => false end in
  flat_map (fun ev =>
    match ev with
    | EStart i _ => [Spawned (name i)]
    | EEnd i _ rc => [if (rc =? 0)%Z then if is_job i then GoesToSleep (name i) else Exited (name i) else Crashed (name i) rc]
    | ENotify i _ vars => flat_map (fun kv => if String.eqb (fst kv) "READY" then [Started (name i)] else
        if String.eqb (fst kv) "MAINPID" then [PidChanged (name i)] else if String.eqb (fst kv) "STATUS" then [Status (name i) (snd kv)] else []) vars
    | EUnknown pid _ => [Zombie pid]
    | ERefused i => [Refused (name i)]
    | ESkipped i => [Postponed (name i)]
    | EExit c => [Exiting c]
    | _ => []
    end) (s_hist s).
Definition trace (files : list (option yaml)) (says : string -> option string) (code : string -> Z) : option (list message) :=
  match launched_state files with Some s => Some (messages_of (drive says code 60 s)) | None => None end.
Definition silent (name : string) : option string := None.
Definition succeeds (name : string) : Z := 0%Z.

Example test_conf_directory :
  trace files_conf_directory silent succeeds = Some [Spawned "first"; Exited "first"; Spawned "second"; Exited "second"; Exiting 0].
Proof. vm_compute. reflexivity. Qed.
Example test_children_can_handle_sigchld :
  trace files_children_can_handle_sigchld silent succeeds = Some [Spawned "child"; Exited "child"; Exiting 0].
Proof. vm_compute. reflexivity. Qed.
Example test_cronjobs_between_regular_programs :
  trace files_cronjobs_between_regular_programs silent succeeds = Some [Spawned "first"; Exited "first"; Spawned "second"; Exited "second"; Exiting 0].
Proof. vm_compute. reflexivity. Qed.
Example test_path_lookup : trace files_path_lookup silent succeeds = Some [Spawned "sh"; Exited "sh"; Exiting 0].
Proof. vm_compute. reflexivity. Qed.
Example test_single_dependency :
  trace files_single_dependency silent succeeds = Some [Spawned "ping"; Exited "ping"; Spawned "failping"; Exited "failping"; Exiting 0].
Proof. vm_compute. reflexivity. Qed.
Example test_exit_on_crash :
  trace files_exit_on_crash silent (fun n => if String.eqb n "first" then 42%Z else 0%Z) = Some [Spawned "first"; Crashed "first" 42; Exiting 6].
Proof. vm_compute. reflexivity. Qed.

(** Several programs at a time: the tests ask for some messages in some order.
    [in_order wanted l]: the messages [wanted] appear in [l], in this order. *)
Global Instance message_eq_dec : EqDecision message.
Proof. solve_decision. Defined.
Fixpoint in_order (wanted l : list message) : bool :=
  match wanted, l with
  | [], _ => true
  | _, [] => false
  | m :: wanted', x :: l' => if bool_decide (m = x) then in_order wanted' l' else in_order wanted l'
  end.
Definition all_in_order (wanted : list (list message)) (r : option (list message)) : bool :=
  match r with Some l => forallb (fun w => in_order w l) wanted | None => false end.

Example test_drop_in_configuration :
  all_in_order
    (let finish := [Spawned "program"; Exited "program"] in
     let exit := [Exiting 0] in
     flat_map (fun a => map (fun b => [Spawned a; Exited a] ++ finish ++ [Spawned b; Exited b] ++ exit) ["echo-before-1"; "echo-before-2"]) ["echo-after-1"; "echo-after-2"])
    (trace files_drop_in_configuration silent succeeds) = true.
Proof. vm_compute. reflexivity. Qed.
Example test_full_test :
  all_in_order
    (map (fun n => [Spawned "first"; Exited "first"; Spawned n; Exited n; Spawned "fourth"; Exited "fourth"; Exiting 0]) ["second"; "third"])
    (trace files_full_test silent succeeds) = true.
Proof. vm_compute. reflexivity. Qed.
(** src/programs/harness.rs:109-127 sends readiness and status as two messages; here both
    are lines of one. *)
Definition notify_says (name : string) : option string :=
  if String.eqb name "first" then Some ("READY=1" +:+ nl)
  else if String.eqb name "status-publisher" then Some ("STATUS=test status" +:+ nl +:+ "READY=1" +:+ nl) else None.
Example test_notify_processes :
  all_in_order
    [[Spawned "first"; Started "first"; Spawned "second"; Exited "first"; Exiting 0];
     [Spawned "first"; Started "first"; Spawned "second"; Exited "second"; Exiting 0];
     [Spawned "status-publisher"; Status "status-publisher" "test status"; Exited "status-publisher"; Exiting 0];
     [Spawned "status-publisher"; Started "status-publisher"; Exited "status-publisher"; Exiting 0];
     [Spawned "harness"; Exited "harness"; Exiting 0]]
    (trace files_notify_processes notify_says succeeds) = true.
Proof. vm_compute. reflexivity. Qed.

(** Executions given step by step *)
Local Open Scope Z_scope.
Local Open Scope list_scope.
Definition executed (files : list (option yaml)) (ops : list op) : option (list message) :=
  match launched_state files with
  | Some s => match execute demo_env s ops with Some s' => Some (messages_of s') | None => None end
  | None => None
  end.

(** The two programs fork a process each and name it as their main process; they end
    first, the processes named later. *)
Example test_notify_changed_mainpid :
  all_in_order
    [[Spawned "program"; Started "program"; Exited "program"; Exiting 0]; [Spawned "program"; PidChanged "program"; Exited "program"; Exiting 0];
     [Spawned "program2"; Started "program2"; Exited "program2"; Exiting 0]; [Spawned "program2"; PidChanged "program2"; Exited "program2"; Exiting 0]]
    (executed files_notify_changed_mainpid
      ([CHead; CSpawnDep (fork 10 20 21); CSpawnDep (fork 11 22 23)] ++ no_start ++ [KFork 30; KFork 31] ++
       batch [msg ("MAINPID=31" +:+ nl +:+ "READY=1") 10] [] ++ [CHead] ++ no_start ++
       batch [msg ("READY=1" +:+ nl +:+ "MAINPID=30") 11] [] ++ [CHead] ++ no_start ++
       [KAdopt 30; KAdopt 31; KExit 10 (XExit 0); KExit 11 (XExit 0)] ++ batch [sig SIGCHLD] [10; 11] ++ [CHead] ++ no_start ++
       [KExit 30 (XExit 0); KExit 31 (XExit 0)] ++ map KHangup [20; 21; 22; 23]%Z ++
       batch (map closed [20; 21; 22; 23]%Z ++ [sig SIGCHLD]) [30; 31] ++ [CHead; CHead])) = true.
Proof. vm_compute. reflexivity. Qed.
(** The shells end at once, what they started in the background later.  Cinit is still
    there because the pipes are open as long as the latter run. *)
Example test_zombies_are_reaped :
  all_in_order
    [[Spawned "bash1"; Exited "bash1"; Zombie 30; Exiting 0]; [Spawned "bash2"; Exited "bash2"; Zombie 31; Exiting 0]]
    (executed files_zombies_are_reaped
      ([CHead; CSpawnDep (fork 10 20 21); CSpawnDep (fork 11 22 23)] ++ no_start ++ [KFork 30; KFork 31; KExit 10 (XExit 0); KExit 11 (XExit 0); KAdopt 30; KAdopt 31] ++
       batch [sig SIGCHLD] [10; 11] ++ [CHead] ++ no_start ++
       [KExit 30 (XExit 0); KHangup 20; KHangup 21] ++ batch [closed 20; closed 21; sig SIGCHLD] [30] ++ [CHead] ++ no_start ++
       [KExit 31 (XExit 0); KHangup 22; KHangup 23] ++ batch [closed 22; closed 23; sig SIGCHLD] [31] ++ [CHead; CHead])) = true.
Proof. vm_compute. reflexivity. Qed.
(** The times of the test: [waiter] runs 125 s, [dependency] 65 s, [non-reentrant] 62 s. *)
Definition due_round (now pid : Z) : list op :=
  [CHead; CSpawnDep ForkFailed] ++ map (fun i => CSpawnCron now (fork (pid + i) (100 + 10 * pid + 2 * i) (101 + 10 * pid + 2 * i))) [0; 1; 2; 3] ++ [CSpawnCron now ForkFailed].
Definition hang (fds : list Z) : list op := map KHangup fds.
Example test_cronjob :
  all_in_order
    [[Spawned "waiter"; Spawned "echo"; GoesToSleep "echo"; Spawned "echo"; GoesToSleep "echo"; Exited "waiter"; Exiting 0];
     [Spawned "dependency"; Spawned "non-reentrant"; Refused "non-reentrant"; GoesToSleep "non-reentrant"; Exited "waiter"; Exiting 0];
     [Spawned "dependency"; Spawned "independent-cronjob"; GoesToSleep "independent-cronjob"; Spawned "independent-cronjob"; GoesToSleep "independent-cronjob"; Exited "waiter"];
     [Postponed "dependent-cronjob"; Exited "dependency"; Spawned "dependent-cronjob"; GoesToSleep "dependent-cronjob"; Exited "waiter"; Exiting 0]]
    (executed files_cronjob
      ([CHead] ++ map (fun i => CSpawnDep (fork (10 + i) (20 + 2 * i) (21 + 2 * i))) [0; 1; 2; 3; 4] ++ no_start ++ [CPoll None; CWait None] ++
       (* 1:00 *) due_round (minute 1 + 10) 30 ++ [KExit 30 (XExit 0); KExit 33 (XExit 0)] ++ hang [400; 401; 406; 407] ++
       batch (map closed [400; 401; 406; 407] ++ [sig SIGCHLD]) [30; 33] ++
       (* 1:05 *) [CHead; CSpawnDep ForkFailed; CSpawnCron (minute 1 + 5 * NS) ForkFailed; KExit 12 (XExit 0)] ++ hang [24; 25] ++
       batch (map closed [24; 25] ++ [sig SIGCHLD]) [12] ++
       [CHead; CSpawnDep ForkFailed; CSpawnDep ForkFailed; CSpawnCron (minute 1 + 5 * NS) ForkFailed; CPoll None; CWait None] ++
       (* 2:00 *) due_round (minute 2 + 10) 40 ++ [KExit 40 (XExit 0); KExit 42 (XExit 0); KExit 43 (XExit 0)] ++ hang [500; 501; 504; 505; 506; 507] ++
       batch (map closed [500; 501; 504; 505; 506; 507] ++ [sig SIGCHLD]) [40; 42; 43] ++
       (* 2:02 *) [CHead; CSpawnDep ForkFailed; CSpawnCron (minute 2 + 2 * NS) ForkFailed; KExit 31 (XExit 0)] ++ hang [402; 403] ++
       batch (map closed [402; 403] ++ [sig SIGCHLD]) [31] ++
       (* 2:05 *) [CHead; CSpawnDep ForkFailed; CSpawnCron (minute 2 + 5 * NS) ForkFailed; KExit 13 (XExit 0)] ++ hang [26; 27] ++
       batch (map closed [26; 27] ++ [sig SIGCHLD]) [13] ++ [CHead; CHead])) = true.
Proof. vm_compute. reflexivity. Qed.
