(** Property C74: which file is executed for a program. *)
From stdpp Require Import gmap strings.
From Coq Require Import Ascii ZArith List Bool Lia.
From Verif Require Import Base ProcessModel ChildModel FdModel SpecChild ChildExamples SearchModel SpecSearch SearchProofs.
Import ListNotations.
Local Open Scope string_scope.
Local Open Scope list_scope.
Local Open Scope Z_scope.

Theorem C74_file_executed h fault p t0 s x mask ign dir k c fs path : inherited t0 -> fd_reachable t0 s ->
  launch h fault p s x mask ign dir k (Runs c) -> sees h fs path p ->
  exists what args, file_of fs path p what args /\ ch_dir c = p_workdir p /\ exists env, ch_image c = Some (p_path p, p_args p, env) /\ env = p_env p.
Proof. exact (fun I R L V => file_executed h fault p t0 s x mask ign dir k (Runs c) I R L fs path V c eq_refl). Qed.
Print Assumptions C74_file_executed.

Theorem C74_call_executes_it fs path p what args : exec_child fs path p = inl (what, args) <-> file_of fs path p what args.
Proof. exact (exec_child_spec fs path p what args). Qed.
Print Assumptions C74_call_executes_it.

Theorem C74_only_one_file fs path p what args what' args' : file_of fs path p what args -> file_of fs path p what' args' -> what = what' /\ args = args'.
Proof. exact (file_unique fs path p what args what' args'). Qed.
Print Assumptions C74_only_one_file.

Theorem C74_no_file h fault p t0 s x mask ign dir k f fs path : inherited t0 -> fd_reachable t0 s ->
  launch h fault p s x mask ign dir k f -> sees h fs path p -> (forall what args, ~ file_of fs path p what args) -> gave_up f.
Proof. exact (fun I R L V => not_found h fault p t0 s x mask ign dir k f I R L fs path V). Qed.
Print Assumptions C74_no_file.

Theorem C74_reason fs path p l : tried (search_path path) (p_path p) l -> ~ within "/" (p_path p) -> (forall x, In x l -> passed_over fs (p_workdir p) x) ->
  ((exists x, In x l /\ as_shell fs (p_workdir p) x = Some Denied) -> exec_child fs path p = inr Denied) /\
  ((forall x, In x l -> as_shell fs (p_workdir p) x = Some NotThere) -> exec_child fs path p = inr NotThere).
Proof. exact (reason fs path p l). Qed.
Print Assumptions C74_reason.

Theorem C74_own_environment_irrelevant fs path p q what args : p_path p = p_path q -> p_workdir p = p_workdir q -> p_args p = p_args q ->
  file_of fs path p what args -> file_of fs path q what args.
Proof. exact (same_file fs path p q what args). Qed.
Print Assumptions C74_own_environment_irrelevant.

(** Files: [/usr/bin/tool] and [/opt/app/tool] can be executed, [/srv/bin/tool] is a
    script without an interpreter line, [/sbin/tool] may not be executed. *)
Definition demo_files (dir file : string) : option errno :=
  let name := if String.prefix "/" file then file else dir +:+ "/" +:+ file in
  if String.eqb name "/bin/sh" then None else if String.eqb name "/usr/bin/tool" then None else if String.eqb name "/opt/app/tool" then None
  else if String.eqb name "/srv/bin/tool" then Some NoFormat else if String.eqb name "/sbin/tool" then Some Denied else Some NotThere.
Definition tool (path : string) (env : list string) : process :=
  {| p_name := "tool"; p_path := path; p_args := [path; "-v"]; p_workdir := "/srv"; p_uid := 33; p_gid := 33; p_pty := false; p_caps := [];
     p_env := env; p_state := Blocked; p_type := ROneshot; p_pid := 0; p_status := "" |}.
(** The host of the examples, with these files. *)
Definition file_host (path : option string) (p : process) : host :=
  {| h_last := 40; h_uid := fun _ => true; h_gid := fun _ => true; h_setgroups := true; h_dir := fun d => true;
     h_exec := fun _ => match exec_child demo_files path p with inl _ => true | inr _ => false end;
     h_noroot := false; h_no_fixup := false; h_keep_locked := false; h_no_raise := false |}.
Lemma file_host_sees path p : sees (file_host path p) demo_files path p.
Proof. unfold sees, file_host. cbn. destruct (exec_child demo_files path p) as [r|e]; split; intros H; eauto; try discriminate. destruct H; discriminate. Qed.
Definition file_fate (path : option string) (p : process) : fate := child_side (file_host path p) nofault p 8 12 (demo_child (demo_cred demo_caps)).
Lemma file_launch path p : launch (file_host path p) nofault p demo_state demo_numbers [1; 15] ∅ "/" (demo_cred demo_caps) (file_fate path p).
Proof.
  unfold launch, file_fate, demo_child. destruct (forked demo_state demo_numbers) as [t|] eqn:E; [exists t; split; reflexivity|]. vm_compute in E. discriminate.
Qed.

(** A bare name is looked up in cinit's PATH, past a missing and a forbidden file, even
    though the program's own PATH names another directory; a relative path starts at
    the working directory, here with a script for the shell; without PATH in cinit's
    environment the default applies. *)
Definition cinit_path : option string := Some "/usr/local/bin:/sbin:/usr/bin:/opt/app".
Example C74_example_name : inherited demo_table /\ fd_reachable demo_table demo_state /\ sees (file_host cinit_path (tool "tool" ["PATH=/opt/app"])) demo_files cinit_path (tool "tool" ["PATH=/opt/app"]) /\
  launch (file_host cinit_path (tool "tool" ["PATH=/opt/app"])) nofault (tool "tool" ["PATH=/opt/app"]) demo_state demo_numbers [1; 15] ∅ "/" (demo_cred demo_caps)
    (file_fate cinit_path (tool "tool" ["PATH=/opt/app"])) /\
  runs_b (file_fate cinit_path (tool "tool" ["PATH=/opt/app"])) = true /\
  file_of demo_files cinit_path (tool "tool" ["PATH=/opt/app"]) "/usr/bin/tool" ["tool"; "-v"].
Proof.
  split; [exact demo_inherited|]. split; [exact demo_reachable|]. split; [apply file_host_sees|]. split; [apply file_launch|]. split; [vm_compute; reflexivity|].
  apply exec_child_spec. vm_compute. reflexivity.
Qed.
Example C74_example_relative : file_of demo_files cinit_path (tool "bin/tool" []) "/bin/sh" ["/bin/sh"; "bin/tool"; "-v"].
Proof. apply exec_child_spec. vm_compute. reflexivity. Qed.
Example C74_example_default : file_of demo_files None (tool "tool" ["PATH="]) "/usr/bin/tool" ["tool"; "-v"].
Proof. apply exec_child_spec. vm_compute. reflexivity. Qed.

Example C74_example_reason : tried (search_path (Some "/bin:/sbin:/lib")) "tool" ["/bin/tool"; "/sbin/tool"; "/lib/tool"] /\
  exec_child demo_files (Some "/bin:/sbin:/lib") (tool "tool" []) = inr Denied /\ exec_child demo_files (Some "/bin:/lib") (tool "tool" []) = inr NotThere.
Proof.
  split; [|split; vm_compute; reflexivity]. split; [discriminate|]. right. split; [rewrite <- slash_spec; discriminate|]. split; [cbn; lia|].
  exists ["/bin"; "/sbin"; "/lib"]. split; [apply (elements_parts "/bin:/sbin:/lib")|reflexivity].
Qed.

(** The directories a program is told to search are not those searched for it. *)
Example C74_example_own_path :
  launch (file_host (Some "/usr/local/bin") (tool "tool" ["PATH=/opt/app"])) nofault (tool "tool" ["PATH=/opt/app"]) demo_state demo_numbers [1; 15] ∅ "/" (demo_cred demo_caps)
    (file_fate (Some "/usr/local/bin") (tool "tool" ["PATH=/opt/app"])) /\
  sees (file_host (Some "/usr/local/bin") (tool "tool" ["PATH=/opt/app"])) demo_files (Some "/usr/local/bin") (tool "tool" ["PATH=/opt/app"]) /\
  demo_files "/srv" "/opt/app/tool" = None /\
  (forall what args, ~ file_of demo_files (Some "/usr/local/bin") (tool "tool" ["PATH=/opt/app"]) what args) /\
  exits_b (file_fate (Some "/usr/local/bin") (tool "tool" ["PATH=/opt/app"])) = true.
Proof.
  split; [apply file_launch|]. split; [apply file_host_sees|]. split; [reflexivity|]. split; [|vm_compute; reflexivity].
  intros what args K. apply exec_child_spec in K. vm_compute in K. discriminate.
Qed.
