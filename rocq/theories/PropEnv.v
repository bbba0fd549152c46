(** Properties C06 - C11: identity, environment and arguments of a program. *)
From stdpp Require Import gmap strings.
From Coq Require Import Ascii ZArith List Bool Lia.
From Verif Require Import Base RStr ConfigModel ProcessModel EnvModel SpecEnv EnvProofs.
Import ListNotations.
Local Open Scope string_scope.
Local Open Scope list_scope.

(** A world and a program used as examples.  The template engine replaces "{{X}}" by
    the value of X, and fails on everything else with a brace. *)
Definition example_user (i : Z) : option (option user) :=
  if (i =? 0)%Z then Some (Some {| u_uid := 0; u_name := "root"; u_dir := "/root" |})
  else if (i =? 7)%Z then Some (Some {| u_uid := 7; u_name := "web"; u_dir := "/srv/web" |})
  else Some None.
Definition example_world (env : string -> option string) : world :=
  {| w_uid := example_user;
     w_user := fun n => if String.eqb n "web" then example_user 7 else if String.eqb n "broken" then None else Some None;
     w_gid := fun i => if (i =? 0)%Z then Some (Some {| g_gid := 0 |}) else Some None;
     w_group := fun n => Some None;
     w_env := env;
     w_render := fun _ m t => if String.eqb t "{{X}}" then m !! "X" else if contains "{" t then None else Some t;
     w_order := @rev _ |}.
Definition example_env (k : string) : option string :=
  if String.eqb k "PATH" then Some "/bin" else if String.eqb k "SECRET" then Some "s3cret"
  else if String.eqb k "HOME" then Some "/nowhere" else None.
Definition example_program : proc_config :=
  {| pc_name := "web"; pc_path := Some "/bin/web"; pc_args := ["{{X}}"; "{%"; "-v"]; pc_workdir := None;
     pc_type := Notify; pc_uid := None; pc_gid := None; pc_user := Some "web"; pc_group := None; pc_before := [];
     pc_after := []; pc_pty := false; pc_caps := [];
     pc_env := [[("X", Some "1")]; [("PATH", None)]; [("MISSING", None)]; [("X", Some "2")]; [("NOTIFY_SOCKET", Some "no")]; [("Y", Some "{{X}}")]] |}.
Definition example_process : process :=
  {| p_name := "web"; p_path := "/bin/web"; p_args := ["/bin/web"; "2"; "{%"; "-v"]; p_workdir := "."; p_uid := 7;
     p_gid := 0; p_pty := false; p_caps := [];
     p_env := ["SHELL=/bin/sh"; "USER=web"; "Y=2"; "NOTIFY_SOCKET=/run/cinit-notify.socket"; "LOGNAME=web";
               "LANGUAGE="; "LANG="; "TERM="; "X=2"; "HOME=/srv/web"; "PWD=/srv/web"; "PATH=/bin"];
     p_state := Blocked; p_type := RNotify; p_pid := 0; p_status := "" |}.

(** * C06: which user and group a program runs as *)
Theorem C06_user_selected {T} id name (by_id : Z -> option (option T)) by_name t :
  map_id id name by_id by_name = Ok t <-> selects by_id by_name id name t.
Proof. exact (map_id_spec id name by_id by_name t). Qed.
Print Assumptions C06_user_selected.

Theorem C06_user_rejected {T} id name (by_id : Z -> option (option T)) by_name :
  map_id id name by_id by_name = Err UserGroupInvalid <-> forall t, ~ selects by_id by_name id name t.
Proof. exact (map_id_err id name by_id by_name). Qed.
Print Assumptions C06_user_rejected.

Theorem C06_program_identity w c p :
  (forall i u, w_uid w i = Some (Some u) -> u_uid u = i) ->
  (forall i g, w_gid w i = Some (Some g) -> g_gid g = i) ->
  process_from w c = Ret (Ok p) ->
  (exists u, selects (w_uid w) (w_user w) (pc_uid c) (pc_user c) u /\ p_uid p = u_uid u) /\
  (exists g, selects (w_gid w) (w_group w) (pc_gid c) (pc_group c) g /\ p_gid p = g_gid g) /\
  (forall i, pc_uid c = Some i -> p_uid p = i) /\ (pc_uid c = None -> pc_user c = None -> p_uid p = 0%Z) /\
  (forall i, pc_gid c = Some i -> p_gid p = i) /\ (pc_gid c = None -> pc_group c = None -> p_gid p = 0%Z).
Proof. exact (program_identity w c p). Qed.
Print Assumptions C06_program_identity.

(** When a program is refused at all. *)
Theorem C06_program_rejected w c : (exists e, process_from w c = Ret (Err e)) <->
  (is_cronjob (pc_type c) = true /\ pc_before c <> []) \/
  (forall u, ~ selects (w_uid w) (w_user w) (pc_uid c) (pc_user c) u) \/
  (forall g, ~ selects (w_gid w) (w_group w) (pc_gid c) (pc_group c) g) \/ pc_path c = None.
Proof. exact (process_from_rejects w c). Qed.
Print Assumptions C06_program_rejected.

Example C06_example :
  selects example_user (w_user (example_world example_env)) None (Some "web") {| u_uid := 7; u_name := "web"; u_dir := "/srv/web" |} /\
  map_id (Some 7%Z) (Some "web") example_user (w_user (example_world example_env)) = Err UserGroupInvalid /\
  map_id None (Some "broken") example_user (w_user (example_world example_env)) = Err UserGroupInvalid /\
  map_id (Some 8%Z) None example_user (w_user (example_world example_env)) = Err UserGroupInvalid.
Proof. split; [apply sel_name|]; vm_compute; auto. Qed.

(** * C07: the nine well-known variables *)
(** Missing from the full claim: env keys that contain "=", see [C08_equals_in_key_refuted]. *)
Theorem C07_well_known_partial w c p : any_order w -> plain_keys c -> process_from w c = Ret (Ok p) ->
  exists u, selects (w_uid w) (w_user w) (pc_uid c) (pc_user c) u /\
  forall k, In k nine ->
    (exists v, sees (p_env p) k v) /\
    ((forall o, In (k, o) (env_entries c) -> ~ binds w (k, o)) -> sees (p_env p) k (default_value w u k)).
Proof. exact (well_known w c p). Qed.
Print Assumptions C07_well_known_partial.

Example C07_example : any_order (example_world example_env) /\ plain_keys example_program /\
  process_from (example_world example_env) example_program = Ret (Ok example_process) /\
  sees (p_env example_process) "HOME" "/srv/web" /\ sees (p_env example_process) "TERM" "".
Proof.
  assert (O : any_order (example_world example_env)) by (intros l; symmetry; apply Permutation_rev).
  assert (P : plain_keys example_program).
  { intros k (o & H). cbn in H. unfold no_eq.
    repeat (destruct H as [H|H]; [inversion H; subst; cbn; intuition discriminate|]). destruct H. }
  assert (E : process_from (example_world example_env) example_program = Ret (Ok example_process)) by (vm_compute; reflexivity).
  split; [auto|]. split; [auto|]. split; [auto|].
  destruct (C07_well_known_partial _ _ _ O P E) as (u & Hu & H).
  assert (Eu : u = {| u_uid := 7; u_name := "web"; u_dir := "/srv/web" |}) by (inversion Hu; subst; vm_compute in *; congruence).
  subst u. split.
  - apply (H "HOME"); [cbn; tauto|]. intros o Ho. cbn in Ho. intuition discriminate.
  - apply (H "TERM"); [cbn; tauto|]. intros o Ho. cbn in Ho. intuition discriminate.
Qed.

(** * C08: cinit's environment does not leak *)
Theorem C08_no_leak w c p e : any_order w -> process_from w c = Ret (Ok p) -> In e (p_env p) ->
  exists k v, e = binding k v /\
    (In k nine \/ named c k \/ (k = "NOTIFY_SOCKET" /\ pc_type c = Notify)).
Proof. exact (no_leak w c p e). Qed.
Print Assumptions C08_no_leak.

Theorem C08_one_per_variable_partial w c p : any_order w -> plain_keys c -> process_from w c = Ret (Ok p) ->
  NoDup (map variable (p_env p)).
Proof. exact (one_per_variable w c p). Qed.
Print Assumptions C08_one_per_variable_partial.

Theorem C08_noninterference w w' c : same_but_env w w' ->
  (forall k, In k ["LANG"; "LANGUAGE"; "PATH"; "TERM"] -> w_env w k = w_env w' k) ->
  (forall k, In (k, None) (env_entries c) -> w_env w k = w_env w' k) ->
  process_from w c = process_from w' c.
Proof. exact (env_noninterference w w' c). Qed.
Print Assumptions C08_noninterference.

Example C08_example : same_but_env (example_world example_env) (example_world (fun k => if String.eqb k "PATH" then Some "/bin" else None)) /\
  process_from (example_world (fun k => if String.eqb k "PATH" then Some "/bin" else None)) example_program = Ret (Ok example_process).
Proof. split; [repeat split|vm_compute; reflexivity]. Qed.

(** A key with "=" gives a second entry for a well-known variable. *)
Definition equals_program : proc_config :=
  {| pc_name := "web"; pc_path := Some "/bin/web"; pc_args := []; pc_workdir := None;
     pc_type := Oneshot; pc_uid := None; pc_gid := None; pc_user := None; pc_group := None; pc_before := [];
     pc_after := []; pc_pty := false; pc_caps := []; pc_env := [[("HOME=x", Some "1")]] |}.
Theorem C08_equals_in_key_refuted : exists w c p e e', any_order w /\ process_from w c = Ret (Ok p) /\
  In e (p_env p) /\ In e' (p_env p) /\ e <> e' /\ variable e = "HOME" /\ variable e' = "HOME".
Proof.
  exists (example_world example_env), equals_program. eexists. exists "HOME=/root", "HOME=x=1".
  split; [intros l; symmetry; apply Permutation_rev|]. split; [vm_compute; reflexivity|].
  cbn. repeat split; try tauto. discriminate.
Qed.
Print Assumptions C08_equals_in_key_refuted.

(** * C09: the env list is processed in order *)
Theorem C09_env_after w c p : any_order w -> process_from w c = Ret (Ok p) ->
  exists u m, selects (w_uid w) (w_user w) (pc_uid c) (pc_user c) u /\ env_after w u (env_entries c) m /\
    presents (p_env p) (match pc_type c with Notify => <["NOTIFY_SOCKET" := "/run/cinit-notify.socket"]> m | _ => m end).
Proof. exact (program_env_after w c p). Qed.
Print Assumptions C09_env_after.

Theorem C09_last_wins w u es m : env_after w u es m -> forall k es1 o es2,
  es = es1 ++ (k, o) :: es2 -> binds w (k, o) -> (forall o', In (k, o') es2 -> ~ binds w (k, o')) ->
  exists m1, env_after w u es1 m1 /\
    match o with
    | Some raw => exists v, rendered w k m1 raw v /\ m !! k = Some v
    | None => m !! k = w_env w k
    end.
Proof. exact (env_after_last w u es m). Qed.
Print Assumptions C09_last_wins.

Theorem C09_untouched w u es m k : env_after w u es m -> (forall o, In (k, o) es -> ~ binds w (k, o)) ->
  m !! k = if decide (In k nine) then Some (default_value w u k) else None.
Proof. exact (env_after_untouched w u es m k). Qed.
Print Assumptions C09_untouched.

(** X is bound twice, the template of Y sees the second value, PATH is forwarded and
    MISSING skipped. *)
Example C09_example : In "X=2" (p_env example_process) /\ In "Y=2" (p_env example_process) /\
  In "PATH=/bin" (p_env example_process) /\ ~ In "MISSING=" (p_env example_process) /\ ~ In "X=1" (p_env example_process).
Proof. cbn. intuition discriminate. Qed.

(** * C10: the arguments *)
Theorem C10_arguments w c p : any_order w -> process_from w c = Ret (Ok p) ->
  exists m, presents (p_env p) m /\
  (exists path, pc_path c = Some path /\ nth_error (p_args p) 0 = Some path /\ p_path p = path) /\
  length (p_args p) = S (length (pc_args c)) /\
  (forall i x, nth_error (pc_args c) i = Some x ->
    exists v, nth_error (p_args p) (S i) = Some v /\ rendered w ("Argument " +:+ show_Z (Z.of_nat i)) m x v).
Proof. exact (program_args w c p). Qed.
Print Assumptions C10_arguments.

Example C10_example : exists p, process_from (example_world example_env) example_program = Ret (Ok p) /\
  p_args p = ["/bin/web"; "2"; "{%"; "-v"].
Proof. eexists. split; [vm_compute; reflexivity|reflexivity]. Qed.

(** Building a program crashes exactly when a string contains a NUL byte. *)
Theorem C10_crash_iff_nul w c : any_order w ->
  (exists m, process_from w c = Panic m) <->
  ~ (is_cronjob (pc_type c) = true /\ pc_before c <> []) /\
  (exists u, selects (w_uid w) (w_user w) (pc_uid c) (pc_user c) u /\ contains_nul w c u) /\
  (exists g, selects (w_gid w) (w_group w) (pc_gid c) (pc_group c) g) /\ pc_path c <> None.
Proof. exact (process_from_panics w c). Qed.
Print Assumptions C10_crash_iff_nul.

(** * C11: NOTIFY_SOCKET *)
(** Missing from the full claim: env keys that contain "=", see [C08_equals_in_key_refuted]. *)
Theorem C11_notify_socket_partial w c p : any_order w -> process_from w c = Ret (Ok p) ->
  (pc_type c = Notify -> In "NOTIFY_SOCKET=/run/cinit-notify.socket" (p_env p) /\
     (plain_keys c -> sees (p_env p) "NOTIFY_SOCKET" "/run/cinit-notify.socket")) /\
  (pc_type c <> Notify -> forall v, In (binding "NOTIFY_SOCKET" v) (p_env p) -> plain_keys c -> named c "NOTIFY_SOCKET").
Proof. exact (notify_socket w c p). Qed.
Print Assumptions C11_notify_socket_partial.

Example C11_example : named example_program "NOTIFY_SOCKET" /\
  In "NOTIFY_SOCKET=/run/cinit-notify.socket" (p_env example_process) /\ ~ In "NOTIFY_SOCKET=no" (p_env example_process).
Proof. split; [exists (Some "no"); cbn; tauto|]. cbn. intuition discriminate. Qed.
