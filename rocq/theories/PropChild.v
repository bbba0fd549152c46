(** Properties C47 to C53: what a program finds when it is executed. *)
From stdpp Require Import gmap strings.
From Coq Require Import ZArith List Bool Lia.
From Verif Require Import Base ProcessModel ChildModel FdModel SpecChild ChildProofs FdProofs ChildThms ChildExamples.
Import ListNotations.
Local Open Scope string_scope.
Local Open Scope list_scope.
Local Open Scope Z_scope.

(** * C47: capabilities *)
Theorem C47_user_has_configured_capabilities h fault p t0 s x mask ign dir k c : inherited t0 -> fd_reachable t0 s ->
  launch h fault p s x mask ign dir k (Runs c) -> p_uid p <> 0 ->
  exactly_configured p (c_eff (ch_cred c)) /\ exactly_configured p (c_prm (ch_cred c)) /\
  exactly_configured p (c_inh (ch_cred c)) /\ exactly_configured p (c_amb (ch_cred c)) /\ c_bnd (ch_cred c) = c_bnd k.
Proof. exact (fun I R L => caps_nonroot h fault p t0 s x mask ign dir k (Runs c) I R L c eq_refl). Qed.
Print Assumptions C47_user_has_configured_capabilities.

Theorem C47_root_keeps_capabilities h fault p t0 s x mask ign dir k c : inherited t0 -> fd_reachable t0 s ->
  launch h fault p s x mask ign dir k (Runs c) -> p_uid p = 0 -> h_noroot h = false ->
  (forall z, z ∈ c_prm (ch_cred c) <-> z ∈ c_bnd k \/ configured p z) /\ c_eff (ch_cred c) = c_prm (ch_cred c) /\
  exactly_configured p (c_inh (ch_cred c)) /\ exactly_configured p (c_amb (ch_cred c)) /\ c_bnd (ch_cred c) = c_bnd k.
Proof. exact (fun I R L => caps_root h fault p t0 s x mask ign dir k (Runs c) I R L c eq_refl). Qed.
Print Assumptions C47_root_keeps_capabilities.

Theorem C47_missing_capability_prevents_start h fault p t0 s x mask ign dir k f z : inherited t0 -> fd_reachable t0 s ->
  launch h fault p s x mask ign dir k f -> configured p z -> z ∉ c_prm k \/ z ∉ c_inh k ∪ c_bnd k -> gave_up f.
Proof. exact (fun I R L C => not_granted h fault p t0 s x mask ign dir k f I R L z (or_introl C)). Qed.
Print Assumptions C47_missing_capability_prevents_start.

(** A web server running as user 33 with one capability; a root program; a program
    that asks for a capability the container does not have. *)
Definition web : process := demo_program "/bin/web" 33 ["CAP_NET_BIND_SERVICE"; "CAP_NONSENSE"; "CAP_NET_RAW"].
Definition admin : process := demo_program "/bin/sh" 0 ["CAP_NET_RAW"].
Definition clock : process := demo_program "/bin/ntpd" 33 ["CAP_SYS_TIME"].
Lemma web_launch : launch demo_host nofault web demo_state demo_numbers [1; 15] ∅ "/" (demo_cred demo_caps) (Runs (demo_runs web demo_caps)).
Proof. apply demo_runs_launch. vm_compute. reflexivity. Qed.
Lemma admin_launch : launch demo_host nofault admin demo_state demo_numbers [1; 15] ∅ "/" (demo_cred demo_caps) (Runs (demo_runs admin demo_caps)).
Proof. apply demo_runs_launch. vm_compute. reflexivity. Qed.

Example C47_example_user : inherited demo_table /\ fd_reachable demo_table demo_state /\
  launch demo_host nofault web demo_state demo_numbers [1; 15] ∅ "/" (demo_cred demo_caps) (Runs (demo_runs web demo_caps)) /\
  c_eff (ch_cred (demo_runs web demo_caps)) = list_to_set [10; 13].
Proof. split; [exact demo_inherited|]. split; [exact demo_reachable|]. split; [exact web_launch|]. decide_now. Qed.
Example C47_example_root :
  launch demo_host nofault admin demo_state demo_numbers [1; 15] ∅ "/" (demo_cred demo_caps) (Runs (demo_runs admin demo_caps)) /\
  c_eff (ch_cred (demo_runs admin demo_caps)) = demo_caps /\ c_inh (ch_cred (demo_runs admin demo_caps)) = {[13]}.
Proof. split; [exact admin_launch|]. split; decide_now. Qed.
Example C47_example_missing : launch demo_host nofault clock demo_state demo_numbers [1; 15] ∅ "/" (demo_cred demo_caps) (demo_fate clock demo_caps) /\
  configured clock 25 /\ 25 ∉ c_prm (demo_cred demo_caps) /\ demo_fate clock demo_caps = Exits 4 (demo_runs clock demo_caps).
Proof.
  split; [apply demo_launch|]. split; [exists "CAP_SYS_TIME"; split; [left; reflexivity|vm_compute; tauto]|]. split; [decide_now|]. apply demo_exits_launch. vm_compute. reflexivity.
Qed.

(** * C48: identity *)
Theorem C48_identity h fault p t0 s x mask ign dir k c : inherited t0 -> fd_reachable t0 s ->
  launch h fault p s x mask ign dir k (Runs c) -> dressed p c.
Proof. exact (fun I R L => proj1 (launch_runs h fault p t0 s x mask ign dir k (Runs c) I R L c eq_refl)). Qed.
Print Assumptions C48_identity.

Theorem C48_all_or_nothing h fault p t0 s x mask ign dir k f : inherited t0 -> fd_reachable t0 s ->
  launch h fault p s x mask ign dir k f -> (exists c, f = Runs c /\ dressed p c) \/ gave_up f.
Proof.
  exact (fun I R L => match launch_fate h fault p t0 s x mask ign dir k f I R L with
                      | or_introl (ex_intro _ c E) => or_introl (ex_intro _ c (conj E (proj1 (launch_runs h fault p t0 s x mask ign dir k f I R L c E))))
                      | or_intror G => or_intror G end).
Qed.
Print Assumptions C48_all_or_nothing.

Theorem C48_any_failing_step_prevents_start h fault p t0 s x mask ign dir k f i y : inherited t0 -> fd_reachable t0 s ->
  launch h fault p s x mask ign dir k f -> nth_error (setup_child p (n_out' x) (n_err' x)) i = Some y -> fallible y -> fault i = true -> gave_up f.
Proof. exact (fun I R L => any_fault h fault p t0 s x mask ign dir k f I R L i y). Qed.
Print Assumptions C48_any_failing_step_prevents_start.

Theorem C48_impossible_identity_prevents_start h fault p t0 s x mask ign dir k f : inherited t0 -> fd_reachable t0 s ->
  launch h fault p s x mask ign dir k f -> ~ can_dress h p -> gave_up f.
Proof. exact (cannot_dress h fault p t0 s x mask ign dir k f). Qed.
Print Assumptions C48_impossible_identity_prevents_start.

Definition lost : process := demo_program "/missing" 33 [].
Example C48_example : launch demo_host nofault web demo_state demo_numbers [1; 15] ∅ "/" (demo_cred demo_caps) (Runs (demo_runs web demo_caps)) /\
  c_groups (ch_cred (demo_runs web demo_caps)) = [33] /\ ch_mask (demo_runs web demo_caps) = [] /\
  launch demo_host nofault lost demo_state demo_numbers [1; 15] ∅ "/" (demo_cred demo_caps) (demo_fate lost demo_caps) /\ ~ can_dress demo_host lost.
Proof.
  split; [exact web_launch|]. split; [vm_compute; reflexivity|]. split; [vm_compute; reflexivity|]. split; [apply demo_launch|].
  intros (_ & H & _). vm_compute in H. discriminate.
Qed.
(** The sixth step is entering the working directory. *)
Example C48_example_step : nth_error (setup_child web 8 12) 5 = Some (CChdir "/srv") /\ fallible (CChdir "/srv").
Proof. split; [reflexivity|exact Logic.I]. Qed.

(** * C49: descriptors *)
Theorem C49_descriptors_of_program h fault p t0 s x mask ign dir k c : inherited t0 -> fd_reachable t0 s ->
  launch h fault p s x mask ign dir k (Runs c) -> forall fd, ch_fds c !! fd =
    if fd =? 1 then Some {| d_file := FWriter (f_count s) true; d_cloexec := false |}
    else if fd =? 2 then Some {| d_file := FWriter (f_count s) false; d_cloexec := false |}
    else match t0 !! fd with Some d => if d_cloexec d then None else Some d | None => None end.
Proof. exact (fun I R L => descriptors h fault p t0 s x mask ign dir k (Runs c) I R L c eq_refl). Qed.
Print Assumptions C49_descriptors_of_program.

Theorem C49_descriptors_of_cinit t0 s fd : inherited t0 -> fd_reachable t0 s ->
  match t0 !! fd with
  | Some d => f_table s !! fd = Some d
  | None => forall d, f_table s !! fd = Some d -> d_cloexec d = true /\ ((exists what, d_file d = FOwn what) \/ exists n out, d_file d = FReader n out)
  end.
Proof. exact (fun I R => cinit_holds t0 s I R fd). Qed.
Print Assumptions C49_descriptors_of_cinit.

(** cinit holds its own four descriptors and one stream of the first program; the
    second program gets its streams and what was there before cinit. *)
Example C49_example : inherited demo_table /\ fd_reachable demo_table demo_state /\
  dom (f_table demo_state) = (list_to_set [0; 1; 2; 9; 3; 4; 5; 6; 10] : gset Z) /\
  ch_fds (demo_runs web demo_caps) = list_to_map
    [(0, plain 0); (1, {| d_file := FWriter 1 true; d_cloexec := false |}); (2, {| d_file := FWriter 1 false; d_cloexec := false |}); (9, plain 9)].
Proof. split; [exact demo_inherited|]. split; [exact demo_reachable|]. split; decide_now. Qed.

(** * C50: when a program is executed *)
Theorem C50_executed_iff h fault p t0 s x mask ign dir k f : inherited t0 -> fd_reachable t0 s ->
  launch h fault p s x mask ign dir k f -> no_fault fault -> c_eff k ⊆ c_prm k -> h_no_raise h = false ->
  (exists c, f = Runs c) <->
  can_dress h p /\ 40 <= h_last h /\ forall z, configured p z \/ needed z -> z ∈ c_prm k /\ z ∈ c_inh k ∪ c_bnd k.
Proof. exact (executed_iff h fault p t0 s x mask ign dir k f). Qed.
Print Assumptions C50_executed_iff.

Example C50_example : c_eff (demo_cred demo_caps) ⊆ c_prm (demo_cred demo_caps) /\ no_fault nofault /\ h_no_raise demo_host = false /\
  exists c, demo_fate web demo_caps = Runs c.
Proof. split; [reflexivity|]. split; [intros n; reflexivity|]. split; [reflexivity|]. apply runs_b_spec. vm_compute. reflexivity. Qed.

(** A program that asks for nothing, started by root, is not executed in a container
    without the capability to set file capabilities. *)
Theorem C50_needs_nothing_refuted : exists p caps c, p_caps p = [] /\ p_uid p = 0 /\ p_gid p = 0 /\ can_dress demo_host p /\
  (forall z, z ∈ demo_caps -> z <> 31 -> z ∈ caps) /\ demo_fate p caps = Exits 4 c.
Proof.
  exists (demo_program "/bin/true" 0 []), (demo_caps ∖ {[31]}), (demo_runs (demo_program "/bin/true" 0 []) (demo_caps ∖ {[31]})). split; [reflexivity|]. split; [reflexivity|]. split; [reflexivity|].
  split; [unfold can_dress; repeat split|]. split; [intros z Hz N; apply elem_of_difference; split; [exact Hz|]; intros E; apply elem_of_singleton in E; exact (N E)|].
  apply demo_exits_launch. vm_compute. reflexivity.
Qed.
Print Assumptions C50_needs_nothing_refuted.

(** * C51: unknown capabilities *)
Theorem C51_unknown_capabilities_are_reported h fault p t0 s x mask ign dir k c : inherited t0 -> fd_reachable t0 s ->
  launch h fault p s x mask ign dir k (Runs c) ->
  ch_said c = map (fun name => (FWriter (f_count s) true, UnknownCapability name)) (unknown_names p).
Proof. exact (fun I R L => complains h fault p t0 s x mask ign dir k (Runs c) I R L c eq_refl). Qed.
Print Assumptions C51_unknown_capabilities_are_reported.

Example C51_example : launch demo_host nofault web demo_state demo_numbers [1; 15] ∅ "/" (demo_cred demo_caps) (Runs (demo_runs web demo_caps)) /\
  ch_said (demo_runs web demo_caps) = [(FWriter 1 true, UnknownCapability "CAP_NONSENSE")].
Proof. split; [exact web_launch|]. vm_compute. reflexivity. Qed.

(** * C52: the reason why a program was not executed *)
Theorem C52_reason_is_reported_refuted : exists p caps c, demo_fate p caps = Exits 4 c /\ ch_said c = [].
Proof. exists lost, demo_caps, (demo_runs lost demo_caps). split; [apply demo_exits_launch|]; vm_compute; reflexivity. Qed.
Print Assumptions C52_reason_is_reported_refuted.

(** It never is. *)
Theorem C52_reason_is_never_reported h fault p t0 s x mask ign dir k code c : inherited t0 -> fd_reachable t0 s ->
  launch h fault p s x mask ign dir k (Exits code c) -> forall w n, ~ In (w, CouldNotExec n) (ch_said c).
Proof. exact (fun I R L => silent h fault p t0 s x mask ign dir k (Exits code c) I R L code c eq_refl). Qed.
Print Assumptions C52_reason_is_never_reported.

Example C52_example : launch demo_host nofault lost demo_state demo_numbers [1; 15] ∅ "/" (demo_cred demo_caps) (Exits 4 (demo_runs lost demo_caps)).
Proof. apply demo_exits_launch. vm_compute. reflexivity. Qed.

(** * C53: ignored signals *)
Theorem C53_ignored_signals h fault p t0 s x mask ign dir k c : inherited t0 -> fd_reachable t0 s ->
  launch h fault p s x mask ign dir k (Runs c) -> forall z, z ∈ ch_ignored c <-> z ∈ ign \/ z = 13.
Proof. exact (fun I R L => ignores h fault p t0 s x mask ign dir k (Runs c) I R L c eq_refl). Qed.
Print Assumptions C53_ignored_signals.

Theorem C53_default_dispositions_refuted : exists p caps c, demo_fate p caps = Runs c /\ ch_ignored c = {[13]}.
Proof. exists web, demo_caps, (demo_runs web demo_caps). split; [apply demo_runs_launch; vm_compute; reflexivity|decide_now]. Qed.
Print Assumptions C53_default_dispositions_refuted.
