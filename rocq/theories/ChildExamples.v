(** A container in which cinit runs as root, for the examples. *)
From stdpp Require Import gmap strings.
From Coq Require Import ZArith List Bool Lia.
From Verif Require Import Base CronModel ConfigModel ProcessModel ChildModel FdModel SpecChild.
Import ListNotations.
Local Open Scope string_scope.
Local Open Scope list_scope.
Local Open Scope Z_scope.

Definition demo_caps : gset Z := list_to_set [0; 1; 3; 4; 5; 6; 7; 8; 10; 13; 18; 27; 29; 31].
Definition demo_cred (caps : gset Z) : cred :=
  {| c_ruid := 0; c_euid := 0; c_suid := 0; c_rgid := 0; c_egid := 0; c_sgid := 0; c_groups := [0; 1; 2];
     c_prm := caps; c_eff := caps; c_inh := ∅; c_amb := ∅; c_bnd := caps; c_keep := false |}.
Definition demo_host : host :=
  {| h_last := 40; h_uid := fun _ => true; h_gid := fun _ => true; h_setgroups := true; h_dir := fun d => negb (String.eqb d "/missing");
     h_exec := fun p => negb (String.eqb p "/missing"); h_noroot := false; h_no_fixup := false; h_keep_locked := false; h_no_raise := false |}.
Definition demo_program (path : string) (uid : Z) (caps : list string) : process :=
  {| p_name := "web"; p_path := path; p_args := [path]; p_workdir := "/srv"; p_uid := uid; p_gid := uid; p_pty := false; p_caps := caps;
     p_env := ["HOME=/srv"]; p_state := Blocked; p_type := ROneshot; p_pid := 0; p_status := "" |}.
Definition plain (n : Z) : desc := {| d_file := FInherited n; d_cloexec := false |}.
Definition demo_table : table := list_to_map [(0, plain 0); (1, plain 1); (2, plain 2); (9, plain 9)].
Definition demo_numbers : numbers := {| n_out := 7; n_out' := 8; n_err := 11; n_err' := 12 |}.

(** cinit has started a program before, which has closed its output, and has answered
    a request for a report. *)
Definition demo_history : list action := [AStart {| n_out := 7; n_out' := 8; n_err := 10; n_err' := 11 |}; AHangup 7; AReport 7].
Definition demo_state : fdstate :=
  match own_fds demo_table 3 4 5 6 with
  | Some t => match acts {| f_table := t; f_count := 0 |} demo_history with Some s => s | None => {| f_table := ∅; f_count := 0 |} end
  | None => {| f_table := ∅; f_count := 0 |}
  end.
Definition nofault (n : nat) : bool := false.
Definition demo_child (k : cred) : child :=
  match forked demo_state demo_numbers with Some t => fresh_child t [1; 15] ∅ "/" k | None => fresh_child ∅ [] ∅ "" k end.
Definition demo_fate (p : process) (caps : gset Z) : fate := child_side demo_host nofault p 8 12 (demo_child (demo_cred caps)).
Definition demo_runs (p : process) (caps : gset Z) : child :=
  match demo_fate p caps with Runs c => c | Exits _ c => c | Stuck => demo_child (demo_cred caps) end.

Lemma demo_inherited : inherited demo_table.
Proof.
  split; [|split; eexists; reflexivity]. intros fd x H. apply elem_of_list_to_map_2 in H. apply elem_of_list_In in H.
  destruct H as [H|[H|[H|[H|[]]]]]; injection H as <- <-; reflexivity.
Qed.
Lemma demo_reachable : fd_reachable demo_table demo_state.
Proof.
  destruct (own_fds demo_table 3 4 5 6) as [t|] eqn:E; [|vm_compute in E; discriminate].
  exists 3, 4, 5, 6, t, demo_history. split; [exact E|]. unfold demo_state. rewrite E. destruct (acts {| f_table := t; f_count := 0 |} demo_history) as [s|] eqn:A; [reflexivity|].
  exfalso. revert A. vm_compute in E. apply Some_inj in E. subst t. vm_compute. discriminate.
Qed.
Lemma demo_launch p caps : launch demo_host nofault p demo_state demo_numbers [1; 15] ∅ "/" (demo_cred caps) (demo_fate p caps).
Proof.
  unfold launch, demo_fate, demo_child. destruct (forked demo_state demo_numbers) as [t|] eqn:E; [exists t; split; reflexivity|]. vm_compute in E. discriminate.
Qed.

Definition runs_b (f : fate) : bool := match f with Runs _ => true | _ => false end.
Definition exits_b (f : fate) : bool := match f with Exits 4 _ => true | _ => false end.
Lemma runs_b_spec f : runs_b f = true -> exists c, f = Runs c.
Proof. destruct f; try discriminate. eauto. Qed.
Lemma exits_b_spec f : exits_b f = true -> exists c, f = Exits 4 c.
Proof. destruct f as [|z c|]; try discriminate. intros H. cbn in H. destruct z as [|[[[]|[]|]|[[]|[]|]|]|]; try discriminate. eauto. Qed.
Lemma demo_runs_launch p caps : runs_b (demo_fate p caps) = true ->
  demo_fate p caps = Runs (demo_runs p caps) /\ launch demo_host nofault p demo_state demo_numbers [1; 15] ∅ "/" (demo_cred caps) (Runs (demo_runs p caps)).
Proof. intros E. apply runs_b_spec in E. destruct E as [c E]. assert (L := demo_launch p caps). unfold demo_runs. rewrite E in *. auto. Qed.
Lemma demo_exits_launch p caps : exits_b (demo_fate p caps) = true ->
  demo_fate p caps = Exits 4 (demo_runs p caps) /\ launch demo_host nofault p demo_state demo_numbers [1; 15] ∅ "/" (demo_cred caps) (Exits 4 (demo_runs p caps)).
Proof. intros E. apply exits_b_spec in E. destruct E as [c E]. assert (L := demo_launch p caps). unfold demo_runs. rewrite E in *. auto. Qed.
Ltac decide_now := apply (bool_decide_unpack _); vm_compute; exact Logic.I.
