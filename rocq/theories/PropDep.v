(** Properties C12 and C25: dependencies between programs. *)
From stdpp Require Import gmap strings.
From Coq Require Import ZArith List Bool Relations Lia.
From Verif Require Import Base ConfigModel DepModel SpecConfig SpecDep ConfigProofs DepProofs.
Import ListNotations.
Local Open Scope string_scope.
Local Open Scope list_scope.
Local Open Scope nat_scope.

Definition simple (name : string) (before after : list string) : proc_config :=
  {| pc_name := name; pc_path := Some "/bin/true"; pc_args := []; pc_workdir := None; pc_type := Oneshot;
     pc_uid := None; pc_gid := None; pc_user := None; pc_group := None; pc_before := before; pc_after := after;
     pc_pty := false; pc_caps := []; pc_env := [] |}.
Definition cron (name : string) : proc_config :=
  {| pc_name := name; pc_path := Some "/bin/true"; pc_args := []; pc_workdir := None; pc_type := CronJob "* * * * *";
     pc_uid := None; pc_gid := None; pc_user := None; pc_group := None; pc_before := []; pc_after := [];
     pc_pty := false; pc_caps := []; pc_env := [] |}.

(** c depends on a (said from both sides) and on b (said twice). *)
Definition diamond : list proc_config :=
  [simple "a" ["c"] []; simple "b" [] []; simple "c" ["d"] ["a"; "b"; "b"]; simple "d" [] []].

(** * C12: dependency validation is exact *)
Theorem C12_validation order toposort programs :
  unique_names programs -> any_perm order -> finds_cycles toposort ->
  (refs_known programs /\ no_cron_after programs /\ acyclic programs ->
     exists m, with_nodes order toposort (enumerate programs) = Ret (Ok m)) /\
  (~ (refs_known programs /\ no_cron_after programs /\ acyclic programs) ->
     exists e, with_nodes order toposort (enumerate programs) = Ret (Err e) /\ offender programs e).
Proof. exact (validation_exact order toposort programs). Qed.
Print Assumptions C12_validation.

(** One of the two always applies, so an accepted configuration is a good one. *)
Theorem C12_decides order toposort programs :
  unique_names programs -> any_perm order -> finds_cycles toposort ->
  (exists m, with_nodes order toposort (enumerate programs) = Ret (Ok m) /\
     refs_known programs /\ no_cron_after programs /\ acyclic programs) \/
  (exists e, with_nodes order toposort (enumerate programs) = Ret (Err e) /\ offender programs e /\
     ~ (refs_known programs /\ no_cron_after programs /\ acyclic programs)).
Proof. exact (validation_decides order toposort programs). Qed.
Print Assumptions C12_decides.

(** The configuration loader gives the validation unique names, so the internal
    "Duplicate name" check never fires. *)
Theorem C12_loaded_names_unique yaml drain root programs order toposort :
  some_order drain -> ~ non_utf8 root -> any_perm order -> finds_cycles toposort ->
  parse_config yaml drain root = Ret (Ok programs) ->
  unique_names programs /\ exists r, with_nodes order toposort (enumerate programs) = Ret r.
Proof. exact (loaded_names_unique yaml drain root programs order toposort). Qed.
Print Assumptions C12_loaded_names_unique.

(** A cycle finder with the assumed contract exists. *)
Theorem C12_contract_satisfiable : finds_cycles find_cycle.
Proof. exact find_cycle_ok. Qed.
Print Assumptions C12_contract_satisfiable.

Example C12_example :
  unique_names diamond /\ any_perm (@rev nat) /\
  (exists m, with_nodes (@rev _) find_cycle (enumerate diamond) = Ret (Ok m)) /\
  with_nodes (@rev _) find_cycle (enumerate [simple "a" [] ["a"]]) = Ret (Err (Cycle 0)) /\
  with_nodes (@rev _) find_cycle (enumerate [simple "x" [] []; simple "a" ["b"] []; simple "b" ["a"] []]) = Ret (Err (Cycle 1)) /\
  with_nodes (@rev _) find_cycle (enumerate [simple "x" [] []; simple "a" ["x"; "y"] []]) = Ret (Err (UnknownBeforeReference 1 1)) /\
  with_nodes (@rev _) find_cycle (enumerate [cron "x"; simple "a" [] ["x"; "y"]]) = Ret (Err (CronjobDependencyOf 1)) /\
  (exists m, with_nodes (@rev _) find_cycle (enumerate [cron "x"; simple "a" ["x"] []]) = Ret (Ok m)).
Proof.
  split; [repeat constructor; cbn; intuition discriminate|].
  split; [intros l; symmetry; apply Permutation_rev|].
  split; [eexists; vm_compute; reflexivity|].
  repeat (split; [vm_compute; reflexivity|]). eexists. vm_compute. reflexivity.
Qed.

(** * C25: dependency bookkeeping *)
Theorem C25_bookkeeping order toposort programs m0 ops :
  unique_names programs -> any_perm order -> finds_cycles toposort ->
  with_nodes order toposort (enumerate programs) = Ret (Ok m0) ->
  (forall i, In (Report i) ops -> i < length programs) ->
  exists m handed, dep_run ops m0 [] = Ret (m, handed) /\
    List.NoDup handed /\
    (forall v, In v handed -> released programs (reported ops) v) /\
    match pop_dep m with
    | Some (v, _) => ~ In v handed /\ released programs (reported ops) v
    | None => forall v, released programs (reported ops) v -> In v handed
    end /\
    (forall v, is_runnable m v = true <-> released programs (reported ops) v).
Proof. exact (bookkeeping order toposort programs m0 ops). Qed.
Print Assumptions C25_bookkeeping.

Theorem C25_repeated_report order toposort programs m0 ops i :
  unique_names programs -> any_perm order -> finds_cycles toposort ->
  with_nodes order toposort (enumerate programs) = Ret (Ok m0) ->
  (forall j, In (Report j) ops -> j < length programs) -> In (Report i) ops ->
  dep_run (ops ++ [Report i]) m0 [] = dep_run ops m0 [].
Proof. exact (repeated_report order toposort programs m0 ops i). Qed.
Print Assumptions C25_repeated_report.

(** Asking repeatedly hands out everything that is available. *)
Theorem C25_drained order toposort programs m0 ops :
  unique_names programs -> any_perm order -> finds_cycles toposort ->
  with_nodes order toposort (enumerate programs) = Ret (Ok m0) ->
  (forall i, In (Report i) ops -> i < length programs) ->
  exists m handed, dep_run (ops ++ repeat Request (length programs)) m0 [] = Ret (m, handed) /\
    has_runnables m = false /\ List.NoDup handed /\ forall v, In v handed <-> released programs (reported ops) v.
Proof. exact (drained order toposort programs m0 ops). Qed.
Print Assumptions C25_drained.

Example C25_example : exists m0, with_nodes (@rev _) find_cycle (enumerate diamond) = Ret (Ok m0) /\
  (exists m, dep_run [Request; Report 1; Request; Request; Report 1] m0 [] = Ret (m, [1; 0])) /\
  (exists m, dep_run [Request; Report 1; Request; Request; Report 0; Request; Request] m0 [] = Ret (m, [2; 1; 0])) /\
  released diamond (reported [Report 1; Report 0]) 2 /\ ~ released diamond (reported [Report 1]) 2.
Proof.
  eexists. split; [vm_compute; reflexivity|].
  split; [eexists; vm_compute; reflexivity|]. split; [eexists; vm_compute; reflexivity|]. split.
  - split; [cbn; lia|]. intros u (cu & cv & Hu & Hv & H). cbn in Hv. inversion Hv; subst. unfold reported.
    destruct u as [|[|[|[|[|u]]]]]; cbn in Hu; inversion Hu; subst; cbn in *; intuition discriminate.
  - intros [_ H]. specialize (H 0). assert (K : reported [Report 1] 0).
    { apply H. exists (simple "a" ["c"] []), (simple "c" ["d"] ["a"; "b"; "b"]). cbn. auto. }
    destruct K as [K|[]]; discriminate.
Qed.
