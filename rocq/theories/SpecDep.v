(** Dependencies between programs, stated on the configuration. *)
From stdpp Require Import gmap strings.
From Coq Require Import ZArith List Bool Relations.
From Verif Require Import Base ConfigModel DepModel.
Import ListNotations.
Local Open Scope string_scope.
Local Open Scope list_scope.
Local Open Scope nat_scope.

(** Program number [v] depends on program number [u]: one of them says so. *)
Definition depends (programs : list proc_config) (u v : nat) : Prop :=
  exists cu cv, nth_error programs u = Some cu /\ nth_error programs v = Some cv /\
    (In (pc_name cv) (pc_before cu) \/ In (pc_name cu) (pc_after cv)).

Definition unique_names (programs : list proc_config) : Prop := List.NoDup (map pc_name programs).
Definition known (programs : list proc_config) (n : string) : Prop := In n (map pc_name programs).
Definition cronjob_named (programs : list proc_config) (n : string) : Prop :=
  exists c, In c programs /\ pc_name c = n /\ is_cronjob (pc_type c) = true.

(** What makes dependencies acceptable. *)
Definition refs_known (programs : list proc_config) : Prop :=
  forall c n, In c programs -> In n (pc_before c) \/ In n (pc_after c) -> known programs n.
Definition no_cron_after (programs : list proc_config) : Prop :=
  forall c n, In c programs -> In n (pc_after c) -> ~ cronjob_named programs n.
Definition acyclic (programs : list proc_config) : Prop :=
  forall v, ~ clos_trans nat (depends programs) v v.

(** An error names an offender. *)
Definition offender (programs : list proc_config) (e : dep_error) : Prop :=
  match e with
  | UnknownAfterReference i k =>
      exists c n, nth_error programs i = Some c /\ nth_error (pc_after c) k = Some n /\ ~ known programs n
  | UnknownBeforeReference i k =>
      exists c n, nth_error programs i = Some c /\ nth_error (pc_before c) k = Some n /\ ~ known programs n
  | CronjobDependencyOf i =>
      exists c n, nth_error programs i = Some c /\ In n (pc_after c) /\ cronjob_named programs n
  | Cycle i => clos_trans nat (depends programs) i i
  end.

(** petgraph's contract: no node is reported iff there is no cycle, and a reported node
    is on a cycle. *)
Definition finds_cycles (toposort : list nat -> list (nat * nat) -> option nat) : Prop :=
  forall nodes edges, (forall u v, In (u, v) edges -> In u nodes /\ In v nodes) ->
    let E u v := In (u, v) edges in
    match toposort nodes edges with
    | None => forall v, ~ clos_trans nat E v v
    | Some v => clos_trans nat E v v
    end.

Definition any_perm (order : list nat -> list nat) : Prop := forall l, Permutation (order l) l.

(** A history of completion reports and requests for something to start. *)
Inductive dep_op := Report (i : nat) | Request.

(** Runs a history; the second component collects what was handed out, latest first. *)
Fixpoint dep_run (ops : list dep_op) (m : dep_manager) (handed : list nat) : outcome (dep_manager * list nat) :=
  match ops with
  | [] => Ret (m, handed)
  | Report i :: rest => let! m' := notify_process_finished m i in dep_run rest m' handed
  | Request :: rest =>
      match pop_dep m with
      | None => dep_run rest m handed
      | Some (i, m') => dep_run rest m' (i :: handed)
      end
  end.

Definition reported (ops : list dep_op) (i : nat) : Prop := In (Report i) ops.

(** All dependencies of [v] have been reported complete. *)
Definition released (programs : list proc_config) (fin : nat -> Prop) (v : nat) : Prop :=
  v < length programs /\ forall u, depends programs u v -> fin u.
