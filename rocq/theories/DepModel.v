(** Model of src/runtime/dependency_graph.rs. *)
From stdpp Require Import gmap strings.
From Coq Require Import ZArith List Bool.
From Verif Require Import Base ConfigModel.
Import ListNotations.
Local Open Scope string_scope.
Local Open Scope list_scope.
Local Open Scope nat_scope.

(** src/runtime/dependency_graph.rs:37-44 *)
Record dep_node := { n_after : list nat; n_count : nat; n_finished : bool }.

(** src/runtime/dependency_graph.rs:48-63 *)
Inductive dep_error :=
| Cycle (id : nat)
| UnknownAfterReference (id k : nat)
| UnknownBeforeReference (id k : nat)
| CronjobDependencyOf (id : nat).

(** src/runtime/dependency_graph.rs:67-73.  [dm_runnable] is the deque from front to
    back. *)
Record dep_manager := {
  dm_nodes : gmap nat dep_node;
  dm_runnable : list nat;
  dm_archive : gset nat
}.

(** src/runtime/dependency_graph.rs:216-231 *)
Fixpoint build_name_dict (descs : list (nat * proc_config)) (d : gmap string nat) : outcome (gmap string nat) :=
  match descs with
  | [] => Ret d
  | (i, c) :: rest =>
      match d !! pc_name c with
      | Some _ => Panic "Duplicate name should have already been eliminated"
      | None => build_name_dict rest (<[pc_name c := i]> d)
      end
  end.

(** src/runtime/dependency_graph.rs:245-258: the after list of one program from
    position [k] on *)
Fixpoint validate_after (config : list (nat * proc_config)) (d : gmap string nat) (i k : nat) (names : list string)
  : outcome (result unit dep_error) :=
  match names with
  | [] => Ret (Ok tt)
  | n :: rest =>
      match d !! n with
      | None => Ret (Err (UnknownAfterReference i k))
      | Some j =>
          match nth_error config j with
          | None => Panic "index out of bounds"
          | Some (_, c) =>
              if is_cronjob (pc_type c) then Ret (Err (CronjobDependencyOf i))
              else validate_after config d i (S k) rest
          end
      end
  end.
(** src/runtime/dependency_graph.rs:259-263 *)
Fixpoint validate_before (d : gmap string nat) (i k : nat) (names : list string) : result unit dep_error :=
  match names with
  | [] => Ok tt
  | n :: rest =>
      match d !! n with
      | None => Err (UnknownBeforeReference i k)
      | Some _ => validate_before d i (S k) rest
      end
  end.
(** src/runtime/dependency_graph.rs:241-267 *)
Fixpoint validate_references (config : list (nat * proc_config)) (d : gmap string nat) (todo : list (nat * proc_config))
  : outcome (result unit dep_error) :=
  match todo with
  | [] => Ret (Ok tt)
  | (i, c) :: rest =>
      match validate_after config d i 0 (pc_after c) with
      | Panic m => Panic m
      | Ret (Err e) => Ret (Err e)
      | Ret (Ok _) =>
          match validate_before d i 0 (pc_before c) with
          | Err e => Ret (Err e)
          | Ok _ => validate_references config d rest
          end
      end
  end.

(** [result.get_mut(i).expect(..)] followed by a change of the node *)
Definition update_node (i : nat) (f : dep_node -> dep_node) (nodes : gmap nat dep_node) : outcome (gmap nat dep_node) :=
  match nodes !! i with
  | Some n => Ret (<[i := f n]> nodes)
  | None => Panic "Invalid index in name_dict"
  end.
Definition push_after (j : nat) (n : dep_node) : dep_node :=
  {| n_after := n_after n ++ [j]; n_count := n_count n; n_finished := n_finished n |}.
Definition add_count (k : nat) (n : dep_node) : dep_node :=
  {| n_after := n_after n; n_count := n_count n + k; n_finished := n_finished n |}.

(** A loop over names, each looked up in the dictionary. *)
Fixpoint for_names (d : gmap string nat) (names : list string) (f : nat -> gmap nat dep_node -> outcome (gmap nat dep_node))
  (nodes : gmap nat dep_node) : outcome (gmap nat dep_node) :=
  match names with
  | [] => Ret nodes
  | n :: rest =>
      match d !! n with
      | None => Panic "Invalid index in name_dict"
      | Some j => let! nodes' := f j nodes in for_names d rest f nodes'
      end
  end.

(** src/runtime/dependency_graph.rs:155-187: one program *)
Definition build_one (d : gmap string nat) (i : nat) (c : proc_config) (nodes : gmap nat dep_node)
  : outcome (gmap nat dep_node) :=
  let! nodes := for_names d (pc_before c) (fun j => update_node i (push_after j)) nodes in
  let! nodes := update_node i (add_count (length (pc_after c))) nodes in
  let! nodes := for_names d (pc_before c) (fun j => update_node j (add_count 1)) nodes in
  for_names d (pc_after c) (fun j => update_node j (push_after i)) nodes.
Fixpoint build_all (d : gmap string nat) (todo : list (nat * proc_config)) (nodes : gmap nat dep_node)
  : outcome (gmap nat dep_node) :=
  match todo with
  | [] => Ret nodes
  | (i, c) :: rest => let! nodes' := build_one d i c nodes in build_all d rest nodes'
  end.
(** src/runtime/dependency_graph.rs:145-189 *)
Definition default_node : dep_node := {| n_after := []; n_count := 0; n_finished := false |}.
Definition build_dependencies (config : list (nat * proc_config)) (d : gmap string nat) : outcome (gmap nat dep_node) :=
  build_all d config (fold_left (fun m e => <[fst e := default_node]> m) config ∅).

(** src/runtime/dependency_graph.rs:134-142; [order] is the order in which the HashMap
    is iterated *)
Definition find_initial_runnables (order : list nat -> list nat) (nodes : gmap nat dep_node) : list nat :=
  order (map fst (List.filter (fun e => n_count (snd e) =? 0) (map_to_list nodes))).

(** src/runtime/dependency_graph.rs:192-213.  [toposort] is petgraph's: given nodes and
    edges it returns no node or the node it reports as part of a cycle. *)
Definition graph_edges (nodes : gmap nat dep_node) : list (nat * nat) :=
  concat (map (fun e => map (fun j => (fst e, j)) (n_after (snd e))) (map_to_list nodes)).
Definition check_for_cycles (toposort : list nat -> list (nat * nat) -> option nat) (nodes : gmap nat dep_node)
  : result unit dep_error :=
  match toposort (map fst (map_to_list nodes)) (graph_edges nodes) with
  | Some id => Err (Cycle id)
  | None => Ok tt
  end.

(** src/runtime/dependency_graph.rs:82-95 *)
Definition with_nodes (order : list nat -> list nat) (toposort : list nat -> list (nat * nat) -> option nat)
  (config : list (nat * proc_config)) : outcome (result dep_manager dep_error) :=
  let! d := build_name_dict config ∅ in
  let! v := validate_references config d config in
  match v with
  | Err e => Ret (Err e)
  | Ok _ =>
      let! nodes := build_dependencies config d in
      let initial := find_initial_runnables order nodes in
      match check_for_cycles toposort nodes with
      | Err e => Ret (Err e)
      | Ok _ => Ret (Ok {| dm_nodes := nodes; dm_runnable := initial; dm_archive := list_to_set initial |})
      end
  end.

(** src/runtime/dependency_graph.rs:98-100 *)
Definition has_runnables (m : dep_manager) : bool := negb (is_nil (dm_runnable m)).

(** src/runtime/dependency_graph.rs:103-105: taken from the back *)
Definition pop_dep (m : dep_manager) : option (nat * dep_manager) :=
  match rev (dm_runnable m) with
  | [] => None
  | i :: r => Some (i, {| dm_nodes := dm_nodes m; dm_runnable := rev r; dm_archive := dm_archive m |})
  end.

(** src/runtime/dependency_graph.rs:109-111 *)
Definition is_runnable (m : dep_manager) (i : nat) : bool := bool_decide (i ∈ dm_archive m).

(** src/runtime/dependency_graph.rs:122-130: the loop over the successors; the
    subtraction panics on underflow *)
Fixpoint release (succs : list nat) (m : dep_manager) : outcome dep_manager :=
  match succs with
  | [] => Ret m
  | j :: rest =>
      match dm_nodes m !! j with
      | None => Panic "Invalid index"
      | Some n =>
          match n_count n with
          | O => Panic "attempt to subtract with overflow"
          | S k =>
              let nodes := <[j := {| n_after := n_after n; n_count := k; n_finished := n_finished n |}]> (dm_nodes m) in
              match k with
              | O => release rest {| dm_nodes := nodes; dm_runnable := dm_runnable m ++ [j]; dm_archive := {[j]} ∪ dm_archive m |}
              | S _ => release rest {| dm_nodes := nodes; dm_runnable := dm_runnable m; dm_archive := dm_archive m |}
              end
          end
      end
  end.
(** src/runtime/dependency_graph.rs:115-131 *)
Definition notify_process_finished (m : dep_manager) (i : nat) : outcome dep_manager :=
  match dm_nodes m !! i with
  | None => Panic "invalid process id"
  | Some n =>
      if n_finished n then Ret m
      else
        release (n_after n)
          {| dm_nodes := <[i := {| n_after := n_after n; n_count := n_count n; n_finished := true |}]> (dm_nodes m);
             dm_runnable := dm_runnable m; dm_archive := dm_archive m |}
  end.

(** src/analyse/process_manager_builder.rs:180-188: ids are positions *)
Definition enumerate {A} (l : list A) : list (nat * A) := combine (seq 0 (length l)) l.
