(** What merging configuration fragments should give, stated on the collection of
    fragments and not on any merging order. *)
From Coq Require Import String ZArith List Bool Sorted Permutation.
From Verif Require Import Base ConfigModel.
Import ListNotations.
Local Open Scope string_scope.
Local Open Scope list_scope.

(** Two different fragments of the list satisfy [P]. *)
Definition two {A} (P : A -> Prop) (l : list A) : Prop :=
  exists l1 a l2 b l3, l = l1 ++ a :: l2 ++ b :: l3 /\ P a /\ P b.

Definition has {A B} (field : A -> option B) (x : A) : Prop := field x <> None.

(** A fragment without path that declares to be a cronjob. *)
Definition pathless_cronjob (f : proc_config) : Prop :=
  pc_path f = None /\ exists timer, pc_type f = CronJob timer.

Definition conflict (fs : list proc_config) : Prop :=
  two (has pc_path) fs \/ two (has pc_workdir) fs \/ two (has pc_uid) fs \/ two (has pc_gid) fs \/
  two (has pc_user) fs \/ two (has pc_group) fs \/ Exists pathless_cronjob fs.

(** An option that is the only value given anywhere. *)
Definition the_only {B} (field : proc_config -> option B) (fs : list proc_config) (r : option B) : Prop :=
  forall v, r = Some v <-> exists f, In f fs /\ field f = Some v.

(** Sorted in byte order without duplicates, with exactly the elements of all the
    fragments' lists. *)
Definition str_lt (a b : string) : Prop := String.ltb a b = true.
Definition union_of (field : proc_config -> list string) (fs : list proc_config) (r : list string) : Prop :=
  StronglySorted str_lt r /\ forall x, In x r <-> exists f, In f fs /\ In x (field f).

(** Merging the fragments of one program one after the other, starting with the
    first, as configuration loading does. *)
Fixpoint merge_all (acc : proc_config) (fs : list proc_config) : outcome (result proc_config merge_error) :=
  match fs with
  | [] => Ret (Ok acc)
  | f :: rest =>
      match merge acc f with
      | Ret (Ok acc') => merge_all acc' rest
      | other => other
      end
  end.
Definition merge_fragments (fs : list proc_config) : outcome (result proc_config merge_error) :=
  match fs with
  | [] => Panic "no fragment"
  | f :: rest => merge_all f rest
  end.

(** The fragments of a configuration that concern one program. *)
Definition fragments (n : string) (programs : list proc_config) : list proc_config :=
  filter (fun c => String.eqb (pc_name c) n) programs.

Definition same_name (fs : list proc_config) : Prop :=
  forall f g, In f fs -> In g fs -> pc_name f = pc_name g.

(** The parts of a merged program that may not depend on the order. *)
Definition order_free (r r' : proc_config) : Prop :=
  pc_name r = pc_name r' /\ pc_path r = pc_path r' /\ pc_type r = pc_type r' /\
  pc_workdir r = pc_workdir r' /\
  pc_uid r = pc_uid r' /\ pc_gid r = pc_gid r' /\ pc_user r = pc_user r' /\ pc_group r = pc_group r' /\
  pc_pty r = pc_pty r' /\ pc_before r = pc_before r' /\ pc_after r = pc_after r' /\ pc_caps r = pc_caps r'.

Definition pathless (f : proc_config) : Prop := pc_path f = None.

(** [drain] yields the entries of a dictionary in some order. *)
Definition some_order (drain : dict -> dict) : Prop := forall d, Permutation (drain d) d.


(** * Files below a root, by the position of each step in its directory *)
Inductive node_at : node -> list nat -> node -> Prop :=
| at_root n : node_at n [] n
| at_child entries i u m p n : nth_error entries i = Some (Entry u m) -> node_at m p n ->
    node_at (Dir (Some entries)) (i :: p) n.

Definition file_at (root : node) (p : list nat) (content : string) : Prop :=
  node_at root p (File (Some content)).

(** Something below the root cannot be read. *)
Inductive unreadable : node -> Prop :=
| unreadable_metadata : unreadable NoMetadata
| unreadable_file : unreadable (File None)
| unreadable_dir : unreadable (Dir None)
| unreadable_entry entries : In BadEntry entries -> unreadable (Dir (Some entries)).
Definition broken (root : node) : Prop := exists p n, node_at root p n /\ unreadable n.

(** Some path below the root is not UTF-8. *)
Definition non_utf8 (root : node) : Prop :=
  exists p entries m, node_at root p (Dir (Some entries)) /\ In (Entry false m) entries.

(** The list read below a node corresponds one to one to the files there. *)
Definition listing (root : node) (ps : list (list nat)) (contents : list string) : Prop :=
  NoDup ps /\ Forall2 (file_at root) ps contents /\ forall p s, file_at root p s -> In p ps.

