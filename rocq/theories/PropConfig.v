(** Properties C01 - C05: merging and loading the configuration. *)
From Coq Require Import String ZArith List Permutation Bool Lia.
From Verif Require Import Base ConfigModel SpecConfig ConfigProofs.
Import ListNotations.
Local Open Scope string_scope.
Local Open Scope list_scope.

(** Fragments used as examples. *)
Definition main_fragment : proc_config :=
  {| pc_name := "web"; pc_path := Some "/bin/web"; pc_args := ["-v"]; pc_workdir := None; pc_type := Notify;
     pc_uid := Some 7%Z; pc_gid := None; pc_user := None; pc_group := None; pc_before := ["b"; "a"]; pc_after := [];
     pc_pty := false; pc_caps := []; pc_env := [[("A", Some "1")]] |}.
Definition dropin_one : proc_config :=
  {| pc_name := "web"; pc_path := None; pc_args := ["-x"; "1"]; pc_workdir := Some "/srv"; pc_type := Oneshot;
     pc_uid := None; pc_gid := None; pc_user := None; pc_group := None; pc_before := ["a"; "c"]; pc_after := [];
     pc_pty := true; pc_caps := ["CAP_CHOWN"]; pc_env := [[("B", None)]] |}.
Definition dropin_two : proc_config :=
  {| pc_name := "web"; pc_path := None; pc_args := ["-y"]; pc_workdir := None; pc_type := Oneshot;
     pc_uid := None; pc_gid := None; pc_user := None; pc_group := Some "www"; pc_before := []; pc_after := ["z"];
     pc_pty := false; pc_caps := []; pc_env := [] |}.
Definition dropin_notify : proc_config :=
  {| pc_name := "web"; pc_path := None; pc_args := []; pc_workdir := None; pc_type := Notify;
     pc_uid := None; pc_gid := None; pc_user := None; pc_group := None; pc_before := []; pc_after := [];
     pc_pty := false; pc_caps := []; pc_env := [] |}.
Definition dropin_cron : proc_config :=
  {| pc_name := "web"; pc_path := None; pc_args := []; pc_workdir := None; pc_type := CronJob "* * * * *";
     pc_uid := None; pc_gid := None; pc_user := None; pc_group := None; pc_before := []; pc_after := [];
     pc_pty := false; pc_caps := []; pc_env := [] |}.
Definition main_oneshot : proc_config :=
  {| pc_name := "web"; pc_path := Some "/bin/web"; pc_args := ["-v"]; pc_workdir := None; pc_type := Oneshot;
     pc_uid := Some 7%Z; pc_gid := None; pc_user := None; pc_group := None; pc_before := []; pc_after := [];
     pc_pty := false; pc_caps := []; pc_env := [] |}.

(** * C01: the order of the fragments does not matter *)
Theorem C01_merge_order fs fs' :
  same_name fs -> Exists (has pc_path) fs -> Permutation fs fs' ->
  ((exists e, merge_fragments fs = Ret (Err e)) /\ (exists e, merge_fragments fs' = Ret (Err e))) \/
  (exists r r', merge_fragments fs = Ret (Ok r) /\ merge_fragments fs' = Ret (Ok r') /\ order_free r r').
Proof. exact (merge_order fs fs'). Qed.
Print Assumptions C01_merge_order.

Theorem C01_load_order drain drain' programs programs' :
  some_order drain -> some_order drain' -> Permutation programs programs' ->
  (forall n, In n (map pc_name programs) -> Exists (has pc_path) (fragments n programs)) ->
  (merge_dropins drain programs = Ret (Err 1%Z) /\ merge_dropins drain' programs' = Ret (Err 1%Z)) \/
  (exists out out', merge_dropins drain programs = Ret (Ok out) /\ merge_dropins drain' programs' = Ret (Ok out') /\
     length out = length out' /\
     forall c, In c out -> exists c', In c' out' /\ order_free c c').
Proof. exact (load_order drain drain' programs programs'). Qed.
Print Assumptions C01_load_order.

(** The hypotheses hold of three fragments in two orders; arguments may differ. *)
Example C01_example :
  same_name [dropin_one; main_fragment; dropin_two] /\ Exists (has pc_path) [dropin_one; main_fragment; dropin_two] /\
  exists r r', merge_fragments [dropin_one; main_fragment; dropin_two] = Ret (Ok r) /\
    merge_fragments [dropin_two; dropin_one; main_fragment] = Ret (Ok r') /\
    pc_args r = ["-v"; "-x"; "1"; "-y"] /\ pc_args r' = ["-v"; "-x"; "1"; "-y"] /\
    pc_before r = ["a"; "b"; "c"] /\ pc_before r' = ["a"; "b"; "c"] /\ pc_type r = Notify.
Proof.
  split; [|split].
  - intros f g Hf Hg. cbn in Hf, Hg. intuition; subst; reflexivity.
  - right. left. discriminate.
  - eexists. eexists. vm_compute. repeat split; reflexivity.
Qed.

(** Without any path the order does matter (such a program is refused later on). *)
Theorem C01_pathless_order_refuted : exists fs fs' r e, same_name fs /\ Permutation fs fs' /\
  merge_fragments fs = Ret (Ok r) /\ merge_fragments fs' = Ret (Err e).
Proof.
  exists [dropin_two; dropin_cron], [dropin_cron; dropin_two]. eexists. eexists. split; [|split].
  - intros f g Hf Hg. cbn in Hf, Hg. intuition; subst; reflexivity.
  - apply perm_swap.
  - vm_compute. split; reflexivity.
Qed.
Print Assumptions C01_pathless_order_refuted.

(** * C02: what the merged program contains *)
Theorem C02_merge_blocks fs r :
  same_name fs -> Exists (has pc_path) fs -> merge_fragments fs = Ret (Ok r) ->
  exists l1 p l2, fs = l1 ++ p :: l2 /\ pc_path p <> None /\ Forall pathless l1 /\ Forall pathless l2 /\
    pc_name r = pc_name p /\ pc_path r = pc_path p /\ pc_type r = pc_type p /\
    pc_args r = pc_args p ++ concat (map pc_args (rev l1)) ++ concat (map pc_args l2) /\
    pc_env r = pc_env p ++ concat (map pc_env (rev l1)) ++ concat (map pc_env l2).
Proof. exact (merge_contents fs r). Qed.
Print Assumptions C02_merge_blocks.

Theorem C02_merge_fields fs r :
  same_name fs -> Exists (has pc_path) fs -> merge_fragments fs = Ret (Ok r) ->
  the_only pc_path fs (pc_path r) /\ the_only pc_workdir fs (pc_workdir r) /\
  the_only pc_uid fs (pc_uid r) /\ the_only pc_gid fs (pc_gid r) /\
  the_only pc_user fs (pc_user r) /\ the_only pc_group fs (pc_group r) /\
  (pc_pty r = true <-> exists f, In f fs /\ pc_pty f = true) /\
  ((2 <= length fs)%nat -> union_of pc_before fs (pc_before r) /\ union_of pc_after fs (pc_after r) /\
                    union_of pc_caps fs (pc_caps r)) /\
  (forall f, fs = [f] -> r = f).
Proof. exact (merge_fields fs r). Qed.
Print Assumptions C02_merge_fields.

Example C02_example : merge_fragments [dropin_two; main_fragment; dropin_one] = Ret (Ok
  {| pc_name := "web"; pc_path := Some "/bin/web"; pc_args := ["-v"; "-y"; "-x"; "1"]; pc_workdir := Some "/srv";
     pc_type := Notify; pc_uid := Some 7%Z; pc_gid := None; pc_user := None; pc_group := Some "www";
     pc_before := ["a"; "b"; "c"]; pc_after := ["z"]; pc_pty := true; pc_caps := ["CAP_CHOWN"];
     pc_env := [[("A", Some "1")]; [("B", None)]] |}).
Proof. vm_compute. reflexivity. Qed.

(** * C03: rejected exactly when two fragments conflict *)
(** Missing from the full claim: a drop-in saying "notify", see the refutation. *)
Theorem C03_merge_rejects_partial fs : same_name fs -> Exists (has pc_path) fs ->
  (conflict fs <-> exists e, merge_fragments fs = Ret (Err e)) /\
  (~ conflict fs <-> exists r, merge_fragments fs = Ret (Ok r)).
Proof. exact (merge_rejects fs). Qed.
Print Assumptions C03_merge_rejects_partial.

Example C03_example : conflict [main_fragment; dropin_cron] /\ ~ conflict [main_fragment; dropin_one] /\
  conflict [dropin_one; main_fragment; dropin_one].
Proof.
  split; [|split].
  - do 6 right. right. left. split; [reflexivity|]. exists "* * * * *". reflexivity.
  - apply (proj2 (C03_merge_rejects_partial [main_fragment; dropin_one]
      ltac:(intros f g Hf Hg; cbn in Hf, Hg; intuition; subst; reflexivity) ltac:(left; discriminate))).
    eexists. vm_compute. reflexivity.
  - right. left. exists [], dropin_one, [main_fragment], dropin_one, []. repeat split; discriminate.
Qed.

(** A drop-in can ask for another type than the program gets, without any error. *)
Theorem C03_notify_dropin_refuted : exists fs r f, same_name fs /\ Exists (has pc_path) fs /\
  In f fs /\ pc_path f = None /\ pc_type f <> Oneshot /\
  merge_fragments fs = Ret (Ok r) /\ pc_type r = Oneshot.
Proof.
  exists [main_oneshot; dropin_notify]. eexists. exists dropin_notify. split; [|split; [|split; [|split; [|split]]]].
  - intros f g Hf Hg. cbn in Hf, Hg. intuition; subst; reflexivity.
  - left. discriminate.
  - right. left. reflexivity.
  - reflexivity.
  - discriminate.
  - vm_compute. split; reflexivity.
Qed.
Print Assumptions C03_notify_dropin_refuted.

(** * C04: one program per name *)
Theorem C04_unique_names drain programs out : some_order drain ->
  merge_dropins drain programs = Ret (Ok out) ->
  NoDup (map pc_name out) /\
  (forall n, In n (map pc_name out) <-> In n (map pc_name programs)) /\
  (forall c, In c out -> merge_fragments (fragments (pc_name c) programs) = Ret (Ok c)).
Proof. exact (merge_dropins_spec drain programs out). Qed.
Print Assumptions C04_unique_names.

Theorem C04_accepts drain programs : some_order drain ->
  (exists out, merge_dropins drain programs = Ret (Ok out)) <->
  (forall n, In n (map pc_name programs) -> exists c, merge_fragments (fragments n programs) = Ret (Ok c)).
Proof. exact (merge_dropins_accepts drain programs). Qed.
Print Assumptions C04_accepts.

Theorem C04_total drain programs : some_order drain ->
  (exists out, merge_dropins drain programs = Ret (Ok out)) \/
  (merge_dropins drain programs = Ret (Err 1%Z) /\
   exists n e, In n (map pc_name programs) /\ merge_fragments (fragments n programs) = Ret (Err e)).
Proof. exact (merge_dropins_total drain programs). Qed.
Print Assumptions C04_total.

Definition other_program : proc_config :=
  {| pc_name := "db"; pc_path := Some "/bin/db"; pc_args := []; pc_workdir := None; pc_type := Oneshot;
     pc_uid := None; pc_gid := None; pc_user := None; pc_group := None; pc_before := ["web"]; pc_after := [];
     pc_pty := false; pc_caps := []; pc_env := [] |}.
Example C04_example : some_order (@rev _) /\
  exists out, merge_dropins (@rev _) [dropin_one; other_program; main_fragment] = Ret (Ok out) /\
    map pc_name out = ["db"; "web"].
Proof.
  split; [intros d; symmetry; apply Permutation_rev|]. eexists. vm_compute. split; reflexivity.
Qed.

(** * C05: loading a directory *)
(** Missing from the full claim: trees with a path that is not UTF-8, see the refutation. *)
Theorem C05_load_partial yaml drain root : some_order drain -> ~ non_utf8 root ->
  ((broken root \/ (exists p s, file_at root p s /\ yaml s = None)) ->
    parse_config yaml drain root = Ret (Err 1%Z)) /\
  (~ broken root -> (forall p s, file_at root p s -> yaml s <> None) ->
    exists ps contents parsed, listing root ps contents /\ map yaml contents = map Some parsed /\
      parse_config yaml drain root = merge_dropins drain (concat parsed)).
Proof. exact (load_all_or_nothing yaml drain root). Qed.
Print Assumptions C05_load_partial.

Definition example_tree : node :=
  Dir (Some [Entry true (File (Some "x")); Entry true Special;
             Entry true (Dir (Some [Entry true (File (Some "y"))]))]).
Definition example_yaml (s : string) : option (list proc_config) :=
  if String.eqb s "x" then Some [main_fragment] else if String.eqb s "y" then Some [dropin_one; other_program] else None.
Example C05_example :
  ~ non_utf8 example_tree /\ ~ broken example_tree /\ file_at example_tree [2; 0]%nat "y" /\
  read_config example_tree = Ret (Ok ["x"; "y"]) /\
  (exists out, parse_config example_yaml (@rev _) example_tree = Ret (Ok out) /\ map pc_name out = ["web"; "db"]) /\
  parse_config example_yaml (@rev _) (Dir (Some [Entry true (File (Some "x")); BadEntry])) = Ret (Err 1%Z).
Proof.
  assert (R := read_config_spec example_tree).
  change (read_config example_tree) with (@Ret (result (list string) Z) (Ok ["x"; "y"])) in *.
  inversion R; subst. repeat split; auto.
  - econstructor; [reflexivity|]. econstructor; [reflexivity|]. constructor.
  - eexists. vm_compute. split; reflexivity.
Qed.

(** A file name that is not UTF-8 crashes the loader instead of being reported. *)
Theorem C05_non_utf8_name_refuted : exists root m, ~ broken root /\ read_config root = Panic m.
Proof.
  exists (Dir (Some [Entry false (File (Some ""))])). eexists. split; [|vm_compute; reflexivity].
  intros H. apply dir_broken in H. destruct H as [[H|[]]|(u & m & [H|[]] & H')]; [discriminate|].
  inversion H; subst. destruct H' as (p & n & H' & U). inversion H'; subst. inversion U.
Qed.
Print Assumptions C05_non_utf8_name_refuted.
