(** From an entry in a file to the program that is run. *)
From stdpp Require Import gmap strings.
From Coq Require Import ZArith List Bool.
From Verif Require Import Base RStr ConfigModel ProcessModel EnvModel MainModel ChildModel YamlModel SpecConfig SpecEnv SpecChild SpecYaml.
Import ListNotations.
Local Open Scope string_scope.
Local Open Scope list_scope.
Local Open Scope Z_scope.

(** Entry [y] is number [i] in the list of programs of the file at [p]. *)
Definition stands (k : machine) (syntax : string -> option yaml) (p : list nat) (i : nat) (y : yaml) : Prop :=
  exists s doc ps, file_at (m_files k) p s /\ syntax s = Some (YMap doc) /\ entry doc "programs" (YSeq ps) /\ nth_error ps i = Some y.

(** All documents and all entries are mappings. *)
Definition ordinary (k : machine) (syntax : string -> option yaml) : Prop :=
  (forall p s y, file_at (m_files k) p s -> syntax s = Some y -> exists doc, y = YMap doc) /\
  (forall p i y, stands k syntax p i y -> exists l, y = YMap l).

(** There is no other entry for the program, i.e. no drop-in. *)
Definition sole (k : machine) (syntax : string -> option yaml) (p : list nat) (i : nat) (n : string) : Prop :=
  forall p' i' l, stands k syntax p' i' (YMap l) -> field l "name" text n -> p' = p /\ i' = i.

(** Equal but for state, process number and status. *)
Definition same_settings (p q : process) : Prop :=
  p_name p = p_name q /\ p_path p = p_path q /\ p_args p = p_args q /\ p_workdir p = p_workdir q /\ p_uid p = p_uid q /\
  p_gid p = p_gid q /\ p_pty p = p_pty q /\ p_caps p = p_caps q /\ p_env p = p_env q /\ p_type p = p_type q.

(** The user database gives users by their own numbers. *)
Definition consistent (w : world) : Prop :=
  (forall i u, w_uid w i = Some (Some u) -> u_uid u = i) /\ (forall i g, w_gid w i = Some (Some g) -> g_gid g = i).

Definition not_given (l : list (yaml * yaml)) (k : string) : Prop := forall v, entry l k v -> null v.

(** There is no such option at all. *)
Definition no_entry (l : list (yaml * yaml)) (k : string) : Prop := forall v, ~ entry l k v.

(** Users, directory, program file and arguments of a child are the ones in the entry. *)
Definition runs_as_written (w : world) (l : list (yaml * yaml)) (ch : child) : Prop :=
  (forall m, field l "uid" number m -> c_ruid (ch_cred ch) = m /\ c_euid (ch_cred ch) = m /\ c_suid (ch_cred ch) = m) /\
  (forall m, field l "user" text m -> not_given l "user" \/ exists u, w_user w m = Some (Some u) /\
     c_ruid (ch_cred ch) = u_uid u /\ c_euid (ch_cred ch) = u_uid u /\ c_suid (ch_cred ch) = u_uid u) /\
  (not_given l "uid" -> not_given l "user" -> c_ruid (ch_cred ch) = 0 /\ c_euid (ch_cred ch) = 0 /\ c_suid (ch_cred ch) = 0) /\
  (forall m, field l "gid" number m -> c_rgid (ch_cred ch) = m /\ c_egid (ch_cred ch) = m /\ c_sgid (ch_cred ch) = m /\ c_groups (ch_cred ch) = [m]) /\
  (forall m, field l "group" text m -> not_given l "group" \/ exists g, w_group w m = Some (Some g) /\
     c_rgid (ch_cred ch) = g_gid g /\ c_egid (ch_cred ch) = g_gid g /\ c_sgid (ch_cred ch) = g_gid g /\ c_groups (ch_cred ch) = [g_gid g]) /\
  (not_given l "gid" -> not_given l "group" -> c_rgid (ch_cred ch) = 0 /\ c_egid (ch_cred ch) = 0 /\ c_sgid (ch_cred ch) = 0 /\ c_groups (ch_cred ch) = [0]) /\
  (forall d, field l "workdir" text d -> not_given l "workdir" \/ ch_dir ch = d) /\
  (not_given l "workdir" -> ch_dir ch = ".") /\
  (exists path args env m, field l "path" text path /\ ch_image ch = Some (path, path :: args, env) /\ presents env m /\
     (forall ys, entry l "args" (YSeq ys) -> length args = length ys /\
        forall i y t, nth_error ys i = Some y -> text y t ->
          exists v, nth_error args i = Some v /\ rendered w ("Argument " +:+ show_Z (Z.of_nat i)) m t v) /\
     (no_entry l "args" -> args = [])).

(** Capability [x] is in the entry. *)
Definition listed (l : list (yaml * yaml)) (x : Z) : Prop :=
  exists ys y name, entry l "capabilities" (YSeq ys) /\ In y ys /\ text y name /\ In (name, x) linux_caps.
