(** From all the entries for one program, its main entry and its drop-ins, to the program that is run. *)
From stdpp Require Import gmap strings.
From Coq Require Import ZArith List Bool Permutation.
From Verif Require Import Base RStr ConfigModel ProcessModel EnvModel MainModel ChildModel YamlModel SpecConfig SpecEnv SpecChild SpecYaml SpecEnd.
Import ListNotations.
Local Open Scope string_scope.
Local Open Scope list_scope.
Local Open Scope Z_scope.

(** [ls] are the entries for program [n] in all the files, each one once. *)
Definition entries_of (k : machine) (syntax : string -> option yaml) (n : string) (ls : list (list (yaml * yaml))) : Prop :=
  exists ps : list (list nat * nat), List.NoDup ps /\
    Forall2 (fun p l => stands k syntax (fst p) (snd p) (YMap l) /\ field l "name" text n) ps ls /\
    (forall p i l, stands k syntax p i (YMap l) -> field l "name" text n -> In (p, i) ps).

(** The entry has a value for the option. *)
Definition given (l : list (yaml * yaml)) (key : string) : Prop := exists v, entry l key v /\ ~ null v.
Definition gives {A} (l : list (yaml * yaml)) (key : string) (R : yaml -> A -> Prop) (x : A) : Prop :=
  exists v, entry l key v /\ ~ null v /\ R v x.
(** [x] is in the list the entry has for the option. *)
Definition lists (l : list (yaml * yaml)) (key x : string) : Prop :=
  exists ys y, entry l key (YSeq ys) /\ In y ys /\ text y x.

(** Options that only one entry may give. *)
Definition single : list string := ["path"; "workdir"; "uid"; "gid"; "user"; "group"].

(** The value of an option is the one that some entry gives. *)
Definition some_entry {A} (ls : list (list (yaml * yaml))) (key : string) (R : yaml -> A -> Prop) (o : option A) : Prop :=
  forall x, o = Some x <-> exists l, In l ls /\ gives l key R x.

(** The merged program [c] is what the entries [ls] say together. *)
Record together (lib : library) (ls : list (list (yaml * yaml))) (c : proc_config) : Prop := {
  to_name : forall l, In l ls -> field l "name" text (pc_name c);
  to_single : forall key, In key single -> ~ two (fun l => given l key) ls;
  to_cronjob : forall l t, In l ls -> field l "type" (kind lib) (CronJob t) -> given l "path";
  to_runs : pc_path c <> None;
  to_path : some_entry ls "path" text (pc_path c);
  to_workdir : some_entry ls "workdir" text (pc_workdir c);
  to_uid : some_entry ls "uid" number (pc_uid c);
  to_gid : some_entry ls "gid" number (pc_gid c);
  to_user : some_entry ls "user" text (pc_user c);
  to_group : some_entry ls "group" text (pc_group c);
  to_before : forall x, In x (pc_before c) <-> exists l, In l ls /\ lists l "before" x;
  to_after : forall x, In x (pc_after c) <-> exists l, In l ls /\ lists l "after" x;
  to_caps : forall x, In x (pc_caps c) <-> exists l, In l ls /\ lists l "capabilities" x;
  to_pty : pc_pty c = true <-> exists l, In l ls /\ field l "pty" flag true;
  (** The main entry is the one with the path.  It has the type, and comes first in arguments and environment. *)
  to_main : exists l rest args envs, Permutation (l :: rest) ls /\ given l "path" /\
    field_or l "type" (kind lib) Oneshot (pc_type c) /\
    Forall2 (fun l ts => field_or l "args" (list_of lib text) [] ts) (l :: rest) args /\ pc_args c = concat args /\
    Forall2 (fun l es => field_or l "env" (list_of lib (item lib)) [] es) (l :: rest) envs /\ pc_env c = concat envs
}.

(** The entries cannot be one program. *)
Definition contradictory (lib : library) (ls : list (list (yaml * yaml))) : Prop :=
  (exists key, In key single /\ two (fun l => given l key) ls) \/
  (exists l t, In l ls /\ field l "type" (kind lib) (CronJob t) /\ ~ given l "path") \/
  (forall l, In l ls -> ~ given l "path").

(** Users, directory, program file, arguments and environment of a child are the ones in the entries. *)
Record runs_together (lib : library) (w : world) (ls : list (list (yaml * yaml))) (ch : child) : Prop := {
  ru_uid : forall l m, In l ls -> gives l "uid" number m -> c_ruid (ch_cred ch) = m /\ c_euid (ch_cred ch) = m /\ c_suid (ch_cred ch) = m;
  ru_user : forall l m, In l ls -> gives l "user" text m -> exists u, w_user w m = Some (Some u) /\
    c_ruid (ch_cred ch) = u_uid u /\ c_euid (ch_cred ch) = u_uid u /\ c_suid (ch_cred ch) = u_uid u;
  ru_root : (forall l, In l ls -> not_given l "uid" /\ not_given l "user") ->
    c_ruid (ch_cred ch) = 0 /\ c_euid (ch_cred ch) = 0 /\ c_suid (ch_cred ch) = 0;
  ru_gid : forall l m, In l ls -> gives l "gid" number m ->
    c_rgid (ch_cred ch) = m /\ c_egid (ch_cred ch) = m /\ c_sgid (ch_cred ch) = m /\ c_groups (ch_cred ch) = [m];
  ru_group : forall l m, In l ls -> gives l "group" text m -> exists g, w_group w m = Some (Some g) /\
    c_rgid (ch_cred ch) = g_gid g /\ c_egid (ch_cred ch) = g_gid g /\ c_sgid (ch_cred ch) = g_gid g /\ c_groups (ch_cred ch) = [g_gid g];
  ru_root_group : (forall l, In l ls -> not_given l "gid" /\ not_given l "group") ->
    c_rgid (ch_cred ch) = 0 /\ c_egid (ch_cred ch) = 0 /\ c_sgid (ch_cred ch) = 0 /\ c_groups (ch_cred ch) = [0];
  ru_dir : forall l d, In l ls -> gives l "workdir" text d -> ch_dir ch = d;
  ru_here : (forall l, In l ls -> not_given l "workdir") -> ch_dir ch = ".";
  (** The main entry comes first, then the drop-ins, in the same order for arguments and environment. *)
  ru_image : exists l rest path args env m u t raws envs, Permutation (l :: rest) ls /\ gives l "path" text path /\
    ch_image ch = Some (path, path :: args, env) /\
    field_or l "type" (kind lib) Oneshot t /\ u_uid u = c_ruid (ch_cred ch) /\
    Forall2 (fun l ts => field_or l "args" (list_of lib text) [] ts) (l :: rest) raws /\
    Forall2 (fun l es => field_or l "env" (list_of lib (item lib)) [] es) (l :: rest) envs /\
    env_after w u (concat (concat envs)) m /\
    let seen := match t with Notify => <["NOTIFY_SOCKET" := "/run/cinit-notify.socket"]> m | _ => m end in
    presents env seen /\ length args = length (concat raws) /\
    (forall i x, nth_error (concat raws) i = Some x ->
       exists v, nth_error args i = Some v /\ rendered w ("Argument " +:+ show_Z (Z.of_nat i)) seen x v)
}.
