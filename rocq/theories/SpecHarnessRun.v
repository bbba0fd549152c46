(** The harness as a program of cinit: what it finds is what the entries of its program say. *)
From stdpp Require Import gmap strings.
From Coq Require Import Ascii ZArith List Bool Permutation.
From Verif Require Import Base RStr ConfigModel ProcessModel EnvModel ChildModel YamlModel SpecStr SpecConfig SpecEnv SpecYaml SpecEnd SpecDropin HarnessModel SpecHarness.
Import ListNotations.
Local Open Scope string_scope.
Local Open Scope list_scope.
Local Open Scope Z_scope.

Record as_entries (lib : library) (w : world) (place : string -> string) (ls : list (list (yaml * yaml))) (s : self) : Prop := {
  ae_uid : forall l m, In l ls -> gives l "uid" number m -> se_uid s = m;
  ae_user : forall l m, In l ls -> gives l "user" text m -> exists u, w_user w m = Some (Some u) /\ se_uid s = u_uid u;
  ae_root : (forall l, In l ls -> not_given l "uid" /\ not_given l "user") -> se_uid s = 0;
  ae_gid : forall l m, In l ls -> gives l "gid" number m -> se_gid s = m;
  ae_group : forall l m, In l ls -> gives l "group" text m -> exists g, w_group w m = Some (Some g) /\ se_gid s = g_gid g;
  ae_root_group : (forall l, In l ls -> not_given l "gid" /\ not_given l "group") -> se_gid s = 0;
  (** No supplementary group but the own one. *)
  ae_groups : se_groups s = [se_gid s];
  ae_dir : forall l d, In l ls -> gives l "workdir" text d -> se_dir s = place d;
  ae_here : (forall l, In l ls -> not_given l "workdir") -> se_dir s = place ".";
  ae_pty : se_tty s = true <-> exists l, In l ls /\ field l "pty" flag true;
  ae_caps : se_uid s <> 0 -> forall z, let some := exists l, In l ls /\ listed l z in
    (z ∈ se_eff s <-> some) /\ (z ∈ se_prm s <-> some) /\ (z ∈ se_inh s <-> some) /\ (z ∈ se_amb s <-> some);
  (** The main entry comes first, then the drop-ins. *)
  ae_image : exists l rest path args m u t raws envs, Permutation (l :: rest) ls /\ gives l "path" text path /\ se_args s = path :: args /\
    field_or l "type" (kind lib) Oneshot t /\ u_uid u = se_uid s /\
    Forall2 (fun l ts => field_or l "args" (list_of lib text) [] ts) (l :: rest) raws /\
    Forall2 (fun l es => field_or l "env" (list_of lib (item lib)) [] es) (l :: rest) envs /\
    env_after w u (concat (concat envs)) m /\
    let seen := match t with Notify => <["NOTIFY_SOCKET" := "/run/cinit-notify.socket"]> m | _ => m end in
    length args = length (concat raws) /\
    (forall i x, nth_error (concat raws) i = Some x ->
       exists v, nth_error args i = Some v /\ rendered w ("Argument " +:+ show_Z (Z.of_nat i)) seen x v) /\
    presents (se_env s) seen /\
    (** Variables with proper names are written as they are. *)
    ((forall k v, seen !! k = Some v -> k <> "" /\ free_of "="%char k) -> forall vs, variables (se_env s) vs -> forall k v, In (k, v) vs <-> seen !! k = Some v)
}.
