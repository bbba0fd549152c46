(** Model of src/analyse/process_builder.rs. *)
From stdpp Require Import gmap strings.
From Coq Require Import ZArith List Bool.
From Verif Require Import Base RStr ConfigModel ProcessModel.
Import ListNotations.
Local Open Scope string_scope.
Local Open Scope list_scope.

(** src/analyse/process_builder.rs:74-84 *)
Inductive build_error := CronjobDependency | UserGroupInvalid | PathMissing.

(** nix::unistd::User and Group; only the fields cinit uses. *)
Record user := { u_uid : Z; u_name : string; u_dir : string }.
Record group := { g_gid : Z }.

(** Everything outside of cinit that building a program consults.
    A lookup in the user database gives an error ([None]), no entry ([Some None]) or an
    entry.  [w_env] is std::env::var: unset variables and values that are not UTF-8
    both give [None].  [w_render name context template] is tera, [None] on any error.
    [w_order] is the order in which a HashMap is iterated. *)
Record world := {
  w_uid : Z -> option (option user);
  w_user : string -> option (option user);
  w_gid : Z -> option (option group);
  w_group : string -> option (option group);
  w_env : string -> option string;
  w_render : string -> gmap string string -> string -> option string;
  w_order : list (string * string) -> list (string * string)
}.

(** src/analyse/process_builder.rs:209-237 *)
Definition map_id {T} (id : option Z) (name : option string)
  (from_id : Z -> option (option T)) (from_name : string -> option (option T)) : result T build_error :=
  match id, name with
  | Some _, Some _ => Err UserGroupInvalid
  | _, _ =>
      let id := match id, name with None, None => Some 0%Z | _, _ => id end in
      let by_id := match id with Some i => match from_id i with Some r => r | None => None end | None => None end in
      let by_name := match name with Some n => match from_name n with Some r => r | None => None end | None => None end in
      match opt_or by_id by_name with
      | Some t => Ok t
      | None => Err UserGroupInvalid
      end
  end.

(** src/analyse/process_builder.rs:259-275 *)
Definition default_keys : list string :=
  ["HOME"; "LANG"; "LANGUAGE"; "LOGNAME"; "PATH"; "PWD"; "SHELL"; "TERM"; "USER"].
Definition get_default_env (w : world) : gmap string string :=
  fold_left (fun env key => <[key := match w_env w key with Some v => v | None => "" end]> env) default_keys ∅.

(** src/analyse/process_builder.rs:180-186 *)
Definition sanitise_env (env : gmap string string) (u : user) : gmap string string :=
  <["SHELL" := "/bin/sh"]> (<["LOGNAME" := u_name u]> (<["USER" := u_name u]>
    (<["PWD" := utf8_lossy (u_dir u)]> (<["HOME" := utf8_lossy (u_dir u)]> env)))).

(** src/analyse/process_builder.rs:284-326, one entry *)
Definition copy_entry (w : world) (env : gmap string string) (entry : string * option string) : gmap string string :=
  match entry with
  | (key, None) => match w_env w key with Some v => <[key := v]> env | None => env end
  | (key, Some raw) => <[key := match w_render w key env raw with Some v => v | None => raw end]> env
  end.
(** src/analyse/process_builder.rs:284-326.  Each HashMap of the list comes in the
    order in which it is iterated. *)
Definition copy_from_config (w : world) (maps : list env_map) (env : gmap string string) : gmap string string :=
  fold_left (fun env entries => fold_left (copy_entry w) entries env) maps env.

(** src/analyse/process_builder.rs:240-244 *)
Definition convert_env (w : world) (maps : list env_map) (u : user) : gmap string string :=
  copy_from_config w maps (sanitise_env (get_default_env w) u).

(** CString::new(..).expect(..): panics on an interior NUL byte. *)
Definition cstring (msg s : string) : outcome string := if has_nul s then Panic msg else Ret s.
Fixpoint cstrings (msg : string) (l : list string) : outcome (list string) :=
  match l with
  | [] => Ret []
  | s :: r => let! s' := cstring msg s in let! r' := cstrings msg r in Ret (s' :: r')
  end.

(** src/analyse/process_builder.rs:331-338 *)
Definition flatten_to_strings (w : world) (env : gmap string string) : outcome (list string) :=
  cstrings "Could not build env var" (map (fun e => fst e +:+ "=" +:+ snd e) (w_order w (map_to_list env))).

(** src/analyse/process_builder.rs:157-164 and 359-386: the arguments from number [i] on *)
Fixpoint render_args (w : world) (env : gmap string string) (i : nat) (args : list string) : list string :=
  match args with
  | [] => []
  | x :: r =>
      (match w_render w ("Argument " +:+ show_Z (Z.of_nat i)) env x with Some v => v | None => x end)
        :: render_args w env (S i) r
  end.

(** src/analyse/process_manager_builder.rs:68 *)
Definition NOTIFY_SOCKET_PATH : string := "/run/cinit-notify.socket".

(** src/analyse/process_builder.rs:108-122: the environment of a program *)
Definition program_env (w : world) (c : proc_config) (u : user) : gmap string string :=
  let env := convert_env w (pc_env c) u in
  match pc_type c with
  | Notify => <["NOTIFY_SOCKET" := NOTIFY_SOCKET_PATH]> env
  | _ => env
  end.

(** src/analyse/process_builder.rs:100-170 *)
Definition process_from (w : world) (c : proc_config) : outcome (result process build_error) :=
  if is_cronjob (pc_type c) && negb (is_nil (pc_before c)) then Ret (Err CronjobDependency)
  else match map_id (pc_uid c) (pc_user c) (w_uid w) (w_user w) with
  | Err e => Ret (Err e)
  | Ok u =>
      match map_id (pc_gid c) (pc_group c) (w_gid w) (w_group w) with
      | Err e => Ret (Err e)
      | Ok g =>
          let env := program_env w c u in
          match pc_path c with
          | None => Ret (Err PathMissing)
          | Some path =>
              let! env_strings := flatten_to_strings w env in
              let! arg0 := cstring "Could not transform path" path in
              let! args := cstrings "Could not unwrap arg" (render_args w env 0 (pc_args c)) in
              Ret (Ok {|
                p_name := pc_name c;
                p_path := path;
                p_args := arg0 :: args;
                p_workdir := match pc_workdir c with None => "." | Some d => d end;
                p_uid := u_uid u;
                p_gid := g_gid g;
                p_pty := pc_pty c;
                p_caps := pc_caps c;
                p_env := env_strings;
                p_state := match pc_type c with CronJob _ => Sleeping | _ => Blocked end;
                p_type := match pc_type c with Oneshot => ROneshot | Notify => RNotify | CronJob _ => RCronjob end;
                p_pid := 0%Z;
                p_status := "" |})
          end
      end
  end.
