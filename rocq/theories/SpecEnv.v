(** What a started program should see, stated on the strings handed to execve. *)
From stdpp Require Import gmap strings.
From Coq Require Import Ascii ZArith List Bool.
From Verif Require Import Base RStr ConfigModel ProcessModel EnvModel.
Import ListNotations.
Local Open Scope string_scope.
Local Open Scope list_scope.

(** The variable an environment string defines: the text before the first "=". *)
Fixpoint variable (e : string) : string :=
  match e with
  | EmptyString => EmptyString
  | String c r => if Ascii.eqb c "=" then EmptyString else String c (variable r)
  end.

Definition binding (k v : string) : string := k +:+ "=" +:+ v.

(** Variable [k] has value [v], and no other. *)
Definition sees (env : list string) (k v : string) : Prop :=
  forall e, In e env /\ variable e = k <-> e = binding k v.

Definition no_eq (k : string) : Prop := ~ In "="%char (String.list_ascii_of_string k).

(** The entries of a program's env list, in order. *)
Definition env_entries (c : proc_config) : list (string * option string) := concat (pc_env c).
Definition named (c : proc_config) (k : string) : Prop := exists o, In (k, o) (env_entries c).
Definition plain_keys (c : proc_config) : Prop := forall k, named c k -> no_eq k.

(** An entry that sets its variable: one with a value, or one that cinit has. *)
Definition binds (w : world) (e : string * option string) : Prop :=
  match e with (k, Some _) => True | (k, None) => w_env w k <> None end.

Definition nine : list string := ["HOME"; "LANG"; "LANGUAGE"; "LOGNAME"; "PATH"; "PWD"; "SHELL"; "TERM"; "USER"].

(** The value of a well-known variable that the env list does not set. *)
Definition default_value (w : world) (u : user) (k : string) : string :=
  if String.eqb k "HOME" then utf8_lossy (u_dir u)
  else if String.eqb k "PWD" then utf8_lossy (u_dir u)
  else if String.eqb k "USER" then u_name u
  else if String.eqb k "LOGNAME" then u_name u
  else if String.eqb k "SHELL" then "/bin/sh"
  else match w_env w k with Some v => v | None => "" end.

(** The one user database entry a program's settings select. *)
Inductive selects {T} (by_id : Z -> option (option T)) (by_name : string -> option (option T))
  : option Z -> option string -> T -> Prop :=
| sel_id i t : by_id i = Some (Some t) -> selects by_id by_name (Some i) None t
| sel_name n t : by_name n = Some (Some t) -> selects by_id by_name None (Some n) t
| sel_root t : by_id 0%Z = Some (Some t) -> selects by_id by_name None None t.

(** Two worlds that differ in cinit's environment at most. *)
Definition same_but_env (w w' : world) : Prop :=
  w_uid w = w_uid w' /\ w_user w = w_user w' /\ w_gid w = w_gid w' /\ w_group w = w_group w' /\
  w_render w = w_render w' /\ w_order w = w_order w'.

Definition any_order (w : world) : Prop := forall l, Permutation (w_order w l) l.

(** A text rendered in an environment, the text itself if that fails. *)
Definition rendered (w : world) (name : string) (env : gmap string string) (raw v : string) : Prop :=
  w_render w name env raw = Some v \/ (w_render w name env raw = None /\ v = raw).

(** Environment strings and the map they were made from. *)
Definition presents (env : list string) (m : gmap string string) : Prop :=
  forall e, In e env <-> exists k v, m !! k = Some v /\ e = binding k v.

(** The environment after a list of entries, given step by step from the end. *)
Inductive env_after (w : world) (u : user) : list (string * option string) -> gmap string string -> Prop :=
| ea_none m : (forall k, m !! k = if decide (In k nine) then Some (default_value w u k) else None) ->
    env_after w u [] m
| ea_value es m k raw v : env_after w u es m -> rendered w k m raw v ->
    env_after w u (es ++ [(k, Some raw)]) (<[k := v]> m)
| ea_forward es m k v : env_after w u es m -> w_env w k = Some v ->
    env_after w u (es ++ [(k, None)]) (<[k := v]> m)
| ea_skip es m k : env_after w u es m -> w_env w k = None ->
    env_after w u (es ++ [(k, None)]) m.

(** Some string handed over to the C world contains a NUL byte. *)
Definition contains_nul (w : world) (c : proc_config) (u : user) : Prop :=
  exists m, env_after w u (env_entries c) m /\
  let env := match pc_type c with Notify => <["NOTIFY_SOCKET" := "/run/cinit-notify.socket"]> m | _ => m end in
  (exists k v, env !! k = Some v /\ has_nul (binding k v) = true) \/
  (exists path, pc_path c = Some path /\ has_nul path = true) \/
  (exists i x v, nth_error (pc_args c) i = Some x /\
     rendered w ("Argument " +:+ show_Z (Z.of_nat i)) env x v /\ has_nul v = true).
