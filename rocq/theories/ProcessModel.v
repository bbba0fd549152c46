(** Model of src/runtime/process.rs: the process record and what changes it. *)
From Coq Require Import String ZArith List Bool.
From Verif Require Import Base RStr.
Import ListNotations.
Local Open Scope string_scope.
Local Open Scope Z_scope.

(** src/runtime/process.rs:56-63 *)
Inductive run_type := ROneshot | RNotify | RCronjob.

(** src/runtime/process.rs:67-91 *)
Inductive pstate :=
| Blocked
| Sleeping
| Starting
| Running
| Stopping
| Done
| Crashed (rc : Z).

(** [PartialEq] on states. *)
Definition pstate_eqb (a b : pstate) : bool :=
  match a, b with
  | Blocked, Blocked | Sleeping, Sleeping | Starting, Starting | Running, Running
  | Stopping, Stopping | Done, Done => true
  | Crashed x, Crashed y => x =? y
  | _, _ => false
  end.

(** src/runtime/process.rs:95-108 *)
Definition show_pstate (s : pstate) : string :=
  match s with
  | Blocked => "blocked"
  | Sleeping => "sleeping"
  | Starting => "starting"
  | Running => "running"
  | Stopping => "stopping"
  | Done => "done"
  | Crashed _ => "crashed"
  end.

(** src/runtime/process.rs:113-140.  CStrings and paths are byte strings; uid, gid
    and pid are numbers. *)
Record process := {
  p_name : string;
  p_path : string;
  p_args : list string;
  p_workdir : string;
  p_uid : Z;
  p_gid : Z;
  p_pty : bool;
  p_caps : list string;
  p_env : list string;
  p_state : pstate;
  p_type : run_type;
  p_pid : Z;
  p_status : string
}.

Definition with_state (p : process) (s : pstate) : process :=
  {| p_name := p_name p; p_path := p_path p; p_args := p_args p; p_workdir := p_workdir p; p_uid := p_uid p;
     p_gid := p_gid p; p_pty := p_pty p; p_caps := p_caps p; p_env := p_env p; p_state := s; p_type := p_type p;
     p_pid := p_pid p; p_status := p_status p |}.
Definition with_pid (p : process) (pid : Z) : process :=
  {| p_name := p_name p; p_path := p_path p; p_args := p_args p; p_workdir := p_workdir p; p_uid := p_uid p;
     p_gid := p_gid p; p_pty := p_pty p; p_caps := p_caps p; p_env := p_env p; p_state := p_state p; p_type := p_type p;
     p_pid := pid; p_status := p_status p |}.
Definition with_status (p : process) (s : string) : process :=
  {| p_name := p_name p; p_path := p_path p; p_args := p_args p; p_workdir := p_workdir p; p_uid := p_uid p;
     p_gid := p_gid p; p_pty := p_pty p; p_caps := p_caps p; p_env := p_env p; p_state := p_state p; p_type := p_type p;
     p_pid := p_pid p; p_status := s |}.

(** src/runtime/process.rs:164-169: the parent's side of a successful fork. *)
Definition started (p : process) (child : Z) : process :=
  with_pid (with_state p (match p_type p with RNotify => Starting | _ => Running end)) child.

(** src/runtime/process.rs:197-256 *)
Definition proc_notification (p : process) (key value : string) : process :=
  if String.eqb key "READY" then
    if negb (String.eqb value "1") then p
    else if pstate_eqb (p_state p) Starting then with_state p Running else p
  else if String.eqb key "STOPPING" then
    if negb (String.eqb value "1") then p else with_state p Stopping
  else if String.eqb key "STATUS" then with_status p value
  else if String.eqb key "MAINPID" then
    match parse_i32 value with
    | Some pid => with_pid p pid
    | None => p
    end
  else p.
