(** Model of src/startup_checks.rs, src/analyse/process_manager_builder.rs and
    src/main.rs: everything before the event loop. *)
From stdpp Require Import gmap strings.
From Coq Require Import Ascii ZArith List Bool.
From Verif Require Import Base RStr CronModel ConfigModel ProcessModel EnvModel DepModel.
Import ListNotations.
Local Open Scope string_scope.
Local Open Scope list_scope.

(** src/startup_checks.rs:25 *)
Definition STARTUP_EXIT : Z := 5.
(** src/analyse/process_manager_builder.rs:62 *)
Definition ANALYSE_EXIT : Z := 2.
(** src/runtime/process_manager/mod.rs:44 *)
Definition RUNTIME_EXIT : Z := 3.

(** src/startup_checks.rs:34-73.  [None]: uname() failed. *)
Definition check_kernel_version (release : option string) : result unit Z :=
  match release with
  | None => Ok tt
  | Some raw =>
      match split_on "."%char (utf8_lossy raw) with
      | major_raw :: minor_raw :: _ =>
          match parse_u32 major_raw, parse_u32 minor_raw with
          | Some major, Some minor =>
              if ((major <? 4) || ((major =? 4) && (minor <? 3)))%Z then Err STARTUP_EXIT else Ok tt
          | _, _ => Ok tt
          end
      | _ => Ok tt
      end
  end.
(** src/startup_checks.rs:76-86 *)
Definition check_user (uid : Z) : result unit Z := if (uid =? 0)%Z then Ok tt else Err STARTUP_EXIT.
(** src/startup_checks.rs:28-31 *)
Definition do_startup_checks (release : option string) (uid : Z) : result unit Z :=
  match check_kernel_version release with
  | Err e => Err e
  | Ok _ => check_user uid
  end.

(** Everything outside of cinit that is consulted before the event loop.
    [m_sockets]: signal fd and both sockets could be set up; [m_epoll]: epoll_create
    succeeded; [m_setup]: the epoll registrations and the prctl of
    src/runtime/process_manager/mod.rs:217-246 succeeded.  The system calls behind
    these three are not modelled further. *)
Record machine := {
  m_release : option string;
  m_uid : Z;
  m_yaml : string -> option (list proc_config);
  m_drain : dict -> dict;
  m_files : node;
  m_world : world;
  m_order : list nat -> list nat;
  m_toposort : list nat -> list (nat * nat) -> option nat;
  m_zone : zone;
  m_clock : list instant;
  m_sockets : bool;
  m_epoll : bool;
  m_setup : bool
}.

(** src/analyse/process_manager_builder.rs:73-84 *)
Fixpoint build_processes (w : world) (configs : list proc_config) : outcome (result (list process) Z) :=
  match configs with
  | [] => Ret (Ok [])
  | c :: rest =>
      let! r := process_from w c in
      match r with
      | Err _ => Ret (Err ANALYSE_EXIT)
      | Ok p =>
          let! rs := build_processes w rest in
          match rs with
          | Err e => Ret (Err e)
          | Ok ps => Ret (Ok (p :: ps))
          end
      end
  end.

(** src/analyse/process_manager_builder.rs:180-241.  The error messages index the
    programs with the reported position; an index out of bounds would panic. *)
Definition build_dependency_manager (order : list nat -> list nat) (toposort : list nat -> list (nat * nat) -> option nat)
  (configs : list proc_config) : outcome (result dep_manager Z) :=
  let! r := with_nodes order toposort (enumerate configs) in
  match r with
  | Ok m => Ret (Ok m)
  | Err e =>
      let message :=
        match e with
        | Cycle i => match nth_error configs i with Some _ => true | None => false end
        | UnknownAfterReference i k =>
            match nth_error configs i with
            | Some c => match nth_error (pc_after c) k with Some _ => true | None => false end
            | None => false
            end
        | UnknownBeforeReference i k =>
            match nth_error configs i with
            | Some c => match nth_error (pc_before c) k with Some _ => true | None => false end
            | None => false
            end
        | CronjobDependencyOf i => match nth_error configs i with Some _ => true | None => false end
        end in
      if message then Ret (Err ANALYSE_EXIT) else Panic "index out of bounds"
  end.

(** src/analyse/process_manager_builder.rs:249-278 *)
Definition timer_text (c : proc_config) : option string :=
  match pc_type c with CronJob t => Some t | _ => None end.
Definition build_cron (tz : zone) (clock : list instant) (configs : list proc_config) : outcome (result cron Z) :=
  let jobs := List.filter (fun e => is_cronjob (pc_type (snd e))) (enumerate configs) in
  let! r := with_jobs tz (map (fun e => (fst e, timer_text (snd e))) jobs) clock in
  match r with
  | Ok c => Ret (Ok c)
  | Err (_, id) =>
      match nth_error configs id with
      | Some _ => Ret (Err ANALYSE_EXIT)
      | None => Panic "index out of bounds"
      end
  end.

(** What the analysis phase hands to the runtime. *)
Record analysis := { a_processes : list process; a_dep : dep_manager; a_cron : cron }.

(** src/analyse/process_manager_builder.rs:72-108 *)
Definition manager_from (k : machine) (configs : list proc_config) : outcome (result analysis Z) :=
  let! ps := build_processes (m_world k) configs in
  match ps with
  | Err e => Ret (Err e)
  | Ok ps =>
      let! dep := build_dependency_manager (m_order k) (m_toposort k) configs in
      let! cron := build_cron (m_zone k) (m_clock k) configs in
      if negb (m_sockets k) then Ret (Err ANALYSE_EXIT)
      else match dep with
      | Err e => Ret (Err e)
      | Ok dep =>
          match cron with
          | Err e => Ret (Err e)
          | Ok cron =>
              if m_epoll k then Ret (Ok {| a_processes := ps; a_dep := dep; a_cron := cron |})
              else Panic "Could not create epoll fd"
          end
      end
  end.

(** cinit exits with a code before the event loop, or enters the event loop. *)
Inductive boot := Exits (code : Z) | EntersLoop (configs : list proc_config) (a : analysis).

(** src/main.rs:78-110 and src/runtime/process_manager/mod.rs:83-92.  Command line
    parsing is in CliModel.v, logging in LogModel.v. *)
Definition run (k : machine) : outcome boot :=
  match do_startup_checks (m_release k) (m_uid k) with
  | Err e => Ret (Exits e)
  | Ok _ =>
      let! r := parse_config (m_yaml k) (m_drain k) (m_files k) in
      match r with
      | Err e => Ret (Exits e)
      | Ok configs =>
          let! a := manager_from k configs in
          match a with
          | Err e => Ret (Exits e)
          | Ok a => if m_setup k then Ret (EntersLoop configs a) else Ret (Exits RUNTIME_EXIT)
          end
      end
  end.
