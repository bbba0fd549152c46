(** What cinit logs while its event loop runs, function by function, all levels but
    DEBUG; DebugModel.v has the whole log.  The steps are those of SysModel.v; a message depends on the state before the
    step and on the answers of the system calls.  A step that panics logs what comes
    before the panic. *)
From stdpp Require Import gmap strings.
From Coq Require Import Ascii ZArith List Bool.
From Verif Require Import Base RStr CronModel ProcessModel DepModel NotifyModel ManagerModel SysModel LogModel.
Import ListNotations.
Local Open Scope string_scope.
Local Open Scope list_scope.
Local Open Scope Z_scope.

(** A line of the log: a message of cinit or a line of a program's output. *)
Inductive line := Own (l : level) (text : string) | Child (out : bool) (name text : string).

(** What the step of SysModel.v does not say because nothing but a message depends on
    it: how far starting a program came before it failed (src/runtime/process.rs:151-185:
    no pipes, no FD_CLOEXEC, no fork), whether the status report met a write error
    (status_reporter.rs:46-48), and the text of an error of the kernel or of a library.
    For messages at DEBUG level (DebugModel.v): whether the flags and the size of the
    terminal at stdin can be read (process.rs:386-397), what comes with SIGCHLD
    (process_manager/mod.rs:289-292), whether there was no signal to read or an error with
    this text (mod.rs:299-304), and whether a program killed by a signal dumped core. *)
Inductive stage := NoPipes | NoFlags | NoFork.
Record detail := {
  d_stage : stage;
  d_unwritten : bool;
  d_error : string;
  d_flags : bool;
  d_size : bool;
  d_sender : Z;
  d_code : Z;
  d_unread : option string;
  d_core : bool
}.

(** The same text at two levels. *)
Definition both (l : level) (text : string) : list line := [Own l text; Own LTrace text].

(** src/runtime/process.rs:149, 448: what is said before the fork *)
Definition starting_says (p : process) (streams : bool) : list line :=
  [Own LInfo ("Starting " +:+ p_name p)] ++
  (if p_pty p && streams then [Own LInfo "Pseudo terminals created"] else []).

(** src/runtime/process_manager/mod.rs:337-339 *)
Definition register_says (watched : bool) : list line :=
  if watched then [] else [Own LWarn "Could not unregister fd from epoll"].

(** src/runtime/process_manager/mod.rs:411-438 with src/runtime/process.rs:148-187 *)
Definition spawn_says (d : detail) (g : manager) (id : nat) (r : fork_result) : list line :=
  match g_procs g !! id with
  | None => []
  | Some p =>
      if negb (pstate_eqb (p_state p) Blocked) && negb (pstate_eqb (p_state p) Sleeping)
      then both LWarn ("Refusing to start child '" +:+ p_name p +:+ "' which is currently " +:+ show_pstate (p_state p))
      else
        match r with
        | ForkFailed =>
            starting_says p (match d_stage d with NoPipes => false | _ => true end) ++
            (match d_stage d with NoFork => [Own LError "Forking failed"] | _ => [] end) ++
            [Own LError ("Failed to spawn child: " +:+ match d_stage d with NoFork => "EINVAL: Invalid argument" | _ => d_error d end)]
        | Forked pid _ _ wo we =>
            starting_says p true ++
            [Own LTrace ("Started child " +:+ p_name p); Own LInfo ("Started child " +:+ show_Z pid)] ++
            register_says wo ++ register_says we
        end
  end.

(** src/runtime/process_manager/mod.rs:384-388 *)
Definition spawn_dep_says (d : detail) (g : manager) (r : fork_result) : list line :=
  match pop_dep (g_dep g) with
  | None => []
  | Some (id, dm) =>
      let g := set_dep g dm in
      match g_procs g !! id with
      | None => []
      | Some p => match p_type p with RCronjob => [] | _ => spawn_says d g id r end
      end
  end.

(** src/runtime/process_manager/mod.rs:390-403 *)
Definition spawn_cron_says (d : detail) (tz : zone) (g : manager) (now : instant) (r : fork_result) : list line :=
  match cron_pop tz (g_cron g) now with
  | Ret (c, Some id) =>
      let g := set_cron g c in
      if is_runnable (g_dep g) id then spawn_says d g id r
      else
        match g_procs g !! id with
        | None => []
        | Some p => [Own LTrace ("Refusing to start cronjob child '" +:+ p_name p +:+ "' because of uncompleted dependencies")]
        end
  | _ => []
  end.

(** src/runtime/process_manager/mod.rs:311-319 *)
Definition shutdown_says : list line := [Own LInfo "Received termination signal"; Own LInfo "Killing children"].

(** src/runtime/process_manager/mod.rs:276-306 *)
Definition signal_says (sg : option signal) : list line :=
  match sg with
  | Some SIGCHLD | None => []
  | Some _ => shutdown_says
  end.

(** src/runtime/process_manager/mod.rs:148-191 *)
Definition finished_says (g : manager) (pid rc : Z) : list line :=
  match g_pids g !! pid with
  | None => both LInfo ("Reaped zombie process " +:+ show_Z pid +:+ " with return code " +:+ show_Z rc)
  | Some id =>
      match g_procs g !! id with
      | None => []
      | Some p =>
          if rc =? 0 then
            match p_type p with
            | RCronjob => both LInfo ("Child " +:+ p_name p +:+ " has finished and is going to sleep")
            | _ => both LInfo ("Child " +:+ p_name p +:+ " exited successfully")
            end
          else both LError ("Child " +:+ p_name p +:+ " crashed with " +:+ show_Z rc) ++ shutdown_says
      end
  end.

(** src/runtime/process_manager/mod.rs:118-139 *)
Definition ended_says (g : manager) (pid : Z) (st : status) : list line :=
  match st with
  | XExit rc => finished_says g pid rc
  | XSignal n => finished_says g pid n
  | XRealtime _ => []
  end.

(** src/runtime/process_manager/notify_manager.rs:150-160 *)
Definition parse_line_says (l : string) : list line :=
  match splitn2 "="%char l with
  | (key, Some value) =>
      if existsb (String.eqb key) allowed_keys then []
      else [Own LInfo ("notify manager ignores variable '" +:+ key +:+ "' = '" +:+ value +:+ "'")]
  | (_, None) => [Own LWarn ("notify_manager failed to parse status line '" +:+ l +:+ "'")]
  end.

(** src/runtime/process.rs:197-256 *)
Definition notification_says (d : detail) (p : process) (key value : string) : list line :=
  if String.eqb key "READY" then
    if negb (String.eqb value "1") then [Own LWarn ("Expected READY=1 but value was '" +:+ value +:+ "'")]
    else if pstate_eqb (p_state p) Starting then both LInfo ("child " +:+ p_name p +:+ " has started successfully")
    else []
  else if String.eqb key "STOPPING" then
    if negb (String.eqb value "1") then [Own LWarn ("Expected STOPPING=1 but value was '" +:+ value +:+ "'")]
    else both LInfo ("child " +:+ p_name p +:+ " is shutting down")
  else if String.eqb key "STATUS" then [Own LTrace ("child " +:+ p_name p +:+ ": " +:+ value)]
  else if String.eqb key "MAINPID" then
    match parse_i32 value with
    | None => [Own LWarn ("could not parse new main pid '" +:+ value +:+ "': " +:+ d_error d)]
    | Some pid =>
        if pid =? p_pid p then []
        else both LInfo ("child " +:+ p_name p +:+ " main pid is changed from " +:+ show_Z (p_pid p) +:+ " to " +:+ show_Z pid)
    end
  else [].

(** src/runtime/process_manager/notify_manager.rs:108-110 *)
Fixpoint notifications_say (d : detail) (p : process) (vars : list (string * string)) : list line :=
  match vars with
  | [] => []
  | (key, value) :: rest => notification_says d p key value ++ notifications_say d (proc_notification p key value) rest
  end.

(** src/runtime/process_manager/notify_manager.rs:91-117 *)
Definition message_says (d : detail) (order : list (string * string) -> list (string * string))
  (g : manager) (text : string) (sender : Z) : list line :=
  match g_pids g !! sender with
  | None => [Own LWarn ("Got notification from unknown pid " +:+ show_Z sender)]
  | Some id =>
      match g_procs g !! id with
      | None => []
      | Some p =>
          match p_type p with
          | RNotify => flat_map parse_line_says (lines text) ++ notifications_say d p (order (parse text))
          | _ => [Own LWarn "cinit only accepts notifications from processes of type notify";
                  Own LWarn (p_name p +:+ " is not allowed to send notifications")]
          end
      end
  end.

(** src/runtime/process_manager/notify_manager.rs:45-85 *)
Definition receive_says (d : detail) (order : list (string * string) -> list (string * string))
  (g : manager) (datagram : string) (sender : Z) : list line :=
  match read_text datagram with
  | Some (Ret text) => message_says d order g text sender
  | _ => []
  end.

(** src/runtime/process_manager/status_reporter.rs:35-50 *)
Definition report_says (d : detail) (accepted : bool) : list line :=
  if accepted && negb (d_unwritten d) then [] else [Own LWarn ("Failed to print report: " +:+ d_error d)].

(** src/runtime/process_manager/mod.rs:351-371 *)
Definition output_says (g : manager) (fd : Z) (data : string) : list line :=
  match process_for_fd g fd with
  | Panic _ => []
  | Ret p => map (Child (is_stdout g fd) (p_name p)) (List.filter nonempty (lines (utf8_lossy data)))
  end.

(** src/runtime/process_manager/mod.rs:249-269.  Removing a descriptor from epoll
    (mod.rs:343-348) is taken to succeed: epoll has just reported it. *)
Definition event_says (d : detail) (e : env) (s : sys) (ev : epev) (a : answer) : list line :=
  let g := s_g s in
  match ev with
  | EvIn fd =>
      if fd =? e_signal e then match a with ASignal sg => signal_says sg | _ => [] end
      else if fd =? e_status e then match a with AAccept ok => report_says d ok | _ => [] end
      else if fd =? e_notify e then
        match a with
        | AMessage (Some (datagram, sender)) => receive_says d (e_order e) g datagram sender
        | AMessage None => [Own LWarn ("Failed to receive notification: " +:+ d_error d)]
        | _ => []
        end
      else
        match a with
        | ARead (Some n) => match k_pipes (s_k s) !! fd with Some p => output_says g fd (stake n (pp_buf p)) | None => [] end
        | _ => []
        end
  | EvHup _ => []
  | EvOther _ => [Own LWarn "Received unknown event"]
  end.

(** src/runtime/process_manager/mod.rs:95-112 *)
Definition head_says (s : sys) : list line :=
  let g := s_g s in
  if s_shut s then if has_running_processes g then [] else both LInfo "Exiting"
  else if g_keep g && (has_running_processes g || has_runnables (g_dep g)) then []
  else [Own LInfo "Shutting down"].

(** One step of SysModel.v. *)
Definition step_says (e : env) (s : sys) (o : op) (d : detail) : list line :=
  let g := s_g s in
  match o with
  | CHead => head_says s
  | CSpawnDep r => spawn_dep_says d g r
  | CSpawnCron now r => spawn_cron_says d (e_zone e) g now r
  | CPoll None => [Own LError ("Could not complete epoll: " +:+ d_error d)]
  | CEvent a => match s_pc s with AtEvents (ev :: _) => event_says d e s ev a | _ => [] end
  | CWait (Some pid) => match k_procs (s_k s) !! pid with Some (KZombie st) => ended_says g pid st | _ => [] end
  | _ => []
  end.

(** An execution: where it leads and the log written on the way. *)
Fixpoint narrate (e : env) (s : sys) (ops : list (op * detail)) : option (sys * list line) :=
  match ops with
  | [] => Some (s, [])
  | (o, d) :: rest =>
      match sstep e s o with
      | None => None
      | Some s' => match narrate e s' rest with Some (s2, ls) => Some (s2, step_says e s o d ++ ls) | None => None end
      end
  end.
