(** The whole log of the event loop: TraceModel.v with the messages at DEBUG level.
    Functions of TraceModel.v that have no such message are used as they are. *)
From stdpp Require Import gmap strings.
From Coq Require Import Ascii ZArith List Bool.
From Verif Require Import Base RStr CronModel ProcessModel DepModel NotifyModel ManagerModel SysModel LogModel TraceModel.
Import ListNotations.
Local Open Scope string_scope.
Local Open Scope list_scope.
Local Open Scope Z_scope.

Definition debug (text : string) : line := Own LDebug text.

(** src/runtime/process.rs:149, 398-399, 422-423, 448 *)
Definition starting_logs (d : detail) (p : process) (streams : bool) : list line :=
  [Own LInfo ("Starting " +:+ p_name p)] ++
  (if p_pty p then
     (if d_flags d then [] else [debug "Could not get terminal flags"]) ++
     (if d_size d then [] else [debug "Not running inside tty, using sane defaults"]) ++
     (if streams then [Own LInfo "Pseudo terminals created"] else [])
   else []).

(** src/runtime/process_manager/mod.rs:331-340 *)
Definition register_logs (fd : Z) (watched : bool) : list line :=
  debug ("Registering fd " +:+ show_Z fd) :: register_says watched.

(** src/runtime/process_manager/mod.rs:411-438 with src/runtime/process.rs:148-187 *)
Definition spawn_logs (d : detail) (g : manager) (id : nat) (r : fork_result) : list line :=
  match g_procs g !! id with
  | None => []
  | Some p =>
      if negb (pstate_eqb (p_state p) Blocked) && negb (pstate_eqb (p_state p) Sleeping)
      then both LWarn ("Refusing to start child '" +:+ p_name p +:+ "' which is currently " +:+ show_pstate (p_state p))
      else
        match r with
        | ForkFailed =>
            starting_logs d p (match d_stage d with NoPipes => false | _ => true end) ++
            (match d_stage d with NoFork => [Own LError "Forking failed"] | _ => [] end) ++
            [Own LError ("Failed to spawn child: " +:+ match d_stage d with NoFork => "EINVAL: Invalid argument" | _ => d_error d end)]
        | Forked pid out err wo we =>
            starting_logs d p true ++
            [Own LTrace ("Started child " +:+ p_name p); Own LInfo ("Started child " +:+ show_Z pid)] ++
            register_logs out wo ++ register_logs err we
        end
  end.

(** src/runtime/process_manager/mod.rs:384-388 *)
Definition spawn_dep_logs (d : detail) (g : manager) (r : fork_result) : list line :=
  match pop_dep (g_dep g) with
  | None => []
  | Some (id, dm) =>
      let g := set_dep g dm in
      match g_procs g !! id with
      | None => []
      | Some p => match p_type p with RCronjob => [] | _ => spawn_logs d g id r end
      end
  end.

(** src/runtime/cronjob.rs:338-357: the next time as it is before a free slot is looked
    for *)
Definition cron_pop_logs (e : env) (c : cron) (now : instant) : list line :=
  match timer c with
  | (t, id) :: _ =>
      if t <=? now then
        match timer_of c id with
        | None => []
        | Some d =>
            match next_execution (e_zone e) d now with
            | Ret u => [debug ("Scheduled next execution at " +:+ e_rfc3339 e u)]
            | Panic _ => []
            end
        end
      else []
  | [] => []
  end.
(** src/runtime/process_manager/mod.rs:390-403 *)
Definition spawn_cron_logs (d : detail) (e : env) (g : manager) (now : instant) (r : fork_result) : list line :=
  cron_pop_logs e (g_cron g) now ++
  match cron_pop (e_zone e) (g_cron g) now with
  | Ret (c, Some id) =>
      let g := set_cron g c in
      if is_runnable (g_dep g) id then spawn_logs d g id r
      else
        match g_procs g !! id with
        | None => []
        | Some p => both LDebug ("Refusing to start cronjob child '" +:+ p_name p +:+ "' because of uncompleted dependencies")
        end
  | _ => []
  end.

(** src/runtime/process_manager/mod.rs:276-306; the arm for other signals (line 294-296)
    is never taken: the descriptor is made for the four signals only. *)
Definition signal_logs (d : detail) (sg : option signal) : list line :=
  match sg with
  | Some SIGCHLD => [debug ("Child " +:+ show_Z (d_sender d) +:+ " has exited with " +:+ show_Z (d_code d))]
  | Some _ => shutdown_says
  | None => [debug (match d_unread d with None => "No signal received" | Some why => "Received unknown signal: " +:+ why end)]
  end.

(** src/runtime/dependency_graph.rs:115-120 *)
Definition finished_dep_logs (d : dep_manager) (id : nat) : list line :=
  match dm_nodes d !! id with
  | Some n => if n_finished n then [debug ("Process " +:+ show_Z (Z.of_nat id) +:+ " has already triggered its dependants")] else []
  | None => []
  end.

(** src/runtime/process_manager/mod.rs:148-191; after a panic while the other programs
    are signalled nothing is logged. *)
Definition finished_logs (reach : Z -> bool) (g : manager) (pid rc : Z) : list line :=
  finished_says g pid rc ++
  match g_pids g !! pid with
  | None => []
  | Some id =>
      match g_procs g !! id with
      | None => []
      | Some p =>
          match p_type p with
          | RCronjob => []
          | _ =>
              if rc =? 0 then finished_dep_logs (g_dep g) id
              else
                match initiate_shutdown reach (update g id (with_state p (Crashed rc))) SIGINT with
                | Go _ _ => finished_dep_logs (g_dep g) id
                | Die _ _ => []
                end
          end
      end
  end.

(** nix::sys::signal::Signal with derive(Debug) *)
Definition signal_name (n : Z) : string :=
  match n with
  | 1 => "SIGHUP" | 2 => "SIGINT" | 3 => "SIGQUIT" | 4 => "SIGILL" | 5 => "SIGTRAP" | 6 => "SIGABRT" | 7 => "SIGBUS" | 8 => "SIGFPE"
  | 9 => "SIGKILL" | 10 => "SIGUSR1" | 11 => "SIGSEGV" | 12 => "SIGUSR2" | 13 => "SIGPIPE" | 14 => "SIGALRM" | 15 => "SIGTERM"
  | 16 => "SIGSTKFLT" | 17 => "SIGCHLD" | 18 => "SIGCONT" | 19 => "SIGSTOP" | 20 => "SIGTSTP" | 21 => "SIGTTIN" | 22 => "SIGTTOU"
  | 23 => "SIGURG" | 24 => "SIGXCPU" | 25 => "SIGXFSZ" | 26 => "SIGVTALRM" | 27 => "SIGPROF" | 28 => "SIGWINCH" | 29 => "SIGIO"
  | 30 => "SIGPWR" | 31 => "SIGSYS"
  | _ => ""
  end.
(** src/runtime/process_manager/mod.rs:118-139, nix::sys::wait::WaitStatus with
    derive(Debug).  The last arm (line 134-136) is never taken: waitpid is not asked for
    stopped or continued processes. *)
Definition ended_logs (d : detail) (reach : Z -> bool) (g : manager) (pid : Z) (st : status) : list line :=
  match st with
  | XExit rc => debug ("Got signal from child: Exited(Pid(" +:+ show_Z pid +:+ "), " +:+ show_Z rc +:+ ")") :: finished_logs reach g pid rc
  | XSignal n =>
      debug ("Got signal from child: Signaled(Pid(" +:+ show_Z pid +:+ "), " +:+ signal_name n +:+ ", " +:+
             (if d_core d then "true" else "false") +:+ ")") :: finished_logs reach g pid n
  | XRealtime _ => []
  end.

(** src/runtime/process.rs:197-256 *)
Definition notification_logs (d : detail) (p : process) (key value : string) : list line :=
  if String.eqb key "READY" && String.eqb value "1" && negb (pstate_eqb (p_state p) Starting)
  then [debug ("child " +:+ p_name p +:+ " in " +:+ show_pstate (p_state p) +:+ " state has notified about startup")]
  else notification_says d p key value.
(** src/runtime/process_manager/notify_manager.rs:108-110 *)
Fixpoint notifications_log (d : detail) (p : process) (vars : list (string * string)) : list line :=
  match vars with
  | [] => []
  | (key, value) :: rest => notification_logs d p key value ++ notifications_log d (proc_notification p key value) rest
  end.
(** src/runtime/process_manager/notify_manager.rs:111-113, 121-138 *)
Fixpoint manager_logs (id : nat) (pid : Z) (g : manager) (vars : list (string * string)) : list line :=
  match vars with
  | [] => []
  | (key, value) :: rest =>
      (if String.eqb key "READY" && String.eqb value "1" then finished_dep_logs (g_dep g) id else []) ++
      match manager_notification id pid g (key, value) with Go g _ => manager_logs id pid g rest | Die _ _ => [] end
  end.
(** src/runtime/process_manager/notify_manager.rs:91-117 *)
Definition message_logs (d : detail) (order : list (string * string) -> list (string * string))
  (g : manager) (text : string) (sender : Z) : list line :=
  match g_pids g !! sender with
  | None => [Own LWarn ("Got notification from unknown pid " +:+ show_Z sender)]
  | Some id =>
      match g_procs g !! id with
      | None => []
      | Some p =>
          match p_type p with
          | RNotify =>
              let vars := order (parse text) in
              flat_map parse_line_says (lines text) ++ notifications_log d p vars ++
              manager_logs id (p_pid p)
                (update g id (fold_left (fun q v => proc_notification q (fst v) (snd v)) vars p)) vars
          | _ => [Own LWarn "cinit only accepts notifications from processes of type notify";
                  Own LWarn (p_name p +:+ " is not allowed to send notifications")]
          end
      end
  end.
(** src/runtime/process_manager/notify_manager.rs:45-85 *)
Definition receive_logs (d : detail) (order : list (string * string) -> list (string * string))
  (g : manager) (datagram : string) (sender : Z) : list line :=
  match read_text datagram with
  | Some (Ret text) =>
      debug ("Received notification '" +:+ text +:+ "' from " +:+ show_Z sender) :: message_logs d order g text sender
  | _ => []
  end.

(** src/runtime/process_manager/mod.rs:249-269 *)
Definition event_logs (d : detail) (e : env) (s : sys) (ev : epev) (a : answer) : list line :=
  let g := s_g s in
  match ev with
  | EvIn fd =>
      if fd =? e_signal e then match a with ASignal sg => signal_logs d sg | _ => [] end
      else if fd =? e_status e then match a with AAccept ok => report_says d ok | _ => [] end
      else if fd =? e_notify e then
        match a with
        | AMessage (Some (datagram, sender)) => receive_logs d (e_order e) g datagram sender
        | AMessage None => [Own LWarn ("Failed to receive notification: " +:+ d_error d)]
        | _ => []
        end
      else
        match a with
        | ARead (Some n) => match k_pipes (s_k s) !! fd with Some p => output_says g fd (stake n (pp_buf p)) | None => [] end
        | _ => []
        end
  | EvHup _ => []
  | EvOther _ => [Own LWarn "Received unknown event"]
  end.

(** One step of SysModel.v; for CPoll src/runtime/process_manager/mod.rs:194-209. *)
Definition step_logs (e : env) (s : sys) (o : op) (d : detail) : list line :=
  let g := s_g s in
  match o with
  | CHead => head_says s
  | CSpawnDep r => spawn_dep_logs d g r
  | CSpawnCron now r => spawn_cron_logs d e g now r
  | CPoll (Some l) => [debug ("Got " +:+ show_Z (Z.of_nat (length l)) +:+ " events")]
  | CPoll None => [Own LError ("Could not complete epoll: " +:+ d_error d)]
  | CEvent a => match s_pc s with AtEvents (ev :: _) => event_logs d e s ev a | _ => [] end
  | CWait (Some pid) =>
      match k_procs (s_k s) !! pid with
      | Some (KZombie st) => ended_logs d (reach (set_kprocs (s_k s) (delete pid (k_procs (s_k s))))) g pid st
      | _ => []
      end
  | _ => []
  end.

(** An execution: where it leads and the whole log written on the way. *)
Fixpoint narrate_all (e : env) (s : sys) (ops : list (op * detail)) : option (sys * list line) :=
  match ops with
  | [] => Some (s, [])
  | (o, d) :: rest =>
      match sstep e s o with
      | None => None
      | Some s' => match narrate_all e s' rest with Some (s2, ls) => Some (s2, step_logs e s o d ++ ls) | None => None end
      end
  end.
