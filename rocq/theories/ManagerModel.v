(** Model of src/runtime/process_map.rs and of the event handlers in
    src/runtime/process_manager/: what each handler does to the manager's state
    and which effects it has.  Log messages of cinit itself are left out. *)
From stdpp Require Import gmap strings.
From Coq Require Import Ascii ZArith List Bool.
From Verif Require Import Base RStr CronModel ProcessModel DepModel NotifyModel.
Import ListNotations.
Local Open Scope string_scope.
Local Open Scope list_scope.
Local Open Scope Z_scope.

(** The signals cinit reads from its signal file descriptor,
    src/analyse/process_manager_builder.rs:125-133. *)
Inductive signal := SIGINT | SIGQUIT | SIGTERM | SIGCHLD.

(** How a process ended, as [waitpid] reports it: exit code, one of the signals nix
    knows (1 to 31), or a real-time signal, which nix refuses with EINVAL after the
    kernel has already removed the process. *)
Inductive status := XExit (rc : Z) | XSignal (number : Z) | XRealtime (number : Z).

(** Observable effects, in the order in which they happen. *)
Inductive event :=
| EStart (id : nat) (pid : Z)                  (* a program was forked *)
| EStartFail (id : nat)                        (* its pipes or the fork failed *)
| ERefused (id : nat)                          (* not forked: already active or ended *)
| EDue (id : nat) (now : instant)              (* a timer expired *)
| ESkipped (id : nat)                          (* a cron run was skipped: dependencies *)
| EOpen (fd : Z) (id : nat) (out : bool)       (* an output stream of a program opened *)
| EClosed (fd : Z)                             (* ... and closed *)
| EReap (pid : Z) (st : status)                (* the kernel removed a child for cinit *)
| EEnd (id : nat) (pid : Z) (rc : Z)           (* ... which cinit took for this program *)
| EUnknown (pid : Z) (rc : Z)                  (* ... which belongs to no program *)
| ELost (pid : Z)                              (* ... which cinit did not learn about *)
| ENotify (id : nat) (pid : Z) (vars : list (string * string))  (* accepted notification *)
| EIgnored (pid : Z)                           (* notification ignored *)
| ESignal (sg : signal)                        (* signal read *)
| EKill (pid : Z) (sg : signal)                (* signal sent *)
| EWrote (fd : Z) (data : string)              (* a program wrote to an output stream *)
| EChunk (fd : Z) (data : string)              (* output read *)
| ELog (out : bool) (name : string) (line : string)  (* logged for a program *)
| EReport (text : string)                      (* status report *)
| EExit (code : Z).                            (* cinit ended *)

(** src/runtime/process_manager/mod.rs:52-78 and src/runtime/process_map.rs:33-47.
    [g_epoll] is the epoll set's part for program output.  [fd_dict] holds exactly
    the descriptors of the two dictionaries and is left out; closing a descriptor
    is the removal from the kernel's table in the system model. *)
Record manager := {
  g_procs : list process;
  g_out : gmap Z nat;
  g_err : gmap Z nat;
  g_pids : gmap Z nat;
  g_keep : bool;
  g_dep : dep_manager;
  g_cron : cron;
  g_exit : Z;
  g_epoll : gset Z
}.

(** Assignments to single fields.  Entries are added to and removed from the dictionaries by
    src/runtime/process_map.rs:75-92 (descriptors) and 105-113 (pids); programs are looked up
    by pid and index as in 119-143, an index out of range being a panic. *)
Definition set_procs (g : manager) (x : list process) : manager :=
  {| g_procs := x; g_out := g_out g; g_err := g_err g; g_pids := g_pids g; g_keep := g_keep g; g_dep := g_dep g;
     g_cron := g_cron g; g_exit := g_exit g; g_epoll := g_epoll g |}.
Definition set_fds (g : manager) (out err : gmap Z nat) (ep : gset Z) : manager :=
  {| g_procs := g_procs g; g_out := out; g_err := err; g_pids := g_pids g; g_keep := g_keep g; g_dep := g_dep g;
     g_cron := g_cron g; g_exit := g_exit g; g_epoll := ep |}.
Definition set_pids (g : manager) (x : gmap Z nat) : manager :=
  {| g_procs := g_procs g; g_out := g_out g; g_err := g_err g; g_pids := x; g_keep := g_keep g; g_dep := g_dep g;
     g_cron := g_cron g; g_exit := g_exit g; g_epoll := g_epoll g |}.
Definition set_keep (g : manager) (x : bool) : manager :=
  {| g_procs := g_procs g; g_out := g_out g; g_err := g_err g; g_pids := g_pids g; g_keep := x; g_dep := g_dep g;
     g_cron := g_cron g; g_exit := g_exit g; g_epoll := g_epoll g |}.
Definition set_dep (g : manager) (x : dep_manager) : manager :=
  {| g_procs := g_procs g; g_out := g_out g; g_err := g_err g; g_pids := g_pids g; g_keep := g_keep g; g_dep := x;
     g_cron := g_cron g; g_exit := g_exit g; g_epoll := g_epoll g |}.
Definition set_cron (g : manager) (x : cron) : manager :=
  {| g_procs := g_procs g; g_out := g_out g; g_err := g_err g; g_pids := g_pids g; g_keep := g_keep g; g_dep := g_dep g;
     g_cron := x; g_exit := g_exit g; g_epoll := g_epoll g |}.
Definition set_exit (g : manager) (x : Z) : manager :=
  {| g_procs := g_procs g; g_out := g_out g; g_err := g_err g; g_pids := g_pids g; g_keep := g_keep g; g_dep := g_dep g;
     g_cron := g_cron g; g_exit := x; g_epoll := g_epoll g |}.

Definition update (g : manager) (id : nat) (p : process) : manager := set_procs g (<[id := p]> (g_procs g)).

(** What a handler does: a new state and effects, or a panic after some effects. *)
Inductive act := Go (g : manager) (evs : list event) | Die (msg : string) (evs : list event).

Definition then_ (a : act) (f : manager -> act) : act :=
  match a with
  | Go g e1 => match f g with Go g' e2 => Go g' (e1 ++ e2) | Die m e2 => Die m (e1 ++ e2) end
  | Die m e1 => Die m e1
  end.

Definition BOUNDS : string := "index out of bounds".

(** src/runtime/process_map.rs:66-68 *)
Definition has_running_processes (g : manager) : bool :=
  negb (bool_decide (g_out g = ∅) && bool_decide (g_err g = ∅) && bool_decide (g_pids g = ∅)).

(** src/runtime/process_map.rs:71-73 *)
Definition is_stdout (g : manager) (fd : Z) : bool := is_some (g_out g !! fd).

(** src/runtime/process_map.rs:95-103 *)
Definition process_for_fd (g : manager) (fd : Z) : outcome process :=
  match g_out g !! fd with
  | Some id => match g_procs g !! id with Some p => Ret p | None => Panic BOUNDS end
  | None =>
      match g_err g !! fd with
      | Some id => match g_procs g !! id with Some p => Ret p | None => Panic BOUNDS end
      | None => Panic "Requested invalid fd"
      end
  end.

(** src/runtime/process_manager/mod.rs:318-328: the children to signal *)
Definition running_pids (g : manager) : list Z :=
  map p_pid (List.filter (fun p => pstate_eqb (p_state p) Running) (g_procs g)).

(** src/runtime/process_manager/mod.rs:326: one [kill] after the other; [reach]
    tells whether the kernel finds a receiver. *)
Fixpoint kill_all (reach : Z -> bool) (sg : signal) (pids : list Z) : list event * bool :=
  match pids with
  | [] => ([], true)
  | pid :: rest =>
      if reach pid then let (evs, ok) := kill_all reach sg rest in (EKill pid sg :: evs, ok)
      else ([], false)
  end.

(** src/runtime/process_manager/mod.rs:311-315 *)
Definition initiate_shutdown (reach : Z -> bool) (g : manager) (sg : signal) : act :=
  let (evs, ok) := kill_all reach sg (running_pids g) in
  if ok then Go (set_keep g false) evs else Die "Could not transmit signal to child" evs.

(** src/runtime/process_manager/mod.rs:276-306 *)
Definition handle_signal (reach : Z -> bool) (g : manager) (sg : option signal) : act :=
  match sg with
  | Some SIGINT => then_ (Go g [ESignal SIGINT]) (fun g => initiate_shutdown reach g SIGINT)
  | Some SIGQUIT => then_ (Go g [ESignal SIGQUIT]) (fun g => initiate_shutdown reach g SIGQUIT)
  | Some SIGTERM => then_ (Go g [ESignal SIGTERM]) (fun g => initiate_shutdown reach g SIGINT)
  | Some SIGCHLD => Go g [ESignal SIGCHLD]
  | None => Go g []
  end.

(** Telling the dependency manager, src/runtime/process_manager/mod.rs:189 and
    notify_manager.rs:127 *)
Definition finished_dep (g : manager) (id : nat) : act :=
  match notify_process_finished (g_dep g) id with
  | Ret d => Go (set_dep g d) []
  | Panic m => Die m []
  end.

(** src/runtime/process_manager/mod.rs:47 *)
Definition CHILD_CRASH_EXIT_CODE : Z := 6.

(** src/runtime/process_manager/mod.rs:148-191 *)
Definition handle_finished_child (reach : Z -> bool) (g : manager) (pid rc : Z) : act :=
  match g_pids g !! pid with
  | None => Go g [EUnknown pid rc]
  | Some id =>
      match g_procs g !! id with
      | None => Die BOUNDS []
      | Some p =>
          let is_cronjob := match p_type p with RCronjob => true | _ => false end in
          then_
            (then_
               (if rc =? 0 then Go (update g id (with_state p (if is_cronjob then Sleeping else Done))) [EEnd id pid rc]
                else Go (set_exit (update g id (with_state p (Crashed rc))) CHILD_CRASH_EXIT_CODE) [EEnd id pid rc])
               (fun g => if rc =? 0 then Go g [] else initiate_shutdown reach g SIGINT))
            (fun g =>
               let g := set_pids g (delete pid (g_pids g)) in
               if is_cronjob then Go g [] else finished_dep g id)
      end
  end.

(** src/runtime/process_manager/mod.rs:118-139: what one answer of [waitpid] does.
    The second component tells whether the loop goes on. *)
Definition child_ended (reach : Z -> bool) (g : manager) (pid : Z) (st : status) : act * bool :=
  match st with
  | XExit rc => (then_ (Go g [EReap pid st]) (fun g => handle_finished_child reach g pid rc), true)
  | XSignal n => (then_ (Go g [EReap pid st]) (fun g => handle_finished_child reach g pid n), true)
  | XRealtime _ => (Go g [EReap pid st; ELost pid], false)
  end.

(** What starting a program can result in, src/runtime/process.rs:148-187: pipes and
    fork fail, or the child's pid, the two output streams and whether adding each to
    the epoll set worked (process_manager/mod.rs:331-340 only logs that). *)
Inductive fork_result :=
| ForkFailed
| Forked (pid out err : Z) (watched_out watched_err : bool).

(** src/runtime/process_manager/mod.rs:411-438 *)
Definition spawn_child (g : manager) (id : nat) (r : fork_result) : act :=
  match g_procs g !! id with
  | None => Die BOUNDS []
  | Some p =>
      if negb (pstate_eqb (p_state p) Blocked) && negb (pstate_eqb (p_state p) Sleeping) then Go g [ERefused id]
      else
        match r with
        | ForkFailed => Go g [EStartFail id]
        | Forked pid out err wo we =>
            let g := update g id (started p pid) in
            let ep := (if we then {[err]} else ∅) ∪ ((if wo then {[out]} else ∅) ∪ g_epoll g) in
            let g := set_pids g (<[pid := id]> (g_pids g)) in
            Go (set_fds g (<[out := id]> (g_out g)) (<[err := id]> (g_err g)) ep)
               [EStart id pid; EOpen out id true; EOpen err id false]
        end
  end.

(** src/runtime/process_manager/mod.rs:384-388: one round of the first loop.  [None]
    when the loop ends. *)
Definition spawn_dep (g : manager) (r : fork_result) : option act :=
  match pop_dep (g_dep g) with
  | None => None
  | Some (id, d) =>
      let g := set_dep g d in
      Some match g_procs g !! id with
           | None => Die BOUNDS []
           | Some p => match p_type p with RCronjob => Go g [] | _ => spawn_child g id r end
           end
  end.

(** src/runtime/process_manager/mod.rs:390-403: one round of the second loop *)
Definition spawn_cron (tz : zone) (g : manager) (now : instant) (r : fork_result) : option act :=
  match cron_pop tz (g_cron g) now with
  | Panic m => Some (Die m [])
  | Ret (_, None) => None
  | Ret (c, Some id) =>
      let g := set_cron g c in
      Some (then_ (Go g [EDue id now])
              (fun g =>
                 if is_runnable (g_dep g) id then spawn_child g id r
                 else match g_procs g !! id with None => Die BOUNDS [] | Some _ => Go g [ESkipped id] end))
  end.

(** src/runtime/process_manager/mod.rs:351-371: after a successful [read] *)
Definition print_child_output (g : manager) (fd : Z) (data : string) : act :=
  match process_for_fd g fd with
  | Panic m => Die m [EChunk fd data]
  | Ret p =>
      Go g (EChunk fd data ::
            map (ELog (is_stdout g fd) (p_name p)) (List.filter nonempty (lines (utf8_lossy data))))
  end.

(** src/runtime/process_manager/mod.rs:262-265 with src/runtime/process_map.rs:88-92 *)
Definition hang_up (g : manager) (fd : Z) : act :=
  Go (set_fds g (delete fd (g_out g)) (delete fd (g_err g)) (g_epoll g ∖ {[fd]})) [EClosed fd].

(** src/runtime/process_manager/notify_manager.rs:121-138 *)
Definition manager_notification (id : nat) (pid : Z) (g : manager) (var : string * string) : act :=
  let (key, value) := var in
  if String.eqb key "READY" then if String.eqb value "1" then finished_dep g id else Go g []
  else if String.eqb key "MAINPID" then
    match parse_i32 value with
    | None => Go g []
    | Some new => Go (set_pids g (<[new := id]> (delete pid (g_pids g)))) []
    end
  else Go g [].

Fixpoint manager_notifications (id : nat) (pid : Z) (g : manager) (vars : list (string * string)) : act :=
  match vars with
  | [] => Go g []
  | v :: rest => then_ (manager_notification id pid g v) (fun g => manager_notifications id pid g rest)
  end.

(** src/runtime/process_manager/notify_manager.rs:91-117; [order] is the iteration
    order of the hash map of variables, the same in both loops. *)
Definition process_message (order : list (string * string) -> list (string * string))
  (g : manager) (text : string) (sender : Z) : act :=
  match g_pids g !! sender with
  | None => Go g [EIgnored sender]
  | Some id =>
      match g_procs g !! id with
      | None => Die BOUNDS []
      | Some p =>
          match p_type p with
          | RNotify =>
              let vars := order (parse text) in
              let pid := p_pid p in
              let p' := fold_left (fun q v => proc_notification q (fst v) (snd v)) vars p in
              then_ (Go (update g id p') [ENotify id sender vars])
                (fun g => manager_notifications id pid g vars)
          | _ => Go g [EIgnored sender]
          end
      end
  end.

(** src/runtime/process_manager/notify_manager.rs:45-85: a datagram with the
    sender's credentials; decoding comes before looking at the sender. *)
Definition receive (order : list (string * string) -> list (string * string))
  (g : manager) (datagram : string) (sender : Z) : act :=
  match read_text datagram with
  | None => Die "undefined behaviour" []
  | Some (Panic m) => Die m []
  | Some (Ret text) => process_message order g text sender
  end.

(** src/runtime/process_manager/status_reporter.rs:55-92: the lines for one program.
    [rfc3339] renders an instant ([DateTime::to_rfc3339], chrono). *)
Definition report_program (rfc3339 : instant -> string) (g : manager) (id : nat) (p : process) : outcome string :=
  let! scheduled :=
    match p_type p with
    | RCronjob => let! t := cron_next (g_cron g) id in Ret ("    scheduled_at: '" +:+ rfc3339 t +:+ "'" +:+ String LF "")
    | _ => Ret ""
    end in
  Ret ("  - name: '" +:+ p_name p +:+ "'" +:+ String LF "" +:+
       "    state: '" +:+ show_pstate (p_state p) +:+ "'" +:+ String LF "" +:+
       (if nonempty (p_status p) then "    status: " +:+ p_status p +:+ String LF "" else "") +:+
       match p_state p with
       | Done => "    exit_code: 0" +:+ String LF ""
       | Crashed rc => "    exit_code: " +:+ show_Z rc +:+ String LF ""
       | _ => ""
       end +:+
       (if is_some (g_pids g !! p_pid p) then "    pid: " +:+ show_Z (p_pid p) +:+ String LF "" else "") +:+
       scheduled).

Fixpoint report_programs (rfc3339 : instant -> string) (g : manager) (l : list (nat * process)) : outcome string :=
  match l with
  | [] => Ret ""
  | (id, p) :: rest =>
      let! a := report_program rfc3339 g id p in
      let! b := report_programs rfc3339 g rest in
      Ret (a +:+ b)
  end.

(** src/runtime/process_manager/status_reporter.rs:53-94.  Simplification: the code
    writes piece by piece and stops at the first write error; here the whole text is
    one value, of which the client receives some prefix (see ReportModel). *)
Definition format_report (rfc3339 : instant -> string) (g : manager) : outcome string :=
  let! body := report_programs rfc3339 g (enumerate (g_procs g)) in
  Ret ("programs:" +:+ String LF "" +:+ body).

Definition report_status (rfc3339 : instant -> string) (g : manager) : act :=
  match format_report rfc3339 g with
  | Ret text => Go g [EReport text]
  | Panic m => Die m []
  end.
