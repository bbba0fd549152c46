(** What cinit logs before the event loop with the messages at DEBUG level, and whole runs
    with them: StartModel.v and SessionModel.v again.  Functions of StartModel.v that have
    no such message are used as they are. *)
From stdpp Require Import gmap strings.
From Coq Require Import Ascii ZArith List Bool.
From Verif Require Import Base RStr CronModel ConfigModel ProcessModel EnvModel DepModel MainModel LogModel TemplModel StartModel.
From Verif Require CliModel ManagerModel SysModel TraceModel DebugModel SessionModel SpecRun.
Import ListNotations.
Local Open Scope string_scope.
Local Open Scope list_scope.

(** Details of the start that decide nothing: a time in RFC 3339 format, and whether the
    first socket is open if not all of m_sockets could be set up. *)
Record aside := { a_rfc3339 : instant -> string; a_first : bool }.

(** src/startup_checks.rs:34-73 *)
Definition kernel_logs (t : texts) (release : option string) : told (result unit Z) :=
  match release with
  | None => ([(LWarn, "Could not read kernel version: " +:+ t_uname t)], Ret (Ok tt))
  | Some raw =>
      let unknown := [(LWarn, "Could not determine kernel version from input '" +:+ utf8_lossy raw +:+ "'")] in
      match split_on "."%char (utf8_lossy raw) with
      | major_raw :: minor_raw :: _ =>
          match parse_u32 major_raw, parse_u32 minor_raw with
          | Some major, Some minor =>
              if ((major <? 4) || ((major =? 4) && (minor <? 3)))%Z
              then ([(LError, "Your kernel is older than 4.3. Ambient capabilities");
                     (LError, "are not supported on your kernel but are needed for");
                     (LError, "cinit to work properly. Aborting")], Ret (Err STARTUP_EXIT))
              else ([(LDebug, "Running on kernel version " +:+ utf8_lossy raw)], Ret (Ok tt))
          | _, _ => (unknown, Ret (Ok tt))
          end
      | _ => (unknown, Ret (Ok tt))
      end
  end.
(** src/startup_checks.rs:28-31 *)
Definition checks_log (t : texts) (release : option string) (uid : Z) : told (result unit Z) :=
  then_ (kernel_logs t release) (fun r => match r with Err e => done (Err e) | Ok _ => user_says uid end).

(** src/config/config_parser.rs:36-48 *)
Definition config_logs (t : texts) (yaml : string -> option (list proc_config)) (drain : dict -> dict) (path : string) (root : tree)
  : told (result (list proc_config) Z) :=
  then_ (reading_says t path root) (fun r =>
    match r with
    | Err e => done (Err e)
    | Ok raw =>
        tell [(LDebug, "Complete configuration:" +:+ String "010"%char (String.concat "" raw))]
          (then_ (parsing_says t yaml raw) (fun r =>
             match r with
             | Err e => done (Err e)
             | Ok programs =>
                 then_ (merging_says programs []) (fun r =>
                   match r with Err e => done (Err e) | Ok d => done (Ok (map snd (drain d))) end)
             end))
    end).

(** src/runtime/cronjob.rs:307-332: the messages, up to the point where it ends. *)
Fixpoint jobs_log (rfc3339 : instant -> string) (tz : zone) (jobs : list (nat * proc_config)) (clock : list instant) : list message :=
  match jobs with
  | [] => []
  | (_, c) :: rest =>
      match timer_text c with
      | None => []
      | Some raw =>
          match parse_timer raw with
          | Ret (Ok desc) =>
              match clock with
              | [] => []
              | now :: clock' =>
                  match next_execution tz desc now with
                  | Ret u => (LDebug, "Scheduled execution of '" +:+ pc_name c +:+ "' at " +:+ rfc3339 u) :: jobs_log rfc3339 tz rest clock'
                  | Panic _ => []
                  end
              end
          | _ => []
          end
      end
  end.
(** src/analyse/process_manager_builder.rs:249-278.  Looking for a free slot never fails
    (insert_job of CronModel.v). *)
Definition timers_log (rfc3339 : instant -> string) (tz : zone) (clock : list instant) (configs : list proc_config) : told (result cron Z) :=
  tell (jobs_log rfc3339 tz (List.filter (fun e => is_cronjob (pc_type (snd e))) (enumerate configs)) clock) (timers_say tz clock configs).

(** src/analyse/process_manager_builder.rs:169 for the sockets of lines 110-115 *)
Definition sockets_log (d : aside) (k : machine) : list message :=
  let first := (LDebug, "/run/cinit.socket unix domain socket open") in
  if m_sockets k then [first; (LDebug, "/run/cinit-notify.socket unix domain socket open")]
  else if a_first d then [first] else [].

(** src/analyse/process_manager_builder.rs:72-108 *)
Definition analysis_logs (t : texts) (d : aside) (k : machine) (configs : list proc_config) : told (result analysis Z) :=
  then_ (builds_say t (m_world k) configs) (fun ps =>
    match ps with
    | Err e => done (Err e)
    | Ok ps =>
        then_ (dependencies_say (m_order k) (m_toposort k) configs) (fun dep =>
          then_ (timers_log (a_rfc3339 d) (m_zone k) (m_clock k) configs) (fun cron =>
            tell (sockets_log d k)
              (if negb (m_sockets k) then ([(LError, "Could not setup sockets: " +:+ t_sockets t)], Ret (Err ANALYSE_EXIT))
               else match dep with
               | Err e => done (Err e)
               | Ok dep =>
                   match cron with
                   | Err e => done (Err e)
                   | Ok cron =>
                       if m_epoll k then done (Ok {| a_processes := ps; a_dep := dep; a_cron := cron |})
                       else ([], Panic "Could not create epoll fd")
                   end
               end)))
    end).

(** src/main.rs:78-110 and src/runtime/process_manager/mod.rs:83-94 *)
Definition start_logs (t : texts) (d : aside) (path : string) (root : tree) (k : machine) : told boot :=
  tell [(LInfo, "Starting up")]
    (then_ (checks_log t (m_release k) (m_uid k)) (fun r =>
       match r with
       | Err e => done (Exits e)
       | Ok _ =>
           tell [(LInfo, "Config is at " +:+ path); (LInfo, "Parsing config")]
             (then_ (config_logs t (m_yaml k) (m_drain k) path root) (fun r =>
                match r with
                | Err e => done (Exits e)
                | Ok configs =>
                    tell [(LInfo, "Perform analysis on programs")]
                      (then_ (analysis_logs t d k configs) (fun a =>
                         match a with
                         | Err e => done (Exits e)
                         | Ok a =>
                             tell [(LInfo, "Spawning processes")]
                               (if m_setup k then ([(LDebug, "setup successful"); (LDebug, "Entering poll loop")], Ret (EntersLoop configs a))
                                else ([(LError, "Failed to register with epoll: " +:+ t_setup t)], Ret (Exits RUNTIME_EXIT)))
                         end))
                end))
       end)).

(** src/main.rs:74-111; as SessionModel.v. *)
Inductive session_all (t : texts) (d : aside) (found : string -> tree * machine) (args : list string) : Z -> list TraceModel.line -> option Z -> Prop :=
| sa_refused path v code : CliModel.parse_arguments args = CliModel.Begins path v -> run (snd (found path)) = Ret (Exits code) ->
    session_all t d found args v (SessionModel.own_lines (fst (start_logs t d path (fst (found path)) (snd (found path))))) (Some code)
| sa_running path v e configs s0 ops s ls : CliModel.parse_arguments args = CliModel.Begins path v ->
    SpecRun.launched (snd (found path)) e configs s0 -> DebugModel.narrate_all e s0 ops = Some (s, ls) ->
    session_all t d found args v (SessionModel.own_lines (fst (start_logs t d path (fst (found path)) (snd (found path)))) ++ ls)
      (match SysModel.s_pc s with SysModel.Finished code => Some code | _ => None end).
