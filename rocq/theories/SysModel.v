(** cinit's event loop (src/runtime/process_manager/mod.rs:81-113) together with the
    part of the kernel it talks to, as a transition system.  An execution is any
    finite sequence of operations: steps of the environment (programs, kernel) and
    steps of cinit with the answers of its system calls.  Nothing bounds the number
    of programs, processes, streams, notifications, clock readings or steps. *)
From stdpp Require Import gmap strings.
From Coq Require Import Ascii ZArith List Bool.
From Verif Require Import Base RStr CronModel ProcessModel DepModel NotifyModel ManagerModel.
Import ListNotations.
Local Open Scope string_scope.
Local Open Scope list_scope.
Local Open Scope Z_scope.

(** * Kernel *)

(** Processes cinit can see (not code of /repo): cinit itself, its children, alive
    or ended and not yet reaped, and all others. *)
Inductive kproc := KSelf | KOther | KChild | KZombie (st : status).

(** The reading end of an output stream: what is buffered, and whether any process
    still holds the writing end. *)
Record pipe := { pp_buf : string; pp_open : bool }.

Record kernel := { k_procs : gmap Z kproc; k_pipes : gmap Z pipe }.

(** kill(2): a positive pid must exist (zombies count).  Simplifications: cinit is
    privileged, so permission is never refused; a non-positive pid addresses process
    groups, which is modelled as always finding a receiver. *)
Definition reach (k : kernel) (pid : Z) : bool :=
  if 0 <? pid then is_some (k_procs k !! pid) else true.

(** What can be seen of the end of a process. *)
Definition valid_status (st : status) : bool :=
  match st with
  | XExit rc => (0 <=? rc) && (rc <=? 255)
  | XSignal n => (1 <=? n) && (n <=? 31)
  | XRealtime n => (32 <=? n) && (n <=? 64)
  end.

(** * cinit *)

(** Events delivered by epoll_wait: readable, hung up without anything left to
    read, or neither. *)
Inductive epev := EvIn (fd : Z) | EvHup (fd : Z) | EvOther (fd : Z).
Definition ev_fd (e : epev) : Z := match e with EvIn fd | EvHup fd | EvOther fd => fd end.

(** Where cinit is in its loop, src/runtime/process_manager/mod.rs:95-113. *)
Inductive pc :=
| AtHead                       (* evaluating the loop condition *)
| AtSpawnDep                   (* process_manager/mod.rs:384 *)
| AtSpawnCron                  (* process_manager/mod.rs:390 *)
| AtPoll                       (* process_manager/mod.rs:196 *)
| AtEvents (evs : list epev)   (* process_manager/mod.rs:200-202 *)
| AtWait                       (* process_manager/mod.rs:121 *)
| Finished (code : Z)
| Panicked (msg : string).

(** What stays fixed: the time zone, the three descriptors opened at startup, the
    iteration order of hash maps and chrono's rendering of instants. *)
Record env := {
  e_zone : zone;
  e_signal : Z;
  e_status : Z;
  e_notify : Z;
  e_order : list (string * string) -> list (string * string);
  e_rfc3339 : instant -> string
}.

Record sys := { s_g : manager; s_k : kernel; s_pc : pc; s_shut : bool; s_hist : list event }.

(** Answers of the system calls made while handling one event. *)
Inductive answer :=
| ASignal (sg : option signal)               (* read_signal; None: nothing or an error *)
| AAccept (ok : bool)                        (* accept on the status socket *)
| AMessage (m : option (string * Z))         (* recvmsg: datagram and sender; None: an error or no credentials *)
| ARead (n : option nat).                    (* read from an output stream; None: an error *)

Inductive op :=
(* the environment *)
| KFork (pid : Z)                  (* some other process forks *)
| KGone (pid : Z)                  (* some other process ends and is reaped by its parent *)
| KAdopt (pid : Z)                 (* an orphan becomes cinit's child *)
| KExit (pid : Z) (st : status)    (* a child of cinit ends *)
| KWrite (fd : Z) (data : string)  (* output is written *)
| KHangup (fd : Z)                 (* the last writing end is closed *)
(* cinit *)
| CHead
| CSpawnDep (r : fork_result)
| CSpawnCron (now : instant) (r : fork_result)
| CPoll (evs : option (list epev)) (* None: epoll_wait failed *)
| CEvent (a : answer)
| CWait (pid : option Z).          (* the child waitpid reports; None: none has ended *)

Definition is_fixed (e : env) (fd : Z) : bool := (fd =? e_signal e) || (fd =? e_status e) || (fd =? e_notify e).

(** fork(2) and pipe(2) hand out unused numbers. *)
Definition fork_fits (e : env) (k : kernel) (r : fork_result) : bool :=
  match r with
  | ForkFailed => true
  | Forked pid out err _ _ =>
      (0 <? pid) && negb (is_some (k_procs k !! pid)) &&
      negb (is_some (k_pipes k !! out)) && negb (is_some (k_pipes k !! err)) && negb (out =? err) &&
      negb (is_fixed e out) && negb (is_fixed e err)
  end.

(** The kernel after a program was started. *)
Definition kernel_forked (k : kernel) (r : fork_result) : kernel :=
  match r with
  | ForkFailed => k
  | Forked pid out err _ _ =>
      {| k_procs := <[pid := KChild]> (k_procs k);
         k_pipes := <[err := {| pp_buf := ""; pp_open := true |}]>
                    (<[out := {| pp_buf := ""; pp_open := true |}]> (k_pipes k)) |}
  end.

(** What epoll_wait may report: only descriptors in the set; a stream is readable
    when something is buffered, hung up when nothing is and no writer is left. *)
Definition ready (e : env) (s : sys) (ev : epev) : bool :=
  match ev with
  | EvIn fd =>
      is_fixed e fd ||
      (bool_decide (fd ∈ g_epoll (s_g s)) &&
       match k_pipes (s_k s) !! fd with Some p => nonempty (pp_buf p) | None => false end)
  | EvHup fd =>
      bool_decide (fd ∈ g_epoll (s_g s)) &&
      match k_pipes (s_k s) !! fd with Some p => negb (nonempty (pp_buf p)) && negb (pp_open p) | None => false end
  | EvOther fd => is_fixed e fd || bool_decide (fd ∈ g_epoll (s_g s))
  end.

Definition goes (s : sys) (a : act) (k : kernel) (next : pc) : sys :=
  match a with
  | Go g evs => {| s_g := g; s_k := k; s_pc := next; s_shut := s_shut s; s_hist := s_hist s ++ evs |}
  | Die m evs => {| s_g := s_g s; s_k := k; s_pc := Panicked m; s_shut := s_shut s; s_hist := s_hist s ++ evs |}
  end.

Definition with_kernel (s : sys) (k : kernel) : sys :=
  {| s_g := s_g s; s_k := k; s_pc := s_pc s; s_shut := s_shut s; s_hist := s_hist s |}.
Definition with_pc (s : sys) (p : pc) : sys :=
  {| s_g := s_g s; s_k := s_k s; s_pc := p; s_shut := s_shut s; s_hist := s_hist s |}.

Definition set_kprocs (k : kernel) (x : gmap Z kproc) : kernel := {| k_procs := x; k_pipes := k_pipes k |}.
Definition set_kpipes (k : kernel) (x : gmap Z pipe) : kernel := {| k_procs := k_procs k; k_pipes := x |}.

(** Did this act fork?  Then the kernel has the new process and streams. *)
Definition forks (a : act) : bool :=
  match a with
  | Go _ evs => existsb (fun ev => match ev with EStart _ _ => true | _ => false end) evs
  | Die _ _ => false
  end.

(** src/runtime/process_manager/mod.rs:95-112: the loop conditions.  The first loop
    is left for good, the second runs until nothing is left. *)
Definition step_head (s : sys) : sys :=
  let g := s_g s in
  if s_shut s then
    if has_running_processes g then with_pc s AtPoll
    else {| s_g := g; s_k := s_k s; s_pc := Finished (g_exit g); s_shut := true; s_hist := s_hist s ++ [EExit (g_exit g)] |}
  else if g_keep g && (has_running_processes g || has_runnables (g_dep g)) then with_pc s AtSpawnDep
  else {| s_g := g; s_k := s_k s; s_pc := AtHead; s_shut := true; s_hist := s_hist s |}.

(** src/runtime/process_manager/mod.rs:249-269 *)
Definition step_event (e : env) (s : sys) (ev : epev) (a : answer) (rest : list epev) : option sys :=
  let g := s_g s in
  let k := s_k s in
  match ev with
  | EvIn fd =>
      if fd =? e_signal e then
        match a with ASignal sg => Some (goes s (handle_signal (reach k) g sg) k (AtEvents rest)) | _ => None end
      else if fd =? e_status e then
        match a with
        | AAccept true => Some (goes s (report_status (e_rfc3339 e) g) k (AtEvents rest))
        | AAccept false => Some (with_pc s (AtEvents rest))
        | _ => None
        end
      else if fd =? e_notify e then
        match a with
        | AMessage (Some (datagram, sender)) => Some (goes s (receive (e_order e) g datagram sender) k (AtEvents rest))
        | AMessage None => Some (with_pc s (AtEvents rest))
        | _ => None
        end
      else
        match a with
        | ARead None => Some (with_pc s (AtEvents rest))
        | ARead (Some n) =>
            match k_pipes k !! fd with
            | None => None
            | Some p =>
                (* read(2) on a ready stream: at least one byte, at most the buffer *)
                if (1 <=? n)%nat && (n <=? 4096)%nat && (n <=? String.length (pp_buf p))%nat then
                  let k' := set_kpipes k (<[fd := {| pp_buf := sdrop n (pp_buf p); pp_open := pp_open p |}]> (k_pipes k)) in
                  Some (goes s (print_child_output g fd (stake n (pp_buf p))) k' (AtEvents rest))
                else None
            end
        | _ => None
        end
  | EvHup fd => Some (goes s (hang_up g fd) (set_kpipes k (delete fd (k_pipes k))) (AtEvents rest))
  | EvOther _ => Some (with_pc s (AtEvents rest))
  end.

(** One step; [None] when the operation is not possible in this state. *)
Definition sstep (e : env) (s : sys) (o : op) : option sys :=
  let g := s_g s in
  let k := s_k s in
  match o with
  | KFork pid =>
      if (0 <? pid) && negb (is_some (k_procs k !! pid))
      then Some (with_kernel s (set_kprocs k (<[pid := KOther]> (k_procs k)))) else None
  | KGone pid =>
      match k_procs k !! pid with
      | Some KOther => Some (with_kernel s (set_kprocs k (delete pid (k_procs k))))
      | _ => None
      end
  | KAdopt pid =>
      match k_procs k !! pid with
      | Some KOther => Some (with_kernel s (set_kprocs k (<[pid := KChild]> (k_procs k))))
      | _ => None
      end
  | KExit pid st =>
      match k_procs k !! pid with
      | Some KChild =>
          if valid_status st then Some (with_kernel s (set_kprocs k (<[pid := KZombie st]> (k_procs k)))) else None
      | _ => None
      end
  | KWrite fd data =>
      match k_pipes k !! fd with
      | Some p =>
          if pp_open p
          then Some {| s_g := g;
                       s_k := set_kpipes k (<[fd := {| pp_buf := pp_buf p +:+ data; pp_open := true |}]> (k_pipes k));
                       s_pc := s_pc s; s_shut := s_shut s; s_hist := s_hist s ++ [EWrote fd data] |}
          else None
      | None => None
      end
  | KHangup fd =>
      match k_pipes k !! fd with
      | Some p => Some (with_kernel s (set_kpipes k (<[fd := {| pp_buf := pp_buf p; pp_open := false |}]> (k_pipes k))))
      | None => None
      end
  | CHead => match s_pc s with AtHead => Some (step_head s) | _ => None end
  | CSpawnDep r =>
      match s_pc s with
      | AtSpawnDep =>
          match spawn_dep g r with
          | None => Some (with_pc s AtSpawnCron)
          | Some a =>
              if forks a then if fork_fits e k r then Some (goes s a (kernel_forked k r) AtSpawnDep) else None
              else Some (goes s a k AtSpawnDep)
          end
      | _ => None
      end
  | CSpawnCron now r =>
      match s_pc s with
      | AtSpawnCron =>
          match spawn_cron (e_zone e) g now r with
          | None => Some (with_pc s AtPoll)
          | Some a =>
              if forks a then if fork_fits e k r then Some (goes s a (kernel_forked k r) AtSpawnCron) else None
              else Some (goes s a k AtSpawnCron)
          end
      | _ => None
      end
  | CPoll evs =>
      match s_pc s with
      | AtPoll =>
          match evs with
          | None => Some (with_pc s AtWait)
          | Some l =>
              if (length l <=? 10)%nat && bool_decide (base.NoDup (map ev_fd l)) && forallb (ready e s) l
              then Some (with_pc s (AtEvents l)) else None
          end
      | _ => None
      end
  | CEvent a =>
      match s_pc s with
      | AtEvents [] => Some (with_pc s AtWait)
      | AtEvents (ev :: rest) => step_event e s ev a rest
      | _ => None
      end
  | CWait None =>
      match s_pc s with
      | AtWait =>
          (* nothing has ended: StillAlive, or ECHILD without any child *)
          if forallb (fun x => match snd x with KZombie _ => false | _ => true end) (map_to_list (k_procs k))
          then Some (with_pc s AtHead) else None
      | _ => None
      end
  | CWait (Some pid) =>
      match s_pc s with
      | AtWait =>
          match k_procs k !! pid with
          | Some (KZombie st) =>
              let k' := set_kprocs k (delete pid (k_procs k)) in
              let (a, more) := child_ended (reach k') g pid st in
              Some (goes s a k' (if more then AtWait else AtHead))
          | _ => None
          end
      | _ => None
      end
  end.

(** Executions. *)
Fixpoint execute (e : env) (s : sys) (ops : list op) : option sys :=
  match ops with
  | [] => Some s
  | o :: rest => match sstep e s o with Some s' => execute e s' rest | None => None end
  end.

(** The state in which the loop is entered, src/runtime/process_manager/mod.rs:83-94
    and src/analyse/process_manager_builder.rs:85-117: no program started, nothing
    registered; [self] is cinit's own pid.  Other processes may exist already. *)
Definition initial (procs : list process) (d : dep_manager) (c : cron) (others : gmap Z kproc) : sys :=
  {| s_g := {| g_procs := procs; g_out := ∅; g_err := ∅; g_pids := ∅; g_keep := true; g_dep := d; g_cron := c;
               g_exit := 0; g_epoll := ∅ |};
     s_k := {| k_procs := others; k_pipes := ∅ |};
     s_pc := AtHead; s_shut := false; s_hist := [] |}.
