(** Model of cinit's set-up call by call: src/analyse/process_manager_builder.rs:64-172
    and src/runtime/process_manager/mod.rs:84-92, 217-246.  Any call may fail.
    MainModel describes the same with one answer for all the sockets, one for
    epoll_create and one for the registrations. *)
From stdpp Require Import gmap strings.
From Coq Require Import Ascii ZArith List Bool.
From Verif Require Import Base RStr ConfigModel ProcessModel EnvModel DepModel MainModel.
Import ListNotations.
Local Open Scope string_scope.
Local Open Scope list_scope.
Local Open Scope Z_scope.

(** src/analyse/process_manager_builder.rs:65, 68 *)
Definition SOCKET_PATH : string := "/run/cinit.socket".
Definition NOTIFY_PATH : string := "/run/cinit-notify.socket".

Inductive sock_type := Stream | Datagram.
Definition is_stream (t : sock_type) : bool := match t with Stream => true | Datagram => false end.

(** What a name in the file system stands for.  [ESocket id mode]: socket [id]. *)
Inductive entry := EFile | EDir | ESocket (id : nat) (mode : Z).
(** What a descriptor stands for.  Sockets are numbered in the order of creation, over
    all processes. *)
Record sock := { k_id : nat; k_type : sock_type; k_path : option string; k_passcred : bool; k_listen : bool }.
Inductive object := OOther | OSignals (l : list Z) | OSock (s : sock) | OEpoll (watched : gmap Z (Z * Z)).
(** The part of the machine cinit's set-up can change: names, cinit's descriptors with
    their close-on-exec flag, its signal mask and its subreaper attribute.  [h_sockets]
    sockets have been created so far. *)
Record host := {
  h_files : gmap string entry;
  h_fds : gmap Z (object * bool);
  h_mask : list Z;
  h_subreaper : bool;
  h_sockets : nat
}.

(** The calls; [p] is the path of the socket they are about. *)
Inductive call :=
| KMask | KSignalfd | KUnlink (p : string) | KSocket (p : string) | KBind (p : string) | KChmod (p : string)
| KPasscred (p : string) | KListen (p : string) | KEpoll | KAdd (fd : Z) | KSubreaper.
Inductive errno := ENOENT | EOTHER.
(** What the kernel answers: calls that fail for reasons outside of the model, the
    numbers of the new descriptors, and cinit's umask. *)
Record answers := {
  f_fault : call -> option errno;
  f_signal : Z; f_status : Z; f_notify : Z; f_epoll : Z;
  f_umask : Z
}.

Definition SIGINT : Z := 2.
Definition SIGQUIT : Z := 3.
Definition SIGTERM : Z := 15.
Definition SIGCHLD : Z := 17.
Definition EPOLLIN : Z := 1.
(** Octal 777. *)
Definition MODE : Z := 511.

Definition with_files (h : host) (m : gmap string entry) : host :=
  {| h_files := m; h_fds := h_fds h; h_mask := h_mask h; h_subreaper := h_subreaper h; h_sockets := h_sockets h |}.
Definition with_fds (h : host) (m : gmap Z (object * bool)) : host :=
  {| h_files := h_files h; h_fds := m; h_mask := h_mask h; h_subreaper := h_subreaper h; h_sockets := h_sockets h |}.

(** * System calls: a new state or an error *)
(** sigprocmask(2) with SIG_BLOCK *)
Definition sys_block (l : list Z) (h : host) : result host errno :=
  Ok {| h_files := h_files h; h_fds := h_fds h; h_mask := h_mask h ++ l; h_subreaper := h_subreaper h; h_sockets := h_sockets h |}.
(** A new descriptor; [EOTHER] stands for a number that is in use, which the kernel
    does not hand out. *)
Definition sys_open (fd : Z) (o : object) (h : host) : result host errno :=
  match h_fds h !! fd with
  | Some _ => Err EOTHER
  | None => Ok (with_fds h (<[fd := (o, true)]> (h_fds h)))
  end.
(** unlink(2) *)
Definition sys_unlink (p : string) (h : host) : result host errno :=
  match h_files h !! p with
  | None => Err ENOENT
  | Some EDir => Err EOTHER
  | Some _ => Ok (with_files h (delete p (h_files h)))
  end.
(** socket(2) *)
Definition sys_socket (fd : Z) (t : sock_type) (h : host) : result host errno :=
  match sys_open fd (OSock {| k_id := h_sockets h; k_type := t; k_path := None; k_passcred := false; k_listen := false |}) h with
  | Err e => Err e
  | Ok h => Ok {| h_files := h_files h; h_fds := h_fds h; h_mask := h_mask h; h_subreaper := h_subreaper h; h_sockets := S (h_sockets h) |}
  end.
Definition on_sock (fd : Z) (f : sock -> sock) (h : host) : result host errno :=
  match h_fds h !! fd with
  | Some (OSock s, c) => Ok (with_fds h (<[fd := (OSock (f s), c)]> (h_fds h)))
  | _ => Err EOTHER
  end.
(** bind(2) of a unix(7) socket: the name must be new *)
Definition sys_bind (umask fd : Z) (p : string) (h : host) : result host errno :=
  match h_fds h !! fd, h_files h !! p with
  | Some (OSock s, c), None =>
      Ok (with_fds (with_files h (<[p := ESocket (k_id s) (Z.land MODE (Z.lnot umask))]> (h_files h)))
           (<[fd := (OSock {| k_id := k_id s; k_type := k_type s; k_path := Some p; k_passcred := k_passcred s; k_listen := k_listen s |}, c)]> (h_fds h)))
  | _, _ => Err EOTHER
  end.
(** chmod(2); modes of other files are not modelled *)
Definition sys_chmod (p : string) (mode : Z) (h : host) : result host errno :=
  match h_files h !! p with
  | None => Err ENOENT
  | Some (ESocket i _) => Ok (with_files h (<[p := ESocket i mode]> (h_files h)))
  | Some _ => Ok h
  end.
Definition sys_passcred (fd : Z) : host -> result host errno :=
  on_sock fd (fun s => {| k_id := k_id s; k_type := k_type s; k_path := k_path s; k_passcred := true; k_listen := k_listen s |}).
Definition sys_listen (fd : Z) : host -> result host errno :=
  on_sock fd (fun s => {| k_id := k_id s; k_type := k_type s; k_path := k_path s; k_passcred := k_passcred s; k_listen := true |}).
(** epoll_ctl(2) with EPOLL_CTL_ADD *)
Definition sys_add (epoll fd events data : Z) (h : host) : result host errno :=
  match h_fds h !! epoll, h_fds h !! fd with
  | Some (OEpoll m, c), Some _ =>
      match m !! fd with
      | Some _ => Err EOTHER
      | None => Ok (with_fds h (<[epoll := (OEpoll (<[fd := (events, data)]> m), c)]> (h_fds h)))
      end
  | _, _ => Err EOTHER
  end.
(** prctl(2) with PR_SET_CHILD_SUBREAPER *)
Definition sys_subreaper (h : host) : result host errno :=
  Ok {| h_files := h_files h; h_fds := h_fds h; h_mask := h_mask h; h_subreaper := true; h_sockets := h_sockets h |}.

(** A call with the answer of the kernel.  An error leaves the machine as it is. *)
Definition ask (a : answers) (c : call) (f : host -> result host errno) (h : host) : result host errno :=
  match f_fault a c with Some e => Err e | None => f h end.

(** * cinit *)
(** A result with the machine as it is at that moment. *)
Definition state (A E : Type) := (result A E * host)%type.
Definition then_ {A B E} (x : state A E) (f : A -> host -> state B E) : state B E :=
  match x with (Ok a, h) => f a h | (Err e, h) => (Err e, h) end.
(** The operator [?] *)
Definition try_call (a : answers) (c : call) (f : host -> result host errno) (h : host) : state unit errno :=
  match ask a c f h with Ok h' => (Ok tt, h') | Err e => (Err e, h) end.

(** src/analyse/process_manager_builder.rs:118-132 *)
Definition signals : list Z := [SIGCHLD; SIGINT; SIGTERM; SIGQUIT].
Definition setup_signal_handler (a : answers) (h : host) : state Z errno :=
  then_ (try_call a KMask (sys_block signals) h) (fun _ h =>
  then_ (try_call a KSignalfd (sys_open (f_signal a) (OSignals signals)) h) (fun _ h =>
  (Ok (f_signal a), h))).

(** src/analyse/process_manager_builder.rs:137-141: a missing file is as good as a
    removed one *)
Definition remove_old (a : answers) (p : string) (h : host) : state unit errno :=
  match try_call a (KUnlink p) (sys_unlink p) h with
  | (Err ENOENT, h) => (Ok tt, h)
  | other => other
  end.

(** src/analyse/process_manager_builder.rs:137-171.  The memory of [raw_path] is
    never freed, which is left out. *)
Definition setup_unix_socket (a : answers) (p : string) (t : sock_type) (fd : Z) (h : host) : state Z errno :=
  then_ (remove_old a p h) (fun _ h =>
  then_ (try_call a (KSocket p) (sys_socket fd t) h) (fun _ h =>
  then_ (try_call a (KBind p) (sys_bind (f_umask a) fd p) h) (fun _ h =>
  then_ (try_call a (KChmod p) (sys_chmod p MODE) h) (fun _ h =>
  then_ (try_call a (KPasscred p) (sys_passcred fd) h) (fun _ h =>
  if is_stream t then then_ (try_call a (KListen p) (sys_listen fd) h) (fun _ h => (Ok fd, h))
  else (Ok fd, h)))))).

(** src/analyse/process_manager_builder.rs:110-115.  The descriptors are dropped on the
    way out of a failure; as cinit exits then, this is left out. *)
Definition setup_file_descriptors (a : answers) (h : host) : state (Z * Z * Z) errno :=
  then_ (setup_signal_handler a h) (fun signal h =>
  then_ (setup_unix_socket a SOCKET_PATH Stream (f_status a) h) (fun status h =>
  then_ (setup_unix_socket a NOTIFY_PATH Datagram (f_notify a) h) (fun notify h =>
  (Ok (signal, status, notify), h)))).

(** src/runtime/process_manager/mod.rs:224-246 *)
Definition setup_epoll_fd (a : answers) (epoll signal status notify : Z) (h : host) : state unit errno :=
  then_ (try_call a (KAdd signal) (sys_add epoll signal EPOLLIN signal) h) (fun _ h =>
  then_ (try_call a (KAdd status) (sys_add epoll status EPOLLIN status) h) (fun _ h =>
  try_call a (KAdd notify) (sys_add epoll notify EPOLLIN notify) h)).

(** src/runtime/process_manager/mod.rs:217-221 *)
Definition setup (a : answers) (epoll signal status notify : Z) (h : host) : state unit errno :=
  then_ (setup_epoll_fd a epoll signal status notify h) (fun _ h =>
  try_call a KSubreaper sys_subreaper h).

(** src/analyse/process_manager_builder.rs:72-108: the results of the checks of the
    dependencies and timers are only looked at after the sockets have been set up. *)
Definition manager_on (k : machine) (a : answers) (configs : list proc_config) (h : host)
    : outcome (result (analysis * (Z * Z * Z)) Z) * host :=
  match build_processes (m_world k) configs with
  | Panic m => (Panic m, h)
  | Ret (Err e) => (Ret (Err e), h)
  | Ret (Ok ps) =>
      match build_dependency_manager (m_order k) (m_toposort k) configs with
      | Panic m => (Panic m, h)
      | Ret dep =>
          match build_cron (m_zone k) (m_clock k) configs with
          | Panic m => (Panic m, h)
          | Ret cron =>
              match setup_file_descriptors a h with
              | (Err _, h) => (Ret (Err ANALYSE_EXIT), h)
              | (Ok fds, h) =>
                  match dep, cron with
                  | Err e, _ => (Ret (Err e), h)
                  | Ok _, Err e => (Ret (Err e), h)
                  | Ok dep, Ok cron =>
                      match try_call a KEpoll (sys_open (f_epoll a) (OEpoll ∅)) h with
                      | (Err _, h) => (Panic "Could not create epoll fd", h)
                      | (Ok _, h) => (Ret (Ok ({| a_processes := ps; a_dep := dep; a_cron := cron |}, fds)), h)
                      end
                  end
              end
          end
      end
  end.

(** src/main.rs:78-110 up to the event loop *)
Definition run_on (k : machine) (a : answers) (h : host) : outcome boot * host :=
  match do_startup_checks (m_release k) (m_uid k) with
  | Err e => (Ret (Exits e), h)
  | Ok _ =>
      match parse_config (m_yaml k) (m_drain k) (m_files k) with
      | Panic m => (Panic m, h)
      | Ret (Err e) => (Ret (Exits e), h)
      | Ret (Ok configs) =>
          match manager_on k a configs h with
          | (Panic m, h) => (Panic m, h)
          | (Ret (Err e), h) => (Ret (Exits e), h)
          | (Ret (Ok (an, (signal, status, notify))), h) =>
              match setup a (f_epoll a) signal status notify h with
              | (Err _, h) => (Ret (Exits RUNTIME_EXIT), h)
              | (Ok _, h) => (Ret (EntersLoop configs an), h)
              end
          end
      end
  end.
