(** What cinit's set-up should have done when the event loop starts. *)
From stdpp Require Import gmap strings.
From Coq Require Import Ascii ZArith List Bool.
From Verif Require Import Base ConfigModel ProcessModel EnvModel DepModel MainModel SetupModel SpecMain.
Import ListNotations.
Local Open Scope string_scope.
Local Open Scope list_scope.
Local Open Scope Z_scope.

(** The kernel hands out four numbers that are not in use. *)
Definition fresh (a : answers) (h : host) : Prop :=
  List.NoDup [f_signal a; f_status a; f_notify a; f_epoll a] /\
  forall fd, In fd [f_signal a; f_status a; f_notify a; f_epoll a] -> h_fds h !! fd = None.

(** SIGINT, SIGQUIT, SIGTERM, SIGCHLD *)
Definition termination (s : Z) : Prop := s = 2 \/ s = 3 \/ s = 15 \/ s = 17.

(** The socket with the given number answers at [p], usable by every user. *)
Definition serves (h : host) (p : string) (fd : Z) (t : sock_type) : Prop :=
  exists s, h_fds h !! fd = Some (OSock s, true) /\ k_type s = t /\ k_path s = Some p /\ k_passcred s = true /\
    (k_listen s = true <-> t = Stream) /\ h_files h !! p = Some (ESocket (k_id s) 511).

(** The machine when the event loop starts, compared with the one before. *)
Definition ready (a : answers) (h h' : host) : Prop :=
  serves h' "/run/cinit.socket" (f_status a) Stream /\
  serves h' "/run/cinit-notify.socket" (f_notify a) Datagram /\
  (exists l, h_fds h' !! f_signal a = Some (OSignals l, true) /\ forall s, In s l <-> termination s) /\
  (exists m, h_fds h' !! f_epoll a = Some (OEpoll m, true) /\
     forall x v, m !! x = Some v <-> (x = f_signal a \/ x = f_status a \/ x = f_notify a) /\ v = (1, x)) /\
  (forall s, In s (h_mask h') <-> In s (h_mask h) \/ termination s) /\
  h_subreaper h' = true /\
  (forall p, p <> "/run/cinit.socket" -> p <> "/run/cinit-notify.socket" -> h_files h' !! p = h_files h !! p) /\
  (forall fd, ~ In fd [f_signal a; f_status a; f_notify a; f_epoll a] -> h_fds h' !! fd = h_fds h !! fd).

(** Whatever is at the path can be removed, or there is nothing. *)
Definition removable (a : answers) (h : host) (p : string) : Prop :=
  match f_fault a (KUnlink p) with
  | Some ENOENT => h_files h !! p = None
  | Some EOTHER => False
  | None => h_files h !! p <> Some EDir
  end.
Definition socket_possible (a : answers) (h : host) (p : string) (t : sock_type) : Prop :=
  removable a h p /\ f_fault a (KSocket p) = None /\ f_fault a (KBind p) = None /\ f_fault a (KChmod p) = None /\
  f_fault a (KPasscred p) = None /\ (t = Stream -> f_fault a (KListen p) = None).
Definition sockets_possible (a : answers) (h : host) : Prop :=
  f_fault a KMask = None /\ f_fault a KSignalfd = None /\
  socket_possible a h "/run/cinit.socket" Stream /\ socket_possible a h "/run/cinit-notify.socket" Datagram.
Definition epoll_possible (a : answers) : Prop := f_fault a KEpoll = None.
Definition watch_possible (a : answers) : Prop :=
  f_fault a (KAdd (f_signal a)) = None /\ f_fault a (KAdd (f_status a)) = None /\ f_fault a (KAdd (f_notify a)) = None /\
  f_fault a KSubreaper = None.

(** The answers MainModel takes as given are those of the calls. *)
Definition agrees (k : machine) (a : answers) (h : host) : Prop :=
  (m_sockets k = true <-> sockets_possible a h) /\ (m_epoll k = true <-> epoll_possible a) /\ (m_setup k = true <-> watch_possible a).

(** Only cinit's own names and descriptors may differ, and no directory is removed. *)
Definition confined (a : answers) (h h' : host) : Prop :=
  (forall p, p <> "/run/cinit.socket" -> p <> "/run/cinit-notify.socket" -> h_files h' !! p = h_files h !! p) /\
  (forall p, h_files h !! p = Some EDir -> h_files h' !! p = Some EDir) /\
  (forall fd, ~ In fd [f_signal a; f_status a; f_notify a; f_epoll a] -> h_fds h' !! fd = h_fds h !! fd) /\
  (forall s, In s (h_mask h) -> In s (h_mask h')).

(** The machine without failing calls. *)
Definition faultless (k : machine) : machine :=
  {| m_release := m_release k; m_uid := m_uid k; m_yaml := m_yaml k; m_drain := m_drain k; m_files := m_files k;
     m_world := m_world k; m_order := m_order k; m_toposort := m_toposort k; m_zone := m_zone k; m_clock := m_clock k;
     m_sockets := true; m_epoll := true; m_setup := true |}.
