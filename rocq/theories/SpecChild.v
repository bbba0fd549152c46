(** Vocabulary for what a program finds when it is executed. *)
From stdpp Require Import gmap strings.
From Coq Require Import ZArith List Bool.
From Verif Require Import Base ProcessModel ChildModel FdModel.
Import ListNotations.
Local Open Scope string_scope.
Local Open Scope list_scope.
Local Open Scope Z_scope.

(** The capabilities of Linux, after linux/capability.h. *)
Definition linux_caps : list (string * Z) :=
  [("CAP_CHOWN", 0); ("CAP_DAC_OVERRIDE", 1); ("CAP_DAC_READ_SEARCH", 2); ("CAP_FOWNER", 3); ("CAP_FSETID", 4);
   ("CAP_KILL", 5); ("CAP_SETGID", 6); ("CAP_SETUID", 7); ("CAP_SETPCAP", 8); ("CAP_LINUX_IMMUTABLE", 9);
   ("CAP_NET_BIND_SERVICE", 10); ("CAP_NET_BROADCAST", 11); ("CAP_NET_ADMIN", 12); ("CAP_NET_RAW", 13); ("CAP_IPC_LOCK", 14);
   ("CAP_IPC_OWNER", 15); ("CAP_SYS_MODULE", 16); ("CAP_SYS_RAWIO", 17); ("CAP_SYS_CHROOT", 18); ("CAP_SYS_PTRACE", 19);
   ("CAP_SYS_PACCT", 20); ("CAP_SYS_ADMIN", 21); ("CAP_SYS_BOOT", 22); ("CAP_SYS_NICE", 23); ("CAP_SYS_RESOURCE", 24);
   ("CAP_SYS_TIME", 25); ("CAP_SYS_TTY_CONFIG", 26); ("CAP_MKNOD", 27); ("CAP_LEASE", 28); ("CAP_AUDIT_WRITE", 29);
   ("CAP_AUDIT_CONTROL", 30); ("CAP_SETFCAP", 31); ("CAP_MAC_OVERRIDE", 32); ("CAP_MAC_ADMIN", 33); ("CAP_SYSLOG", 34);
   ("CAP_WAKE_ALARM", 35); ("CAP_BLOCK_SUSPEND", 36); ("CAP_AUDIT_READ", 37); ("CAP_PERFMON", 38); ("CAP_BPF", 39);
   ("CAP_CHECKPOINT_RESTORE", 40)].

(** The configuration of a program names capability number [x]. *)
Definition configured (p : process) (x : Z) : Prop := exists name, In name (p_caps p) /\ In (name, x) linux_caps.

(** A set consists of exactly the configured capabilities. *)
Definition exactly_configured (p : process) (s : gset Z) : Prop := forall x, x ∈ s <-> configured p x.

(** Program, arguments, environment, users, groups and working directory are the
    configured ones, and no signal is blocked. *)
Definition dressed (p : process) (c : child) : Prop :=
  c_ruid (ch_cred c) = p_uid p /\ c_euid (ch_cred c) = p_uid p /\ c_suid (ch_cred c) = p_uid p /\
  c_rgid (ch_cred c) = p_gid p /\ c_egid (ch_cred c) = p_gid p /\ c_sgid (ch_cred c) = p_gid p /\
  c_groups (ch_cred c) = [p_gid p] /\ ch_mask c = [] /\ ch_dir c = p_workdir p /\
  ch_image c = Some (p_path p, p_args p, p_env p).

(** Capabilities cinit needs for any program. *)
Definition needed (x : Z) : Prop := x = 6 \/ x = 7 \/ x = 8 \/ x = 31.

(** Nothing goes wrong for reasons outside of the model. *)
Definition no_fault (fault : nat -> bool) : Prop := forall n, fault n = false.

(** Everything the configuration asks for can be granted. *)
Definition can_dress (h : host) (p : process) : Prop :=
  h_dir h (p_workdir p) = true /\ h_exec h (p_path p) = true /\ h_uid h (p_uid p) = true /\ h_gid h (p_gid p) = true /\
  h_setgroups h = true /\ h_keep_locked h = false.

(** Kernel invariants of credentials. *)
Definition sane (h : host) (c : cred) : Prop :=
  c_eff c ⊆ c_prm c /\ forall x, x ∈ c_prm c \/ x ∈ c_inh c -> x <= h_last h.

(** A descriptor table as cinit finds it when it starts. *)
Definition inherited (t : table) : Prop :=
  (forall fd x, t !! fd = Some x -> d_file x = FInherited fd) /\ is_Some (t !! 1) /\ is_Some (t !! 2).

(** Tables of the running cinit. *)
Definition fd_reachable (t0 : table) (s : fdstate) : Prop :=
  exists signal status notify epoll t1 l, own_fds t0 signal status notify epoll = Some t1 /\ acts {| f_table := t1; f_count := 0 |} l = Some s.

(** cinit, in state [s], starts program [p] with credentials [k], blocked signals
    [mask], signals [ign] ignored when cinit was started, working directory [dir], and
    the kernel hands out the descriptors [x]; the child meets its fate [f]. *)
Definition launch (h : host) (fault : nat -> bool) (p : process) (s : fdstate) (x : numbers)
    (mask : list Z) (ign : gset Z) (dir : string) (k : cred) (f : fate) : Prop :=
  exists t, forked s x = Some t /\ child_side h fault p (n_out' x) (n_err' x) (fresh_child t mask ign dir k) = f.

(** Steps whose errors are neither retried nor ignored. *)
Definition fallible (x : call) : Prop := match x with CDup2 _ _ | CClose _ | CPrint _ => False | _ => True end.

(** The child has ended without executing anything. *)
Definition gave_up (f : fate) : Prop := exists c, f = Exits 4 c /\ ch_image c = None.

(** The names in the configuration that are no capabilities. *)
Definition unknown_names (p : process) : list string :=
  List.filter (fun name => negb (existsb (fun x => String.eqb name (fst x)) linux_caps)) (p_caps p).
