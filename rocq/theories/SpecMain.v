(** What should decide cinit's exit code before the event loop. *)
From stdpp Require Import gmap strings.
From Coq Require Import Ascii ZArith List Bool.
From Verif Require Import Base RStr CronModel ConfigModel ProcessModel EnvModel DepModel MainModel
  SpecStr SpecConfig SpecEnv SpecDep.
From Verif Require SpecFault.
Import ListNotations.
Local Open Scope string_scope.
Local Open Scope list_scope.

(** A 32 bit number in decimal. *)
Definition number_text (t : string) (n : Z) : Prop :=
  exists d, (t = d \/ t = "+" +:+ d) /\ numeral d /\ n = value d /\ (n <= 4294967295)%Z.

(** The release text starts with major "." minor, followed by nothing or ".". *)
Definition version (release : string) (major minor : Z) : Prop :=
  exists a b, number_text a major /\ number_text b minor /\
    (release = a +:+ "." +:+ b \/ exists rest, release = a +:+ "." +:+ b +:+ "." +:+ rest).

Definition too_old (release : option string) : Prop :=
  exists r major minor, release = Some r /\ version (utf8_lossy r) major minor /\
    (major < 4 \/ (major = 4 /\ minor < 3))%Z.

Definition precondition_fails (k : machine) : Prop := m_uid k <> 0%Z \/ too_old (m_release k).

(** Something in the configuration is unreadable or does not parse. *)
Definition unloadable (k : machine) : Prop :=
  broken (m_files k) \/ (exists p s, file_at (m_files k) p s /\ m_yaml k s = None).

(** [parsed] are the fragments of all the files, file by file. *)
Definition read_as (k : machine) (parsed : list (list proc_config)) : Prop :=
  exists ps contents, listing (m_files k) ps contents /\ map (m_yaml k) contents = map Some parsed.

(** The fragments of some program cannot be merged. *)
Definition unmergeable (fs : list proc_config) : Prop :=
  exists n e, In n (map pc_name fs) /\ merge_fragments (fragments n fs) = Ret (Err e).

(** [configs] has one merged program for each name. *)
Definition merged (fs configs : list proc_config) : Prop :=
  List.NoDup (map pc_name configs) /\ (forall n, In n (map pc_name configs) <-> In n (map pc_name fs)) /\
  (forall c, In c configs -> merge_fragments (fragments (pc_name c) fs) = Ret (Ok c)).

Definition program_fault (w : world) (c : proc_config) : Prop :=
  (is_cronjob (pc_type c) = true /\ pc_before c <> []) \/
  (forall u, ~ selects (w_uid w) (w_user w) (pc_uid c) (pc_user c) u) \/
  (forall g, ~ selects (w_gid w) (w_group w) (pc_gid c) (pc_group c) g) \/ pc_path c = None.
Definition dependency_fault (configs : list proc_config) : Prop :=
  ~ (refs_known configs /\ no_cron_after configs /\ acyclic configs).
Definition timer_fault (c : proc_config) : Prop :=
  exists t why, pc_type c = CronJob t /\ SpecFault.timer_fault t (SpecFault.Refused why).

Definition analysis_fails (k : machine) (configs : list proc_config) : Prop :=
  (exists c, In c configs /\ program_fault (m_world k) c) \/ dependency_fault configs \/
  (exists c, In c configs /\ timer_fault c) \/ m_sockets k = false.

(** The services behave as documented. *)
Definition honest (k : machine) : Prop :=
  some_order (m_drain k) /\ any_perm (m_order k) /\ finds_cycles (m_toposort k) /\ ~ non_utf8 (m_files k).

(** What can make cinit crash before the event loop: building a program (see C10),
    a timer (see C16, C19), or no epoll descriptor.  The last alternative is no crash of cinit: the
    model was given too few clock readings. *)
Definition crash_cause (k : machine) (configs : list proc_config) (m : string) : Prop :=
  (exists c, In c configs /\ process_from (m_world k) c = Panic m) \/
  (exists c s, In c configs /\ pc_type c = CronJob s /\ (parse_timer s = Panic m \/
    exists d now, parse_timer s = Ret (Ok d) /\ In now (m_clock k) /\ next_execution (m_zone k) d now = Panic m)) \/
  m_epoll k = false \/ (length (m_clock k) < length configs)%nat.
