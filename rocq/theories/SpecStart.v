(** Specification of what cinit logs before the event loop. *)
From stdpp Require Import gmap strings.
From Coq Require Import Ascii ZArith List Bool Relations.
From Verif Require Import Base RStr CronModel ConfigModel ProcessModel EnvModel DepModel MainModel LogModel TemplModel StartModel
  SpecConfig SpecEnv SpecDep SpecMain.
From Verif Require SpecFault.
Import ListNotations.
Local Open Scope string_scope.
Local Open Scope list_scope.

(** The path of an entry of a directory. *)
Definition joined (path name r : string) : Prop :=
  ((path = "" \/ exists q, path = q +:+ "/") /\ r = path +:+ name) \/
  (path <> "" /\ (forall q, path <> q +:+ "/") /\ r = path +:+ "/" +:+ name).
(** What is found below a directory, with its path. *)
Inductive at_path : string -> tree -> string -> tree -> Prop :=
| ap_here path t : at_path path t path t
| ap_below path entries name t path' p s : In (TEntry name true t) entries -> joined path name path' -> at_path path' t p s ->
    at_path path (TDir (Some entries)) p s.

(** A fragment sets a field that may be set only once. *)
Inductive sets (c : proc_config) : string -> Prop :=
| se_workdir : pc_workdir c <> None -> sets c "workdir"
| se_uid : pc_uid c <> None -> sets c "uid"
| se_gid : pc_gid c <> None -> sets c "gid"
| se_user : pc_user c <> None -> sets c "user"
| se_group : pc_group c <> None -> sets c "group".

(** The reasons that may be given at ERROR level, each with what it supposes. *)
Inductive reason (t : texts) (path : string) (root : tree) (k : machine) : string -> Prop :=
| rs_kernel x : too_old (m_release k) ->
    In x ["Your kernel is older than 4.3. Ambient capabilities"; "are not supported on your kernel but are needed for"; "cinit to work properly. Aborting"] ->
    reason t path root k x
| rs_root x : m_uid k <> 0%Z ->
    In x ["cinit is not running as root. This is"; "needed to switch users and capabilities"; "Aborting"] -> reason t path root k x
| rs_missing p : at_path path root p TMissing -> reason t path root k ("Failed to read metadata of " +:+ p +:+ ": " +:+ t_path t p)
| rs_file p : at_path path root p (TFile None) -> reason t path root k ("Failed to read file " +:+ p +:+ ": " +:+ t_path t p)
| rs_dir p : at_path path root p (TDir None) -> reason t path root k ("Failed to get directory content of " +:+ p +:+ ": " +:+ t_path t p)
| rs_entry p entries : at_path path root p (TDir (Some entries)) -> In TBad entries ->
    reason t path root k ("Failed to read " +:+ p +:+ ": " +:+ t_path t p)
| rs_yaml x p s : at_path path root p (TFile (Some s)) -> m_yaml k s = None -> In x ["Could not parse config: "; t_yaml t s] ->
    reason t path root k x
| rs_path parsed n : read_as k parsed -> two (has pc_path) (fragments n (concat parsed)) ->
    reason t path root k ("Duplicate program found for name " +:+ n)
| rs_field parsed n f : read_as k parsed -> two (fun c => sets c f) (fragments n (concat parsed)) ->
    reason t path root k ("Configuration drop-in for " +:+ n +:+ " contains duplicate field " +:+ f)
| rs_type parsed n : read_as k parsed -> Exists pathless_cronjob (fragments n (concat parsed)) ->
    reason t path root k ("Configuration drop-in for " +:+ n +:+ " changes type to cronjob")
| rs_before parsed configs c : read_as k parsed -> merged (concat parsed) configs -> In c configs ->
    is_cronjob (pc_type c) = true -> pc_before c <> [] ->
    reason t path root k ("Program " +:+ pc_name c +:+ " contains error: Cronjobs may not have dependencies")
| rs_user parsed configs c : read_as k parsed -> merged (concat parsed) configs -> In c configs ->
    (forall u, ~ selects (w_uid (m_world k)) (w_user (m_world k)) (pc_uid c) (pc_user c) u) \/
    (forall g, ~ selects (w_gid (m_world k)) (w_group (m_world k)) (pc_gid c) (pc_group c) g) ->
    reason t path root k ("Program " +:+ pc_name c +:+ " contains error: User/Group config invalid")
| rs_no_path parsed configs c : read_as k parsed -> merged (concat parsed) configs -> In c configs -> pc_path c = None ->
    reason t path root k ("Program " +:+ pc_name c +:+ " contains error: Missing 'path' attribute")
| rs_after parsed configs c n : read_as k parsed -> merged (concat parsed) configs -> In c configs -> In n (pc_after c) -> ~ known configs n ->
    reason t path root k ("Unknown 'after' dependency '" +:+ n +:+ "' of program " +:+ pc_name c)
| rs_unknown_before parsed configs c n : read_as k parsed -> merged (concat parsed) configs -> In c configs -> In n (pc_before c) -> ~ known configs n ->
    reason t path root k ("Unknown 'before' dependency '" +:+ n +:+ "' of program " +:+ pc_name c)
| rs_cronjob parsed configs c n : read_as k parsed -> merged (concat parsed) configs -> In c configs -> In n (pc_after c) -> cronjob_named configs n ->
    reason t path root k ("Program " +:+ pc_name c +:+ " contains error: Depending on cronjobs is not allowed")
| rs_cycle parsed configs i c : read_as k parsed -> merged (concat parsed) configs -> nth_error configs i = Some c ->
    clos_trans nat (depends configs) i i -> reason t path root k ("Found cycle involving process '" +:+ pc_name c +:+ "'")
| rs_timer parsed configs c s why : read_as k parsed -> merged (concat parsed) configs -> In c configs -> pc_type c = CronJob s ->
    SpecFault.timer_fault s (SpecFault.Refused why) -> reason t path root k ("Timer parse error for program '" +:+ pc_name c +:+ "': " +:+ why)
| rs_sockets : m_sockets k = false -> reason t path root k ("Could not setup sockets: " +:+ t_sockets t)
| rs_setup : m_setup k = false -> reason t path root k ("Failed to register with epoll: " +:+ t_setup t).

(** The messages of one level. *)
Definition texts_of (l : level) (ms : list message) : list string :=
  map snd (List.filter (fun m => (rank (fst m) =? rank l)%Z) ms).

(** How far cinit comes. *)
Definition milestones (path : string) : list string :=
  ["Starting up"; "Config is at " +:+ path; "Parsing config"; "Perform analysis on programs"; "Spawning processes"].
Definition phases (r : outcome boot) : nat :=
  match r with
  | Ret (Exits 5) => 1
  | Ret (Exits 1) => 3
  | Ret (Exits 2) => 4
  | Panic _ => 4
  | _ => 5
  end.

(** What is said about the version of the kernel unless it is too old. *)
Inductive version_note (t : texts) (release : option string) : list message -> Prop :=
| vn_unread : release = None -> version_note t release [(LWarn, "Could not read kernel version: " +:+ t_uname t)]
| vn_unknown r : release = Some r -> (forall major minor, ~ version (utf8_lossy r) major minor) ->
    version_note t release [(LWarn, "Could not determine kernel version from input '" +:+ utf8_lossy r +:+ "'")]
| vn_known r major minor : release = Some r -> version (utf8_lossy r) major minor -> version_note t release [].

(** What is neither a file nor a directory, in the order of the directories. *)
Inductive ignored : string -> tree -> list string -> Prop :=
| ig_file path s : ignored path (TFile (Some s)) []
| ig_special path : ignored path TSpecial [path]
| ig_dir path entries l : ignored_in path entries l -> ignored path (TDir (Some entries)) l
with ignored_in : string -> list entry -> list string -> Prop :=
| ii_nil path : ignored_in path [] []
| ii_cons path name path' t rest a b : joined path name path' -> ignored path' t a -> ignored_in path rest b ->
    ignored_in path (TEntry name true t :: rest) (a ++ b).

(** What may be said at WARN level. *)
Inductive caution (t : texts) (path : string) (root : tree) (k : machine) : string -> Prop :=
| ca_unread : m_release k = None -> caution t path root k ("Could not read kernel version: " +:+ t_uname t)
| ca_unknown r : m_release k = Some r -> (forall major minor, ~ version (utf8_lossy r) major minor) ->
    caution t path root k ("Could not determine kernel version from input '" +:+ utf8_lossy r +:+ "'")
| ca_special p : at_path path root p TSpecial -> caution t path root k ("Ignoring file " +:+ p)
| ca_program parsed configs c x : read_as k parsed -> merged (concat parsed) configs -> In c configs ->
    In (LWarn, x) (fst (build (t_tera t) (m_world k) c)) -> caution t path root k x.
