(** Specification of the errors with which cinit refuses to start. *)
From stdpp Require Import gmap strings.
From Coq Require Import Ascii ZArith List Bool Relations.
From Verif Require Import Base RStr CronModel ConfigModel ProcessModel EnvModel DepModel MainModel LogModel TemplModel StartModel
  SpecConfig SpecEnv SpecDep SpecMain SpecStart.
From Verif Require SpecFault.
Import ListNotations.
Local Open Scope string_scope.
Local Open Scope list_scope.

(** * Reading *)
(** The contents of all files below a path where everything can be read, in the order
    of the directories. *)
Inductive holds : tree -> list string -> Prop :=
| ho_file s : holds (TFile (Some s)) [s]
| ho_special : holds TSpecial []
| ho_dir entries l : hold entries l -> holds (TDir (Some entries)) l
with hold : list entry -> list string -> Prop :=
| ho_nil : hold [] []
| ho_cons name t rest a b : holds t a -> hold rest b -> hold (TEntry name true t :: rest) (a ++ b).
(** The first thing that cannot be read. *)
Inductive first_unread (t : texts) : string -> tree -> string -> Prop :=
| fu_missing path : first_unread t path TMissing ("Failed to read metadata of " +:+ path +:+ ": " +:+ t_path t path)
| fu_file path : first_unread t path (TFile None) ("Failed to read file " +:+ path +:+ ": " +:+ t_path t path)
| fu_dir path : first_unread t path (TDir None) ("Failed to get directory content of " +:+ path +:+ ": " +:+ t_path t path)
| fu_entry path before l rest : hold before l ->
    first_unread t path (TDir (Some (before ++ TBad :: rest))) ("Failed to read " +:+ path +:+ ": " +:+ t_path t path)
| fu_below path before l name n path' rest x : hold before l -> joined path name path' -> first_unread t path' n x ->
    first_unread t path (TDir (Some (before ++ TEntry name true n :: rest))) x.

(** * Merging *)
(** The last fragment does not fit those before. *)
Inductive misfit (fs : list proc_config) (c : proc_config) : string -> Prop :=
| mi_path : two (has pc_path) (fragments (pc_name c) (fs ++ [c])) -> misfit fs c ("Duplicate program found for name " +:+ pc_name c)
| mi_field f : two (fun c => sets c f) (fragments (pc_name c) (fs ++ [c])) ->
    misfit fs c ("Configuration drop-in for " +:+ pc_name c +:+ " contains duplicate field " +:+ f)
| mi_type : Exists pathless_cronjob (fragments (pc_name c) (fs ++ [c])) ->
    misfit fs c ("Configuration drop-in for " +:+ pc_name c +:+ " changes type to cronjob").

(** * Programs *)
Definition runs_before (c : proc_config) : Prop := is_cronjob (pc_type c) = true /\ pc_before c <> [].
Definition nobody (w : world) (c : proc_config) : Prop :=
  (forall u, ~ selects (w_uid w) (w_user w) (pc_uid c) (pc_user c) u) \/
  (forall g, ~ selects (w_gid w) (w_group w) (pc_gid c) (pc_group c) g).
(** Of several faults of a program one is named. *)
Inductive wrong (w : world) (c : proc_config) : string -> Prop :=
| wr_before : runs_before c -> wrong w c "Cronjobs may not have dependencies"
| wr_user : ~ runs_before c -> nobody w c -> wrong w c "User/Group config invalid"
| wr_path : ~ runs_before c -> ~ nobody w c -> pc_path c = None -> wrong w c "Missing 'path' attribute".

(** * Dependencies and timers *)
Inductive tangle (configs : list proc_config) : string -> Prop :=
| ta_after c n : In c configs -> In n (pc_after c) -> ~ known configs n ->
    tangle configs ("Unknown 'after' dependency '" +:+ n +:+ "' of program " +:+ pc_name c)
| ta_before c n : In c configs -> In n (pc_before c) -> ~ known configs n ->
    tangle configs ("Unknown 'before' dependency '" +:+ n +:+ "' of program " +:+ pc_name c)
| ta_cronjob c n : In c configs -> In n (pc_after c) -> cronjob_named configs n ->
    tangle configs ("Program " +:+ pc_name c +:+ " contains error: Depending on cronjobs is not allowed")
| ta_cycle i c : nth_error configs i = Some c -> clos_trans nat (depends configs) i i ->
    tangle configs ("Found cycle involving process '" +:+ pc_name c +:+ "'").
(** One fault of the dependencies is named. *)
Inductive tangled (configs : list proc_config) : list string -> Prop :=
| td_none : ~ dependency_fault configs -> tangled configs []
| td_one x : dependency_fault configs -> tangle configs x -> tangled configs [x].
(** The first refused timer is named. *)
Definition mistimed (c : proc_config) (why : string) : Prop :=
  exists s, pc_type c = CronJob s /\ SpecFault.timer_fault s (SpecFault.Refused why).
Inductive untimed (configs : list proc_config) : list string -> Prop :=
| um_none : (forall c why, In c configs -> ~ mistimed c why) -> untimed configs []
| um_first a c b why : configs = a ++ c :: b -> (forall x w, In x a -> ~ mistimed x w) -> mistimed c why ->
    untimed configs ["Timer parse error for program '" +:+ pc_name c +:+ "': " +:+ why].

(** * The whole *)
(** [grounds t path root k code errors echo]: cinit exits with [code] and logs [errors]
    at ERROR level, of which it repeats [echo] at TRACE level. *)
Inductive grounds (t : texts) (path : string) (root : tree) (k : machine) : Z -> list string -> list string -> Prop :=
| gr_kernel : too_old (m_release k) -> grounds t path root k 5
    ["Your kernel is older than 4.3. Ambient capabilities"; "are not supported on your kernel but are needed for"; "cinit to work properly. Aborting"] []
| gr_root : ~ too_old (m_release k) -> m_uid k <> 0%Z -> grounds t path root k 5
    ["cinit is not running as root. This is"; "needed to switch users and capabilities"; "Aborting"] []
| gr_unread x : ~ precondition_fails k -> first_unread t path root x -> grounds t path root k 1 [x] []
| gr_yaml raw bad : ~ precondition_fails k -> holds root raw -> bad = List.filter (fun s => negb (is_some (m_yaml k s))) raw -> bad <> [] ->
    grounds t path root k 1 ("Could not parse config: " :: map (t_yaml t) bad) ["Error in configuration file"]
| gr_merge parsed a c b x : ~ precondition_fails k -> read_as k parsed -> concat parsed = a ++ c :: b -> ~ unmergeable a -> misfit a c x ->
    grounds t path root k 1 [x] [x]
| gr_program parsed configs a c b why : ~ precondition_fails k -> read_as k parsed -> merged (concat parsed) configs ->
    configs = a ++ c :: b -> (forall x, In x a -> ~ program_fault (m_world k) x) -> wrong (m_world k) c why ->
    let x := "Program " +:+ pc_name c +:+ " contains error: " +:+ why in grounds t path root k 2 [x] [x]
| gr_analysis parsed configs d u : ~ precondition_fails k -> read_as k parsed -> merged (concat parsed) configs ->
    (forall x, In x configs -> ~ program_fault (m_world k) x) -> tangled configs d -> untimed configs u -> 
    d <> [] \/ u <> [] \/ m_sockets k = false ->
    grounds t path root k 2 (d ++ u ++ if m_sockets k then [] else ["Could not setup sockets: " +:+ t_sockets t]) (d ++ u)
| gr_setup parsed configs : ~ precondition_fails k -> read_as k parsed -> merged (concat parsed) configs -> ~ analysis_fails k configs ->
    m_setup k = false -> grounds t path root k 3 ["Failed to register with epoll: " +:+ t_setup t] [].
