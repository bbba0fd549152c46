(** What cinit logs before the event loop, all levels but DEBUG: MainModel.v and the
    parts of ConfigModel.v with their messages. *)
From stdpp Require Import gmap strings.
From Coq Require Import Ascii ZArith List Bool.
From Verif Require Import Base RStr CronModel ConfigModel ProcessModel EnvModel DepModel MainModel LogModel TemplModel.
Import ListNotations.
Local Open Scope string_scope.
Local Open Scope list_scope.

(** The texts of errors of the kernel and of libraries: uname, the file at a path, YAML
    in a text, tera in a template, the sockets, epoll. *)
Record texts := {
  t_uname : string;
  t_path : string -> string;
  t_yaml : string -> string;
  t_tera : string -> string;
  t_sockets : string;
  t_setup : string
}.

(** A computation with the messages it gives. *)
Definition told (A : Type) : Type := list message * outcome A.
Definition tell {A} (l : list message) (x : told A) : told A := (l ++ fst x, snd x).
Definition then_ {A B} (x : told A) (f : A -> told B) : told B :=
  match snd x with
  | Ret a => tell (fst x) (f a)
  | Panic m => (fst x, Panic m)
  end.
Definition done {A} (a : A) : told A := ([], Ret a).
Definition both (l : level) (text : string) : list message := [(l, text); (LTrace, text)].

(** * src/startup_checks.rs *)
(** src/startup_checks.rs:34-73 *)
Definition kernel_says (t : texts) (release : option string) : told (result unit Z) :=
  match release with
  | None => ([(LWarn, "Could not read kernel version: " +:+ t_uname t)], Ret (Ok tt))
  | Some raw =>
      let unknown := [(LWarn, "Could not determine kernel version from input '" +:+ utf8_lossy raw +:+ "'")] in
      match split_on "."%char (utf8_lossy raw) with
      | major_raw :: minor_raw :: _ =>
          match parse_u32 major_raw, parse_u32 minor_raw with
          | Some major, Some minor =>
              if ((major <? 4) || ((major =? 4) && (minor <? 3)))%Z
              then ([(LError, "Your kernel is older than 4.3. Ambient capabilities");
                     (LError, "are not supported on your kernel but are needed for");
                     (LError, "cinit to work properly. Aborting")], Ret (Err STARTUP_EXIT))
              else done (Ok tt)
          | _, _ => (unknown, Ret (Ok tt))
          end
      | _ => (unknown, Ret (Ok tt))
      end
  end.
(** src/startup_checks.rs:76-86 *)
Definition user_says (uid : Z) : told (result unit Z) :=
  if (uid =? 0)%Z then done (Ok tt)
  else ([(LError, "cinit is not running as root. This is");
         (LError, "needed to switch users and capabilities");
         (LError, "Aborting")], Ret (Err STARTUP_EXIT)).
(** src/startup_checks.rs:28-31 *)
Definition checks_say (t : texts) (release : option string) (uid : Z) : told (result unit Z) :=
  then_ (kernel_says t release) (fun r => match r with Err e => done (Err e) | Ok _ => user_says uid end).

(** * src/config/config_parser.rs *)
(** What the file system shows at a path, with the names of the entries; [node] of
    ConfigModel.v is the same without names. *)
Inductive tree :=
| TMissing
| TFile (content : option string)
| TSpecial
| TDir (entries : option (list entry))
with entry :=
| TBad
| TEntry (name : string) (utf8 : bool) (t : tree).
Fixpoint nameless (t : tree) : node :=
  match t with
  | TMissing => NoMetadata
  | TFile c => File c
  | TSpecial => Special
  | TDir None => Dir None
  | TDir (Some es) =>
      Dir (Some ((fix go (l : list entry) : list dirent :=
        match l with
        | [] => []
        | TBad :: r => BadEntry :: go r
        | TEntry _ u t :: r => Entry u (nameless t) :: go r
        end) es))
  end.

(** std::fs::DirEntry::path, i.e. Path::join with a name that has no slash *)
Definition join (path name : string) : string :=
  if is_nil (list_ascii_of_string path) || ends_with "/" path then path +:+ name else path +:+ "/" +:+ name.

(** src/config/config_parser.rs:53-100 *)
Fixpoint reading_says (t : texts) (path : string) (n : tree) : told (result (list string) Z) :=
  match n with
  | TMissing => ([(LError, "Failed to read metadata of " +:+ path +:+ ": " +:+ t_path t path)], Ret (Err CONFIG_EXIT))
  | TFile None => ([(LError, "Failed to read file " +:+ path +:+ ": " +:+ t_path t path)], Ret (Err CONFIG_EXIT))
  | TFile (Some content) => done (Ok [content])
  | TSpecial => ([(LWarn, "Ignoring file " +:+ path)], Ret (Ok []))
  | TDir None => ([(LError, "Failed to get directory content of " +:+ path +:+ ": " +:+ t_path t path)], Ret (Err CONFIG_EXIT))
  | TDir (Some entries) =>
      (fix go (l : list entry) : told (result (list string) Z) :=
         match l with
         | [] => done (Ok [])
         | TBad :: _ => ([(LError, "Failed to read " +:+ path +:+ ": " +:+ t_path t path)], Ret (Err CONFIG_EXIT))
         | TEntry _ false _ :: _ => ([], Panic "called `Option::unwrap()` on a `None` value")
         | TEntry name true m :: rest =>
             then_ (reading_says t (join path name) m) (fun r =>
               match r with
               | Err e => done (Err e)
               | Ok content => then_ (go rest) (fun r => match r with Err e => done (Err e) | Ok more => done (Ok (content ++ more)) end)
               end)
         end) entries
  end.

(** src/config/config_parser.rs:103-121 *)
Definition parsing_says (t : texts) (yaml : string -> option (list proc_config)) (raw : list string)
  : told (result (list proc_config) Z) :=
  if forallb (fun s => is_some (yaml s)) raw
  then done (Ok (concat (map (fun s => match yaml s with Some l => l | None => [] end) raw)))
  else ([(LError, "Could not parse config: ")] ++
        map (fun s => (LError, t_yaml t s)) (List.filter (fun s => negb (is_some (yaml s))) raw) ++
        [(LTrace, "Error in configuration file")], Ret (Err CONFIG_EXIT)).

(** src/config/mod.rs:43-57 *)
Definition merge_text (e : merge_error) : string :=
  match e with
  | PathSpecified n => "Duplicate program found for name " +:+ n
  | InvalidFieldSpecified n f => "Configuration drop-in for " +:+ n +:+ " contains duplicate field " +:+ f
  | CronjobSpecified n => "Configuration drop-in for " +:+ n +:+ " changes type to cronjob"
  end.
(** src/config/config_parser.rs:128-154 *)
Fixpoint merging_says (programs : list proc_config) (d : dict) : told (result dict Z) :=
  match programs with
  | [] => done (Ok d)
  | c :: rest =>
      match dict_get (pc_name c) d with
      | Some process =>
          match merge process c with
          | Panic m => ([], Panic m)
          | Ret (Err e) => (both LError (merge_text e), Ret (Err CONFIG_EXIT))
          | Ret (Ok merged) => merging_says rest (dict_insert (pc_name merged) merged (dict_remove (pc_name c) d))
          end
      | None => merging_says rest (dict_insert (pc_name c) c d)
      end
  end.

(** src/config/config_parser.rs:36-48 *)
Definition config_says (t : texts) (yaml : string -> option (list proc_config)) (drain : dict -> dict) (path : string) (root : tree)
  : told (result (list proc_config) Z) :=
  then_ (reading_says t path root) (fun r =>
    match r with
    | Err e => done (Err e)
    | Ok raw =>
        then_ (parsing_says t yaml raw) (fun r =>
          match r with
          | Err e => done (Err e)
          | Ok programs =>
              then_ (merging_says programs []) (fun r =>
                match r with Err e => done (Err e) | Ok d => done (Ok (map snd (drain d))) end)
          end)
    end).

(** * src/analyse/process_manager_builder.rs *)
(** src/analyse/process_builder.rs:87-97 *)
Definition build_text (e : build_error) : string :=
  match e with
  | CronjobDependency => "Cronjobs may not have dependencies"
  | UserGroupInvalid => "User/Group config invalid"
  | PathMissing => "Missing 'path' attribute"
  end.
(** src/analyse/process_manager_builder.rs:73-84 *)
Fixpoint builds_say (t : texts) (w : world) (configs : list proc_config) : told (result (list process) Z) :=
  match configs with
  | [] => done (Ok [])
  | c :: rest =>
      then_ (build (t_tera t) w c) (fun r =>
        match r with
        | Err e => (both LError ("Program " +:+ pc_name c +:+ " contains error: " +:+ build_text e), Ret (Err ANALYSE_EXIT))
        | Ok p =>
            then_ (builds_say t w rest) (fun rs => match rs with Err e => done (Err e) | Ok ps => done (Ok (p :: ps)) end)
        end)
  end.

(** src/analyse/process_manager_builder.rs:190-235: [None] is an index out of bounds *)
Definition dependency_text (configs : list proc_config) (e : dep_error) : option string :=
  match e with
  | Cycle i => match nth_error configs i with Some c => Some ("Found cycle involving process '" +:+ pc_name c +:+ "'") | None => None end
  | UnknownAfterReference i k =>
      match nth_error configs i with
      | Some c => match nth_error (pc_after c) k with
                  | Some n => Some ("Unknown 'after' dependency '" +:+ n +:+ "' of program " +:+ pc_name c)
                  | None => None
                  end
      | None => None
      end
  | UnknownBeforeReference i k =>
      match nth_error configs i with
      | Some c => match nth_error (pc_before c) k with
                  | Some n => Some ("Unknown 'before' dependency '" +:+ n +:+ "' of program " +:+ pc_name c)
                  | None => None
                  end
      | None => None
      end
  | CronjobDependencyOf i =>
      match nth_error configs i with
      | Some c => Some ("Program " +:+ pc_name c +:+ " contains error: Depending on cronjobs is not allowed")
      | None => None
      end
  end.
(** src/analyse/process_manager_builder.rs:180-241 *)
Definition dependencies_say (order : list nat -> list nat) (toposort : list nat -> list (nat * nat) -> option nat)
  (configs : list proc_config) : told (result dep_manager Z) :=
  match with_nodes order toposort (enumerate configs) with
  | Panic m => ([], Panic m)
  | Ret (Ok m) => done (Ok m)
  | Ret (Err e) =>
      match dependency_text configs e with
      | Some text => (both LError text, Ret (Err ANALYSE_EXIT))
      | None => ([], Panic "index out of bounds")
      end
  end.
(** src/analyse/process_manager_builder.rs:249-278 *)
Definition timers_say (tz : zone) (clock : list instant) (configs : list proc_config) : told (result cron Z) :=
  let jobs := List.filter (fun e => is_cronjob (pc_type (snd e))) (enumerate configs) in
  match with_jobs tz (map (fun e => (fst e, timer_text (snd e))) jobs) clock with
  | Panic m => ([], Panic m)
  | Ret (Ok c) => done (Ok c)
  | Ret (Err (why, id)) =>
      match nth_error configs id with
      | Some c => (both LError ("Timer parse error for program '" +:+ pc_name c +:+ "': " +:+ why), Ret (Err ANALYSE_EXIT))
      | None => ([], Panic "index out of bounds")
      end
  end.

(** src/analyse/process_manager_builder.rs:72-108 *)
Definition analysis_says (t : texts) (k : machine) (configs : list proc_config) : told (result analysis Z) :=
  then_ (builds_say t (m_world k) configs) (fun ps =>
    match ps with
    | Err e => done (Err e)
    | Ok ps =>
        then_ (dependencies_say (m_order k) (m_toposort k) configs) (fun dep =>
          then_ (timers_say (m_zone k) (m_clock k) configs) (fun cron =>
            if negb (m_sockets k) then ([(LError, "Could not setup sockets: " +:+ t_sockets t)], Ret (Err ANALYSE_EXIT))
            else match dep with
            | Err e => done (Err e)
            | Ok dep =>
                match cron with
                | Err e => done (Err e)
                | Ok cron =>
                    if m_epoll k then done (Ok {| a_processes := ps; a_dep := dep; a_cron := cron |})
                    else ([], Panic "Could not create epoll fd")
                end
            end))
    end).

(** * src/main.rs *)
(** src/main.rs:78-110 and src/runtime/process_manager/mod.rs:83-92; [path] is the
    argument of --config or its default, [root] what is there. *)
Definition start_says (t : texts) (path : string) (root : tree) (k : machine) : told boot :=
  tell [(LInfo, "Starting up")]
    (then_ (checks_say t (m_release k) (m_uid k)) (fun r =>
       match r with
       | Err e => done (Exits e)
       | Ok _ =>
           tell [(LInfo, "Config is at " +:+ path); (LInfo, "Parsing config")]
             (then_ (config_says t (m_yaml k) (m_drain k) path root) (fun r =>
                match r with
                | Err e => done (Exits e)
                | Ok configs =>
                    tell [(LInfo, "Perform analysis on programs")]
                      (then_ (analysis_says t k configs) (fun a =>
                         match a with
                         | Err e => done (Exits e)
                         | Ok a =>
                             tell [(LInfo, "Spawning processes")]
                               (if m_setup k then done (EntersLoop configs a)
                                else ([(LError, "Failed to register with epoll: " +:+ t_setup t)], Ret (Exits RUNTIME_EXIT)))
                         end))
                end))
       end)).
