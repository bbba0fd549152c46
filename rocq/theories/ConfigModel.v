(** Model of src/config/mod.rs and src/config/config_parser.rs. *)
From Coq Require Import String ZArith List Bool.
From Verif Require Import Base.
Import ListNotations.
Local Open Scope string_scope.
Local Open Scope list_scope.

(** src/config/mod.rs:31-40 *)
Inductive merge_error :=
| PathSpecified (name : string)
| InvalidFieldSpecified (name field : string)
| CronjobSpecified (name : string).

(** src/config/mod.rs:61-75 *)
Inductive process_type :=
| Oneshot
| Notify
| CronJob (timer : string).

(** A HashMap<String, Option<String>> of the configuration file, in the order in
    which it happens to be iterated; keys are pairwise different. *)
Definition env_map := list (string * option string).

(** src/config/mod.rs:90-129.  uid and gid are u32 numbers. *)
Record proc_config := {
  pc_name : string;
  pc_path : option string;
  pc_args : list string;
  pc_workdir : option string;
  pc_type : process_type;
  pc_uid : option Z;
  pc_gid : option Z;
  pc_user : option string;
  pc_group : option string;
  pc_before : list string;
  pc_after : list string;
  pc_pty : bool;
  pc_caps : list string;
  pc_env : list env_map
}.

(** Vec::sort_unstable on strings: an insertion sort (equal strings are
    indistinguishable, so stability does not matter). *)
Fixpoint insert_sorted (x : string) (l : list string) : list string :=
  match l with
  | [] => [x]
  | y :: r => if String.leb x y then x :: l else y :: insert_sorted x r
  end.
Fixpoint sort_strings (l : list string) : list string :=
  match l with [] => [] | x :: r => insert_sorted x (sort_strings r) end.

(** Vec::dedup: drop elements equal to their predecessor. *)
Fixpoint dedup (l : list string) : list string :=
  match l with
  | x :: (y :: _) as r => if String.eqb x y then dedup r else x :: dedup r
  | _ => l
  end.

(** src/config/mod.rs:213-216 *)
Definition prune_duplicates (l : list string) : list string := dedup (sort_strings l).

Definition is_cronjob (t : process_type) : bool :=
  match t with CronJob _ => true | _ => false end.

(** src/config/mod.rs:159-211, after primary and drop-in have been chosen. *)
Definition merge_into (primary dropin : proc_config) : result proc_config merge_error :=
  let n := pc_name primary in
  if is_some (pc_path dropin) then Err (PathSpecified n)
  else if is_some (pc_workdir dropin) && is_some (pc_workdir primary) then Err (InvalidFieldSpecified n "workdir")
  else if is_some (pc_uid dropin) && is_some (pc_uid primary) then Err (InvalidFieldSpecified n "uid")
  else if is_some (pc_gid dropin) && is_some (pc_gid primary) then Err (InvalidFieldSpecified n "gid")
  else if is_some (pc_user dropin) && is_some (pc_user primary) then Err (InvalidFieldSpecified n "user")
  else if is_some (pc_group dropin) && is_some (pc_group primary) then Err (InvalidFieldSpecified n "group")
  else if is_cronjob (pc_type dropin) then Err (CronjobSpecified n)
  else Ok {|
    pc_name := pc_name primary;
    pc_path := pc_path primary;
    pc_args := pc_args primary ++ pc_args dropin;
    pc_workdir := opt_or (pc_workdir primary) (pc_workdir dropin);
    pc_type := pc_type primary;
    pc_uid := opt_or (pc_uid primary) (pc_uid dropin);
    pc_gid := opt_or (pc_gid primary) (pc_gid dropin);
    pc_user := opt_or (pc_user primary) (pc_user dropin);
    pc_group := opt_or (pc_group primary) (pc_group dropin);
    pc_before := prune_duplicates (pc_before primary ++ pc_before dropin);
    pc_after := prune_duplicates (pc_after primary ++ pc_after dropin);
    pc_pty := pc_pty primary || pc_pty dropin;
    pc_caps := prune_duplicates (pc_caps primary ++ pc_caps dropin);
    pc_env := pc_env primary ++ pc_env dropin
  |}.

(** src/config/mod.rs:143-211; [assert_eq!] panics on different names. *)
Definition merge (self other : proc_config) : outcome (result proc_config merge_error) :=
  if negb (String.eqb (pc_name self) (pc_name other)) then Panic "assertion `left == right` failed"
  else Ret (match pc_path self with
            | None => merge_into other self
            | Some _ => merge_into self other
            end).

(** src/config/config_parser.rs:128-147: the loop filling the HashMap, which is an
    association list with the program's name as key. *)
Definition dict := list (string * proc_config).
Definition dict_get (n : string) (d : dict) : option proc_config :=
  match find (fun e => String.eqb (fst e) n) d with Some (_, c) => Some c | None => None end.
Definition dict_remove (n : string) (d : dict) : dict := filter (fun e => negb (String.eqb (fst e) n)) d.
Definition dict_insert (n : string) (c : proc_config) (d : dict) : dict := (n, c) :: dict_remove n d.

Definition CONFIG_EXIT : Z := 1.

Fixpoint merge_loop (programs : list proc_config) (d : dict) : outcome (result dict Z) :=
  match programs with
  | [] => Ret (Ok d)
  | c :: rest =>
      match dict_get (pc_name c) d with
      | Some process =>
          match merge process c with
          | Panic m => Panic m
          | Ret (Err _) => Ret (Err CONFIG_EXIT)
          | Ret (Ok merged) => merge_loop rest (dict_insert (pc_name merged) merged (dict_remove (pc_name c) d))
          end
      | None => merge_loop rest (dict_insert (pc_name c) c d)
      end
  end.

(** src/config/config_parser.rs:128-154.  [drain] is the order in which the HashMap
    yields its entries. *)
Definition merge_dropins (drain : dict -> dict) (programs : list proc_config)
  : outcome (result (list proc_config) Z) :=
  match merge_loop programs [] with
  | Panic m => Panic m
  | Ret (Err e) => Ret (Err e)
  | Ret (Ok d) => Ret (Ok (map snd (drain d)))
  end.

(** * Reading files
    What the file system shows at a path.  Simplification: the tree is finite, i.e.
    there are no symbolic link cycles, and it does not change while it is read. *)
Inductive node :=
| NoMetadata                                    (** fs::metadata fails *)
| File (content : option string)                (** regular file; [None]: unreadable or not UTF-8 *)
| Special                                       (** neither file nor directory *)
| Dir (entries : option (list dirent))          (** [None]: read_dir fails *)
with dirent :=
| BadEntry                                      (** reading this directory entry fails *)
| Entry (utf8_path : bool) (n : node).          (** [to_str] fails on a path that is not UTF-8 *)

(** src/config/config_parser.rs:53-100 *)
Fixpoint read_config (n : node) : outcome (result (list string) Z) :=
  match n with
  | NoMetadata => Ret (Err CONFIG_EXIT)
  | File None => Ret (Err CONFIG_EXIT)
  | File (Some content) => Ret (Ok [content])
  | Special => Ret (Ok [])
  | Dir None => Ret (Err CONFIG_EXIT)
  | Dir (Some entries) =>
      (fix go (l : list dirent) : outcome (result (list string) Z) :=
         match l with
         | [] => Ret (Ok [])
         | BadEntry :: _ => Ret (Err CONFIG_EXIT)
         | Entry false _ :: _ => Panic "called `Option::unwrap()` on a `None` value"
         | Entry true m :: rest =>
             match read_config m with
             | Panic s => Panic s
             | Ret (Err e) => Ret (Err e)
             | Ret (Ok content) =>
                 match go rest with
                 | Ret (Ok more) => Ret (Ok (content ++ more))
                 | other => other
                 end
             end
         end) entries
  end.

(** src/config/config_parser.rs:103-121.  [yaml] is serde_yaml's parser. *)
Definition parse_raw_config (yaml : string -> option (list proc_config)) (raw : list string)
  : result (list proc_config) Z :=
  if forallb (fun s => is_some (yaml s)) raw
  then Ok (concat (map (fun s => match yaml s with Some l => l | None => [] end) raw))
  else Err CONFIG_EXIT.

(** src/config/config_parser.rs:36-48 *)
Definition parse_config (yaml : string -> option (list proc_config)) (drain : dict -> dict) (root : node)
  : outcome (result (list proc_config) Z) :=
  match read_config root with
  | Panic m => Panic m
  | Ret (Err e) => Ret (Err e)
  | Ret (Ok raw) =>
      match parse_raw_config yaml raw with
      | Err e => Ret (Err e)
      | Ok programs => merge_dropins drain programs
      end
  end.
