(** Model of execvpe(3), called at src/runtime/process.rs:312-324 with the path,
    arguments and environment of the program; after the GNU C library, posix/execvpe.c.
    The variable PATH is that of the calling process, a copy of cinit.  Left out:
    elements of PATH of 4096 bytes and more, and stack exhaustion. *)
From stdpp Require Import gmap strings.
From Coq Require Import Ascii ZArith List Bool.
From Verif Require Import Base ProcessModel ChildModel.
Import ListNotations.
Local Open Scope string_scope.
Local Open Scope list_scope.
Local Open Scope nat_scope.

(** Errors of execve(2), as far as execvpe tells them apart: ENOENT, ESTALE, ENOTDIR,
    ENODEV and ETIMEDOUT; EACCES; ENOEXEC; all others. *)
Inductive errno := NotThere | Denied | NoFormat | OtherError.

(** What execve says of a file name in a working directory: no error if it executes. *)
Notation files := (string -> string -> option errno).

(** The file that is executed and the arguments it gets. *)
Notation found := (string * list string)%type.

Definition SHELL_FILE : string := "/bin/sh".
(** CS_PATH *)
Definition DEFAULT_PATH : string := "/bin:/usr/bin".
Definition NAME_MAX : nat := 255.

(** execve, and [maybe_script_execute]: a file of unknown format is given to the shell. *)
Definition attempt (fs : files) (dir file : string) (argv : list string) : found + errno :=
  match fs dir file with
  | None => inl (file, argv)
  | Some NoFormat =>
      match fs dir SHELL_FILE with
      | None => inl (SHELL_FILE, SHELL_FILE :: file :: tl argv)
      | Some e => inr e
      end
  | Some e => inr e
  end.

(** [strchrnul]: up to the next colon. *)
Fixpoint elements (s : string) : list string :=
  match s with
  | "" => [""]
  | String c rest =>
      if Ascii.eqb c ":" then "" :: elements rest
      else match elements rest with e :: l => String c e :: l | [] => [String c ""] end
  end.

Fixpoint contains_slash (s : string) : bool :=
  match s with "" => false | String c rest => Ascii.eqb c "/" || contains_slash rest end.

Definition join (element file : string) : string := match element with "" => file | _ => element +:+ "/" +:+ file end.

(** The loop over PATH. *)
Fixpoint search (fs : files) (dir file : string) (argv : list string) (denied : bool) (last : errno) (l : list string) : found + errno :=
  match l with
  | [] => inr (if denied then Denied else last)
  | d :: rest =>
      match attempt fs dir (join d file) argv with
      | inl r => inl r
      | inr Denied => search fs dir file argv true Denied rest
      | inr NotThere => search fs dir file argv denied NotThere rest
      | inr e => inr e
      end
  end.

Definition execvpe (fs : files) (dir : string) (path : option string) (file : string) (argv : list string) : found + errno :=
  match file with
  | "" => inr NotThere
  | _ =>
      if contains_slash file then attempt fs dir file argv
      else if NAME_MAX <? String.length file then inr OtherError
      else search fs dir file argv false NotThere (elements (match path with Some s => s | None => DEFAULT_PATH end))
  end.

(** src/runtime/process.rs:312-324: the last call of the child; the child has changed
    to its working directory before. *)
Definition exec_child (fs : files) (path : option string) (p : process) : found + errno :=
  execvpe fs (p_workdir p) path (p_path p) (p_args p).
