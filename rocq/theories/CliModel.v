(** Model of src/cli_parser.rs:30-61 and of the use of its result at src/main.rs:79-89:
    the command line, as the library clap 4.5 reads it with the two options declared
    there and its own [--help] and [--version].  Texts printed by clap are left out. *)
From Coq Require Import String Ascii ZArith List Bool.
From Verif Require Import Base RStr.
From Verif Require MainModel.
Import ListNotations.
Local Open Scope string_scope.
Local Open Scope list_scope.
Local Open Scope Z_scope.

(** The value of [--config] so far and the number of [--verbose]. *)
Record seen := { sn_config : option string; sn_verbose : Z }.

(** Either cinit goes on with a configuration path and a verbosity, or the process
    ends: clap exits with 0 after help and version and with 2 after errors. *)
Inductive cli := Begins (config : string) (verbosity : Z) | Stops (code : Z).

(** [ArgAction::Set], [num_args(1)] and the value parser of String (cli_parser.rs:45-52):
    a second value is an error, and one that is not UTF-8. *)
Definition take_config (s : seen) (v : string) : option seen :=
  match sn_config s with
  | Some _ => None
  | None => if utf8_valid v then Some {| sn_config := Some v; sn_verbose := sn_verbose s |} else None
  end.
(** [ArgAction::Count] (cli_parser.rs:53-59) counts in a u8 and saturates. *)
Definition take_verbose (s : seen) : seen :=
  {| sn_config := sn_config s; sn_verbose := if sn_verbose s <? 255 then sn_verbose s + 1 else 255 |}.

(** After one argument: go on, wait for the value of [--config], or stop. *)
Inductive step := Next (s : seen) | Wait (s : seen) | Halt (code : Z).
Definition took (r : option seen) : step := match r with Some s => Next s | None => Halt 2 end.

(** An argument with two dashes, without these. *)
Definition long_arg (s : seen) (name : string) : step :=
  if String.eqb name "verbose" then Next (take_verbose s)
  else if String.eqb name "config" then Wait s
  else if String.eqb name "help" then Halt 0
  else if String.eqb name "version" then Halt 0
  else if String.prefix "config=" name then took (take_config s (sdrop 7 name))
  else Halt 2.

(** An argument with one dash, without it: flags, and the rest as value after [c]. *)
Fixpoint short_args (s : seen) (flags : string) : step :=
  match flags with
  | "" => Next s
  | String c rest =>
      if Ascii.eqb c "v" then short_args (take_verbose s) rest
      else if Ascii.eqb c "h" then Halt 0
      else if Ascii.eqb c "V" then Halt 0
      else if Ascii.eqb c "c" then
        match rest with
        | "" => Wait s
        | String d value => if Ascii.eqb d "=" then took (take_config s value) else took (take_config s rest)
        end
      else Halt 2
  end.

(** cli_parser.rs:51, main.rs:87-89 *)
Definition DEFAULT_CONFIG : string := "/etc/cinit.yml".
Definition finish (s : seen) : cli :=
  Begins (match sn_config s with Some v => v | None => DEFAULT_CONFIG end) (sn_verbose s).

(** Arguments with two dashes, with one, and others; a dash alone is one of the others. *)
Inductive form := Long (name : string) | Short (flags : string) | Word.
Definition form_of (a : string) : form :=
  match a with
  | String x (String y rest) =>
      if Ascii.eqb x "-" then (if Ascii.eqb y "-" then Long rest else Short (String y rest)) else Word
  | _ => Word
  end.

(** The loop over the arguments.  There are no positional arguments; after two dashes
    alone everything would be one.  An argument that begins with a dash is not taken as
    a value. *)
Fixpoint read (waiting : bool) (s : seen) (args : list string) : cli :=
  match args with
  | [] => if waiting then Stops 2 else finish s
  | a :: rest =>
      match form_of a with
      | Word => if waiting then match take_config s a with Some s' => read false s' rest | None => Stops 2 end else Stops 2
      | Long name =>
          if waiting then Stops 2
          else if String.eqb name "" then (match rest with [] => finish s | _ => Stops 2 end)
          else match long_arg s name with Next s' => read false s' rest | Wait s' => read true s' rest | Halt code => Stops code end
      | Short flags =>
          if waiting then Stops 2
          else match short_args s flags with Next s' => read false s' rest | Wait s' => read true s' rest | Halt code => Stops code end
      end
  end.

(** src/cli_parser.rs:30-61; without the name of the program. *)
Definition parse_arguments (args : list string) : cli := read false {| sn_config := None; sn_verbose := 0 |} args.

(** src/main.rs:78-110.  [m] is everything outside of cinit for each path of the
    configuration.  The verbosity goes to the log (LogModel.v). *)
Definition main (args : list string) (m : string -> MainModel.machine) : outcome MainModel.boot :=
  match parse_arguments args with
  | Stops code => Ret (MainModel.Exits code)
  | Begins path _ => MainModel.run (m path)
  end.
