(** Model of src/programs/harness.rs:43-93: the command line of the harness, as the library
    clap 4.5 reads it with the options declared there and its own [--help].  Texts printed
    by clap are left out. *)
From Coq Require Import String Ascii ZArith List Bool.
From Verif Require Import Base RStr.
From Verif Require CliModel.
From Verif Require Import HarnessLifeModel.
Import ListNotations.
Local Open Scope string_scope.
Local Open Scope list_scope.
Local Open Scope Z_scope.

(** src/programs/harness.rs:45-79: the options with a value *)
Inductive opt := Code | Sleep | Output | Status.
Definition same (a b : opt) : bool :=
  match a, b with Code, Code | Sleep, Sleep | Output, Output | Status, Status => true | _, _ => false end.
(** harness.rs:47, 56, 65, 74 *)
Definition named (name : string) : option opt :=
  if String.eqb name "return-code" then Some Code
  else if String.eqb name "sleep" then Some Sleep
  else if String.eqb name "output" then Some Output
  else if String.eqb name "status" then Some Status
  else None.
(** harness.rs:48, 57, 66, 75 *)
Definition lettered (c : ascii) : option opt :=
  if Ascii.eqb c "r" then Some Code
  else if Ascii.eqb c "s" then Some Sleep
  else if Ascii.eqb c "o" then Some Output
  else if Ascii.eqb c "S" then Some Status
  else None.

(** The values so far, and whether [--ready] was among the arguments. *)
Record given := { g_value : opt -> option string; g_ready : bool }.

(** Either the harness goes on with its options and the other arguments, or the process
    ends: clap exits with 0 after help and with 2 after errors. *)
Inductive cli := Runs (o : options) (others : list string) | Stops (code : Z).

(** No action is declared (harness.rs:45-79), so clap takes [ArgAction::Set]; with
    [num_args(1)] and the value parser of String a second value is an error, and one that
    is not UTF-8. *)
Definition take (g : given) (o : opt) (v : string) : option given :=
  match g_value g o with
  | Some _ => None
  | None => if utf8_valid v then Some {| g_value := fun p => if same o p then Some v else g_value g p; g_ready := g_ready g |} else None
  end.
(** With [num_args(0)] (harness.rs:84) clap takes [ArgAction::SetTrue]; the flag twice is
    an error. *)
Definition take_ready (g : given) : option given :=
  if g_ready g then None else Some {| g_value := g_value g; g_ready := true |}.

(** After one argument: go on, wait for a value, or stop. *)
Inductive step := Next (g : given) | Wait (g : given) (o : opt) | Halt (code : Z).
Definition took (r : option given) : step := match r with Some g => Next g | None => Halt 2 end.

(** An argument with two dashes, without these. *)
Definition long_arg (g : given) (name : string) : step :=
  if String.eqb name "ready" then took (take_ready g)
  else if String.eqb name "help" then Halt 0
  else match named name with
       | Some o => Wait g o
       | None =>
           match splitn2 "=" name with
           | (key, Some v) => match named key with Some o => took (take g o v) | None => Halt 2 end
           | (_, None) => Halt 2
           end
       end.

(** An argument with one dash, without it: flags, and the rest as value after the letter
    of an option. *)
Fixpoint short_args (g : given) (flags : string) : step :=
  match flags with
  | "" => Next g
  | String c rest =>
      if Ascii.eqb c "n" then match take_ready g with Some g' => short_args g' rest | None => Halt 2 end
      else if Ascii.eqb c "h" then Halt 0
      else match lettered c with
           | Some o =>
               match rest with
               | "" => Wait g o
               | String d value => if Ascii.eqb d "=" then took (take g o value) else took (take g o rest)
               end
           | None => Halt 2
           end
  end.

Definition default (v : option string) (d : string) : string := match v with Some v => v | None => d end.
(** harness.rs:52, 61, 70: the defaults.  A flag with [ArgAction::SetTrue] has the default
    value "false", and [contains_id] (harness.rs:95) is true of arguments that have a value
    by default: the harness takes it for given always. *)
Definition options_of (g : given) : options := {|
  o_ready := true;
  o_status := g_value g Status;
  o_output := default (g_value g Output) "test-output/harness.txt";
  o_sleep := default (g_value g Sleep) "0";
  o_code := default (g_value g Code) "0"
|}.
(** harness.rs:87-92: the other arguments are Strings; they are not used. *)
Definition finish (g : given) (others : list string) : cli :=
  if forallb utf8_valid others then Runs (options_of g) others else Stops 2.

(** The loop over the arguments.  [trailing_var_arg] (harness.rs:89): with the first
    argument that is not an option, and after two dashes alone, no option is looked for any
    more.  An argument that begins with a dash is not taken as a value. *)
Fixpoint read (waiting : option opt) (g : given) (args : list string) : cli :=
  match args with
  | [] => match waiting with Some _ => Stops 2 | None => finish g [] end
  | a :: rest =>
      match waiting, CliModel.form_of a with
      | Some o, CliModel.Word => match take g o a with Some g' => read None g' rest | None => Stops 2 end
      | Some _, _ => Stops 2
      | None, CliModel.Word => finish g args
      | None, CliModel.Long name =>
          if String.eqb name "" then finish g rest
          else match long_arg g name with Next g' => read None g' rest | Wait g' o => read (Some o) g' rest | Halt code => Stops code end
      | None, CliModel.Short flags =>
          match short_args g flags with Next g' => read None g' rest | Wait g' o => read (Some o) g' rest | Halt code => Stops code end
      end
  end.

(** src/programs/harness.rs:43-93; without the name of the program. *)
Definition nothing : given := {| g_value := fun _ => None; g_ready := false |}.
Definition parse (args : list string) : cli := read None nothing args.

(** src/programs/harness.rs:43-140.  Signals that arrive while clap reads are taken to
    arrive after it. *)
Definition main (args : list string) (l : luck) : list act * ending :=
  match parse args with
  | Stops code => ([], Ends code)
  | Runs o _ => harness o l
  end.
