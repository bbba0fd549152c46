(** Model of src/logging/: which log messages appear where and how they look.
    log4rs is a library: its routing of records to appenders and its pattern encoder
    are modelled as documented.  Messages of a panic do not pass through it. *)
From Coq Require Import String Ascii ZArith List Bool.
From Verif Require Import Base RStr.
Import ListNotations.
Local Open Scope string_scope.
Local Open Scope Z_scope.

(** log::Level; LevelFilter has the same values here ([Off] is not used) *)
Inductive level := LError | LWarn | LInfo | LDebug | LTrace.

Definition rank (l : level) : Z :=
  match l with LError => 1 | LWarn => 2 | LInfo => 3 | LDebug => 4 | LTrace => 5 end.

(** [{level}] of the pattern encoder *)
Definition level_name (l : level) : string :=
  match l with LError => "ERROR" | LWarn => "WARN" | LInfo => "INFO" | LDebug => "DEBUG" | LTrace => "TRACE" end.

(** log::Record: the time is when it is written; the target is the path of the module
    whose code logs (the default of the macros, cinit never sets another). *)
Record record := { r_time : string; r_level : level; r_target : string; r_text : string }.

Inductive console := Stdout | Stderr.
Definition console_eqb (a b : console) : bool :=
  match a, b with Stdout, Stdout | Stderr, Stderr => true | _, _ => false end.

(** ConsoleAppender with a pattern "{d(..)} {level} <label>{m}{n}" *)
Record appender := { ap_console : console; ap_label : string }.

Record logger := { lg_target : string; lg_level : level; lg_additive : bool; lg_appenders : list string }.

Record log_config := {
  lc_appenders : list (string * appender);
  lc_loggers : list logger;
  lc_root_level : level;
  lc_root_appenders : list string
}.

(** src/logging/mod.rs:49-53; the count is that of -v, src/main.rs:80 *)
Definition level_for (verbosity : Z) : level :=
  if verbosity =? 2 then LTrace else if verbosity =? 1 then LDebug else LInfo.

(** src/logging/mod.rs:30-47, 55-72 *)
Definition initialise (verbosity : Z) : log_config :=
  {| lc_appenders :=
       [("stdout", {| ap_console := Stdout; ap_label := "[cinit] " |});
        ("stderr_child", {| ap_console := Stderr; ap_label := "" |});
        ("stdout_child", {| ap_console := Stdout; ap_label := "" |})];
     lc_loggers :=
       [{| lg_target := "cinit::logging::stdout"; lg_level := LInfo; lg_additive := false; lg_appenders := ["stdout_child"] |};
        {| lg_target := "cinit::logging::stderr"; lg_level := LInfo; lg_additive := false; lg_appenders := ["stderr_child"] |}];
     lc_root_level := level_for verbosity;
     lc_root_appenders := ["stdout"] |}.

(** src/logging/stdout.rs:26-28, src/logging/stderr.rs:26-28 *)
Definition child_record (time : string) (out : bool) (name line : string) : record :=
  {| r_time := time; r_level := LInfo;
     r_target := if out then "cinit::logging::stdout" else "cinit::logging::stderr";
     r_text := "[" ++ name ++ "] " ++ line |}.

(** * log4rs *)
(** [path.split("::")] *)
Fixpoint parts (s : string) : list string :=
  match s with
  | "" => [""]
  | String a r =>
      match a, r with
      | ":"%char, String ":"%char r' => "" :: parts r'
      | _, _ => match parts r with p :: ps => String a p :: ps | [] => [String a ""] end
      end
  end.

Fixpoint parts_eqb (a b : list string) : bool :=
  match a, b with
  | [], [] => true
  | x :: a', y :: b' => String.eqb x y && parts_eqb a' b'
  | _, _ => false
  end.

Definition find_logger (loggers : list logger) (path : list string) : option logger :=
  find (fun l => parts_eqb (parts (lg_target l)) path) loggers.

(** The level and appenders in force at a path: those of the parent unless a logger is
    configured there; an additive logger also keeps the appenders of its parent. *)
Fixpoint descend (loggers : list logger) (done todo : list string) (here : level * list string) : level * list string :=
  match todo with
  | [] => here
  | p :: ps =>
      let path := (done ++ [p])%list in
      let here' := match find_logger loggers path with
                   | Some l => (lg_level l, (lg_appenders l ++ if lg_additive l then snd here else [])%list)
                   | None => here
                   end in
      descend loggers path ps here'
  end.

Definition in_force (c : log_config) (target : string) : level * list string :=
  descend (lc_loggers c) [] (parts target) (lc_root_level c, lc_root_appenders c).

Fixpoint find_appender (l : list (string * appender)) (name : string) : option appender :=
  match l with
  | [] => None
  | (n, a) :: rest => if String.eqb n name then Some a else find_appender rest name
  end.

(** Config::build rejects names of appenders that do not exist, src/logging/mod.rs:72 *)
Definition config_ok (c : log_config) : bool :=
  let known n := match find_appender (lc_appenders c) n with Some _ => true | None => false end in
  forallb known (lc_root_appenders c) && forallb (fun l => forallb known (lg_appenders l)) (lc_loggers c).

Definition render (a : appender) (r : record) : string :=
  r_time r ++ " " ++ level_name (r_level r) ++ " " ++ ap_label a ++ r_text r ++ String LF "".

(** What one record adds to a console *)
Definition appended (c : log_config) (r : record) (where_ : console) : string :=
  let (lv, names) := in_force c (r_target r) in
  if rank (r_level r) <=? rank lv then
    concat_all (map (fun n => match find_appender (lc_appenders c) n with
                              | Some a => if console_eqb (ap_console a) where_ then render a r else ""
                              | None => ""
                              end) names)
  else "".

(** src/logging/mod.rs:29-75 and everything logged afterwards *)
Definition console_text (verbosity : Z) (rs : list record) (where_ : console) : outcome string :=
  let c := initialise verbosity in
  if config_ok c then Ret (concat_all (map (fun r => appended c r where_) rs)) else Panic "Could not configure logging".
