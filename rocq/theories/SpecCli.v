(** What a command line says. *)
From Coq Require Import String Ascii ZArith List.
From Verif Require Import RStr.
Import ListNotations.
Local Open Scope string_scope.
Local Open Scope list_scope.
Local Open Scope Z_scope.

Inductive item := Verbose | Config (path : string).

(** [n] times the letter v. *)
Fixpoint vs (n : nat) : string := match n with O => "" | S n => String "v" (vs n) end.

(** A text that is not taken for an option. *)
Definition plain (v : string) : Prop := v = "-" \/ forall w, v <> ("-" ++ w)%string.

(** Arguments that say [items]. *)
Inductive says : list string -> list item -> Prop :=
| SNil : says [] []
| SVerbose rest l : says rest l -> says ("--verbose" :: rest) (Verbose :: l)
| SConfig v rest l : plain v -> says rest l -> says ("--config" :: v :: rest) (Config v :: l)
| SConfigIs v rest l : says rest l -> says (("--config=" ++ v)%string :: rest) (Config v :: l)
| SShort n rest l : says rest l -> says (("-" ++ vs (S n))%string :: rest) (repeat Verbose (S n) ++ l)
| SShortConfig n v rest l : plain v -> says rest l -> says (("-" ++ vs n ++ "c")%string :: v :: rest) (repeat Verbose n ++ Config v :: l)
| SShortIs n v rest l : says rest l -> says (("-" ++ vs n ++ "c=" ++ v)%string :: rest) (repeat Verbose n ++ Config v :: l)
| SShortWith n v rest l : v <> "" -> (forall w, v <> ("=" ++ w)%string) -> says rest l ->
    says (("-" ++ vs n ++ "c" ++ v)%string :: rest) (repeat Verbose n ++ Config v :: l).

Fixpoint paths (l : list item) : list string :=
  match l with [] => [] | Verbose :: r => paths r | Config v :: r => v :: paths r end.
Fixpoint verbosity (l : list item) : Z := match l with [] => 0 | Verbose :: r => 1 + verbosity r | Config _ :: r => verbosity r end.

(** At most one path is given, and it is UTF-8; it is [path], or the default applies. *)
Definition one_path (l : list item) (path : string) : Prop :=
  (paths l = [] /\ path = "/etc/cinit.yml") \/ (paths l = [path] /\ utf8_valid path = true).

(** The command line asks for [path] and [verbose]. *)
Definition asks_to_run (args : list string) (path : string) (verbose : Z) : Prop :=
  exists l, (says args l \/ exists a, args = a ++ ["--"] /\ says a l) /\ one_path l path /\ verbose = Z.min 255 (verbosity l).

(** An argument that asks for help or the version. *)
Definition wants_text (a : string) : Prop :=
  a = "--help" \/ a = "--version" \/ exists n more, a = ("-" ++ vs n ++ "h" ++ more)%string \/ a = ("-" ++ vs n ++ "V" ++ more)%string.
Definition asks_for_text (args : list string) : Prop :=
  exists a x rest l path, args = a ++ x :: rest /\ says a l /\ one_path l path /\ wants_text x.
