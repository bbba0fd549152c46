(** Which file is executed for a program. *)
From stdpp Require Import strings.
From Coq Require Import String List.
From Verif Require Import ProcessModel ChildModel SearchModel.
Import ListNotations.
Local Open Scope string_scope.
Local Open Scope list_scope.

Definition within (x : string) (s : string) : Prop := exists a b, s = a +:+ x +:+ b.

(** [l] are the parts of [s] between colons. *)
Definition parts (s : string) (l : list string) : Prop := l <> [] /\ String.concat ":" l = s /\ forall x, In x l -> ~ within ":" x.

(** The names under which the file is tried, in order: its path if it contains a slash,
    otherwise its name in each directory of [search_path]; an empty directory is the
    working directory. *)
Definition in_directory (d name : string) : string := if String.eqb d "" then name else d +:+ "/" +:+ name.
Definition tried (search_path path : string) (l : list string) : Prop :=
  path <> "" /\
  (within "/" path /\ l = [path] \/
   ~ within "/" path /\ String.length path <= 255 /\ exists dirs, parts search_path dirs /\ l = map (fun d => in_directory d path) dirs).

(** cinit's PATH. *)
Definition search_path (path : option string) : string := match path with Some s => s | None => "/bin:/usr/bin" end.

(** A name under which there is nothing or nothing that may be executed; a file of
    unknown format counts as its shell. *)
Definition as_shell (fs : files) (dir file : string) : option errno :=
  match fs dir file with Some NoFormat => fs dir "/bin/sh" | r => r end.
Definition passed_over (fs : files) (dir file : string) : Prop :=
  as_shell fs dir file = Some NotThere \/ as_shell fs dir file = Some Denied.

(** Executing [file] with arguments [args] runs [what] with arguments [args']. *)
Inductive runs (fs : files) (dir file : string) (args : list string) : string -> list string -> Prop :=
| RunsItself : fs dir file = None -> runs fs dir file args file args
| RunsByShell : fs dir file = Some NoFormat -> fs dir "/bin/sh" = None -> runs fs dir file args "/bin/sh" ("/bin/sh" :: file :: tl args).

(** The file for the program is found and is [what]. *)
Definition file_of (fs : files) (path : option string) (p : process) (what : string) (args : list string) : Prop :=
  exists l1 file l2, tried (search_path path) (p_path p) (l1 ++ file :: l2) /\
    (forall x, In x l1 -> passed_over fs (p_workdir p) x) /\ runs fs (p_workdir p) file (p_args p) what args.

(** The machine agrees with the files. *)
Definition sees (h : host) (fs : files) (path : option string) (p : process) : Prop :=
  h_exec h (p_path p) = true <-> exists r, exec_child fs path p = inl r.
