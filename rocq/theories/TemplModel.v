(** Model of the templates in environment variables and arguments: the part of tera 1.20.0
    (Cargo.lock:1343-1346) the manual describes (doc/README.md:88-89, 172-176), and what
    src/analyse/process_builder.rs logs while it builds a program. *)
From stdpp Require Import gmap strings.
From Coq Require Import Ascii ZArith List Bool.
From Verif Require Import Base RStr ConfigModel ProcessModel EnvModel LogModel.
Import ListNotations.
Local Open Scope string_scope.
Local Open Scope list_scope.

(** ** The template language *)
(** Tera itself is not part of /repo and its sources are not available here.  This is its
    documented behaviour for text and for [{{ NAME }}] with a NAME in capitals, and its
    refusal of an expression that is not closed.  Everything else ([{%], [{#], other
    expressions) is [Other]: nothing is said about it. *)
Inductive piece := Text (a : ascii) | Value (name : string).
Inductive parsed := Pieces (l : list piece) | Bad | Other.

Definition capital (a : ascii) : bool := let b := byte a in ((65 <=? b) && (b <=? 90) || (b =? 95))%Z.
Definition name_char (a : ascii) : bool := let b := byte a in capital a || ((48 <=? b) && (b <=? 57))%Z.
Definition blank (a : ascii) : bool := let b := byte a in ((b =? 32) || (b =? 9) || (b =? 10) || (b =? 13))%Z.
(** Quotes start a string, in which braces mean nothing. *)
Definition quote (a : ascii) : bool := let b := byte a in ((b =? 34) || (b =? 39) || (b =? 96))%Z.

Definition add (p : piece) (r : parsed) : parsed :=
  match r with Pieces l => Pieces (p :: l) | r => r end.

(** Where the parser is: in text, behind [{{], in a name, behind a name, or in an
    expression of another kind. *)
Inductive mode := InText | Opened | Named (n : string) | Closing (n : string) | Beyond.

Fixpoint parse (m : mode) (t : string) : parsed :=
  match m, t with
  | InText, EmptyString => Pieces []
  | InText, String "{" (String "{" r) => parse Opened r
  | InText, String "{" (String "%" _) => Other
  | InText, String "{" (String "#" _) => Other
  | InText, String a r => add (Text a) (parse InText r)
  | _, EmptyString => Bad
  | Named n, String "}" (String "}" r) => add (Value n) (parse InText r)
  | Closing n, String "}" (String "}" r) => add (Value n) (parse InText r)
  | _, String "}" (String "}" r) => Other
  | _, String "}" _ => Bad
  | _, String "{" _ => Bad
  | Opened, String a r =>
      if blank a then parse Opened r else if capital a then parse (Named (String a "")) r
      else if quote a then Other else parse Beyond r
  | Named n, String a r =>
      if name_char a then parse (Named (n +:+ String a "")) r else if blank a then parse (Closing n) r
      else if quote a then Other else parse Beyond r
  | Closing n, String a r =>
      if blank a then parse (Closing n) r else if quote a then Other else parse Beyond r
  | Beyond, String a r => if quote a then Other else parse Beyond r
  end.

(** Values in templates with these names are escaped (tera's autoescape). *)
Fixpoint ends_with (suffix s : string) : bool :=
  String.eqb suffix s || match s with EmptyString => false | String _ r => ends_with suffix r end.
Definition escapes (name : string) : bool :=
  ends_with ".html" name || ends_with ".htm" name || ends_with ".xml" name.
Fixpoint escape_html (s : string) : string :=
  match s with
  | EmptyString => ""
  | String "&" r => "&amp;" +:+ escape_html r
  | String "<" r => "&lt;" +:+ escape_html r
  | String ">" r => "&gt;" +:+ escape_html r
  | String """" r => "&quot;" +:+ escape_html r
  | String "'" r => "&#x27;" +:+ escape_html r
  | String "/" r => "&#x2F;" +:+ escape_html r
  | String a r => String a (escape_html r)
  end.

(** [None] if a variable is not defined. *)
Fixpoint fill (name : string) (env : gmap string string) (l : list piece) : option string :=
  match l with
  | [] => Some ""
  | Text a :: r => match fill name env r with Some x => Some (String a x) | None => None end
  | Value n :: r =>
      match env !! n, fill name env r with
      | Some v, Some x => Some ((if escapes name then escape_html v else v) +:+ x)
      | _, _ => None
      end
  end.

(** src/analyse/process_builder.rs:341-353: the result of render_template, [None] if
    nothing is said about it, [Some None] for an error. *)
Definition tera (name : string) (env : gmap string string) (t : string) : option (option string) :=
  match parse InText t with
  | Pieces l => Some (fill name env l)
  | Bad => Some None
  | Other => None
  end.

(** A world whose template engine is tera. *)
Definition with_tera (w : world) : Prop :=
  forall name env t r, tera name env t = Some r -> w_render w name env t = r.

(** ** The messages *)
(** A message with its level. *)
Definition message := (level * string)%type.

(** src/analyse/process_builder.rs:389-391 *)
Definition looks_like_tera_template (v : string) : bool := contains "{" v || contains "}" v.

(** Each of these is given to warn! and to trace!. *)
Definition twice (m : string) : list message := [(LWarn, m); (LTrace, m)].

(** src/analyse/process_builder.rs:284-326, the messages for one entry.  [err] stands for
    render_tera_error (process_builder.rs:394-403), the text of tera's error. *)
Definition entry_says (err : string -> string) (w : world) (env : gmap string string) (entry : string * option string)
  : list message :=
  match entry with
  | (key, None) => []
  | (key, Some raw) =>
      match w_render w key env raw with
      | None => twice ("Templating of environment variable " +:+ key +:+ " failed. cinit will use raw value" +:+ String LF (err raw))
      | Some v => if looks_like_tera_template v
                  then twice ("Environment variable " +:+ key +:+ " looks like a tera template but has value '" +:+ v +:+ "' after instantiation. cinit will use raw value")
                  else []
      end
  end.
Fixpoint entries_say (err : string -> string) (w : world) (env : gmap string string) (es : list (string * option string))
  : list message :=
  match es with
  | [] => []
  | e :: r => entry_says err w env e ++ entries_say err w (copy_entry w env e) r
  end.

(** src/analyse/process_builder.rs:359-386 *)
Definition argument_says (err : string -> string) (w : world) (env : gmap string string) (i : nat) (raw : string) : list message :=
  match w_render w ("Argument " +:+ show_Z (Z.of_nat i)) env raw with
  | None => twice ("Templating of argument " +:+ show_Z (Z.of_nat i) +:+ " failed. cinit will use raw value" +:+ String LF (err raw))
  | Some v => if looks_like_tera_template v
              then twice ("Argument " +:+ show_Z (Z.of_nat i) +:+ " looks like a tera template but has value '" +:+ v +:+ "' after instantiation. cinit will use raw value")
              else []
  end.

(** src/analyse/process_builder.rs:157-165.  The iterator treats one argument after the
    other: the messages of the arguments behind one with a NUL byte are never given. *)
Fixpoint arguments_say (err : string -> string) (w : world) (env : gmap string string) (i : nat) (args : list string)
  : list message * outcome (list string) :=
  match args with
  | [] => ([], Ret [])
  | x :: r =>
      let said := argument_says err w env i x in
      match cstring "Could not unwrap arg" (match w_render w ("Argument " +:+ show_Z (Z.of_nat i)) env x with Some v => v | None => x end) with
      | Panic m => (said, Panic m)
      | Ret a =>
          let (more, rest) := arguments_say err w env (S i) r in
          (said ++ more, match rest with Ret l => Ret (a :: l) | Panic m => Panic m end)
      end
  end.

(** src/analyse/process_builder.rs:110-120 *)
Definition notify_says (w : world) (c : proc_config) (u : user) : list message :=
  match pc_type c with
  | Notify =>
      match convert_env w (pc_env c) u !! "NOTIFY_SOCKET" with
      | Some _ => [(LWarn, "program '" +:+ pc_name c +:+ "' must not have NOTIFY_SOCKET because it's type notify");
                   (LWarn, "The value from the configuration file is ignored")]
      | None => []
      end
  | _ => []
  end.

(** src/analyse/process_builder.rs:100-170 *)
Definition build (err : string -> string) (w : world) (c : proc_config) : list message * outcome (result process build_error) :=
  if is_cronjob (pc_type c) && negb (is_nil (pc_before c)) then ([], Ret (Err CronjobDependency))
  else match map_id (pc_uid c) (pc_user c) (w_uid w) (w_user w) with
  | Err e => ([], Ret (Err e))
  | Ok u =>
      match map_id (pc_gid c) (pc_group c) (w_gid w) (w_group w) with
      | Err e => ([], Ret (Err e))
      | Ok g =>
          let env := program_env w c u in
          let said := entries_say err w (sanitise_env (get_default_env w) u) (concat (pc_env c)) ++ notify_says w c u in
          match pc_path c with
          | None => (said, Ret (Err PathMissing))
          | Some path =>
              match flatten_to_strings w env with
              | Panic m => (said, Panic m)
              | Ret env_strings =>
                  match cstring "Could not transform path" path with
                  | Panic m => (said, Panic m)
                  | Ret arg0 =>
                      let (more, args) := arguments_say err w env 0 (pc_args c) in
                      (said ++ more, let! args := args in
                       Ret (Ok {|
                         p_name := pc_name c;
                         p_path := path;
                         p_args := arg0 :: args;
                         p_workdir := match pc_workdir c with None => "." | Some d => d end;
                         p_uid := u_uid u;
                         p_gid := g_gid g;
                         p_pty := pc_pty c;
                         p_caps := pc_caps c;
                         p_env := env_strings;
                         p_state := match pc_type c with CronJob _ => Sleeping | _ => Blocked end;
                         p_type := match pc_type c with Oneshot => ROneshot | Notify => RNotify | CronJob _ => RCronjob end;
                         p_pid := 0%Z;
                         p_status := "" |}))
                  end
              end
          end
      end
  end.
