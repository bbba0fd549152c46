(** Model of how a configuration is read from a YAML document: src/config/mod.rs:58-130
    and 219-225, i.e. the attributes of serde_derive, with the conversions of serde_yaml
    0.9 (Cargo.lock:1246).  The syntax (text to tree) is not modelled, nor are tags;
    aliases stand for the tree they refer to.  Errors are [None]. *)
From Coq Require Import String Ascii ZArith List Bool.
From Verif Require Import Base RStr ConfigModel.
Import ListNotations.
Local Open Scope string_scope.
Local Open Scope list_scope.

(** A scalar is plain or quoted (any of the other styles). *)
Inductive style := Plain | Quoted.
Inductive yaml :=
| YScalar (st : style) (text : string)
| YSeq (l : list yaml)
| YMap (l : list (yaml * yaml)).

(** What is left open about the libraries: whether a missing value counts as an empty
    list or mapping, what is made of a list where a mapping is expected, and the order
    in which a HashMap is iterated. *)
Record library := {
  l_empty : bool;
  l_program : list yaml -> option proc_config;
  l_config : list yaml -> option (list proc_config);
  l_timer : list yaml -> option string;
  l_order : env_map -> env_map
}.

(** * Conversions of serde_yaml *)
(** String: the text of any scalar *)
Definition decode_string (y : yaml) : option string := match y with YScalar _ t => Some t | _ => None end.
Definition null_text (t : string) : bool :=
  String.eqb t "" || String.eqb t "null" || String.eqb t "Null" || String.eqb t "NULL" || String.eqb t "~".
Definition is_null (y : yaml) : bool := match y with YScalar Plain t => null_text t | _ => false end.
(** Option *)
Definition decode_option {A} (d : yaml -> option A) (y : yaml) : option (option A) :=
  if is_null y then Some None else match d y with Some x => Some (Some x) | None => None end.
(** bool *)
Definition decode_bool (y : yaml) : option bool :=
  match y with
  | YScalar Plain t =>
      if String.eqb t "true" || String.eqb t "True" || String.eqb t "TRUE" then Some true
      else if String.eqb t "false" || String.eqb t "False" || String.eqb t "FALSE" then Some false
      else None
  | _ => None
  end.

(** u64::from_str_radix without sign; letters of either case *)
Definition digit_value (a : ascii) : option Z :=
  (let n := Z.of_nat (nat_of_ascii a) in
   if (48 <=? n) && (n <=? 57) then Some (n - 48)
   else if (97 <=? n) && (n <=? 102) then Some (n - 87)
   else if (65 <=? n) && (n <=? 70) then Some (n - 55)
   else None)%Z.
Fixpoint radix_digits (radix : Z) (s : string) (acc : Z) : option Z :=
  match s with
  | EmptyString => Some acc
  | String a r =>
      match digit_value a with
      | Some d => if d <? radix then radix_digits radix r (acc * radix + d) else None
      | None => None
      end
  end%Z.
Definition U64_MAX : Z := 18446744073709551615.
Definition from_radix (radix : Z) (s : string) : option Z :=
  if String.eqb s "" then None
  else match radix_digits radix s 0 with Some n => if (n <=? U64_MAX)%Z then Some n else None | None => None end.
Definition signed (s : string) : bool := match s with String a _ => Ascii.eqb a "+" || Ascii.eqb a "-" | _ => false end.
(** A leading zero followed by digits only makes a text, not a number *)
Fixpoint all_digits (s : string) : bool :=
  match s with EmptyString => true | String a r => (let n := nat_of_ascii a in (Nat.leb 48 n && Nat.leb n 57)) && all_digits r end.
Definition strip_sign (s : string) : string := match s with String a r => if Ascii.eqb a "+" || Ascii.eqb a "-" then r else s | _ => s end.
Definition octal_like (s : string) : bool :=
  match strip_sign s with
  | String a (String b r) => Ascii.eqb a "0" && all_digits (String b r)
  | _ => false
  end.
Definition parse_unsigned (s : string) : option Z :=
  let u := match s with String a r => if Ascii.eqb a "+" then r else s | _ => s end in
  let prefixed :=
    match u with
    | String a (String b r) =>
        if Ascii.eqb a "0" then
          if Ascii.eqb b "x" then Some (16%Z, r) else if Ascii.eqb b "o" then Some (8%Z, r) else if Ascii.eqb b "b" then Some (2%Z, r) else None
        else None
    | _ => None
    end in
  let decimal := if signed u then None else if octal_like s then None else from_radix 10 u in
  match prefixed with
  | Some (radix, r) => if signed r then None else match from_radix radix r with Some n => Some n | None => decimal end
  | None => decimal
  end.
(** u32 *)
Definition decode_u32 (y : yaml) : option Z :=
  match y with
  | YScalar Plain t => match parse_unsigned t with Some n => if (n <=? U32_MAX)%Z then Some n else None | None => None end
  | _ => None
  end.

Fixpoint traverse {A B} (f : A -> option B) (l : list A) : option (list B) :=
  match l with
  | [] => Some []
  | x :: r => match f x, traverse f r with Some y, Some ys => Some (y :: ys) | _, _ => None end
  end.
Definition missing (lib : library) (y : yaml) : bool :=
  match y with YScalar Plain t => l_empty lib && String.eqb t "" | _ => false end.
(** Vec *)
Definition decode_seq {A} (lib : library) (d : yaml -> option A) (y : yaml) : option (list A) :=
  match y with
  | YSeq l => traverse d l
  | _ => if missing lib y then Some [] else None
  end.

(** HashMap<String, Option<String>>: a later entry for a key replaces an earlier one *)
Fixpoint map_insert (k : string) (v : option string) (m : env_map) : env_map :=
  match m with
  | [] => [(k, v)]
  | (k', v') :: r => if String.eqb k k' then (k, v) :: r else (k', v') :: map_insert k v r
  end.
Fixpoint collect (l : list (yaml * yaml)) (m : env_map) : option env_map :=
  match l with
  | [] => Some m
  | (k, v) :: r =>
      match decode_string k, decode_option decode_string v with
      | Some k, Some v => collect r (map_insert k v m)
      | _, _ => None
      end
  end.
Definition decode_env (lib : library) (y : yaml) : option env_map :=
  match y with
  | YMap l => option_map (l_order lib) (collect l [])
  | _ => if missing lib y then Some [] else None
  end.

(** * Structures of src/config/mod.rs *)
(** Fields as serde_derive sees them: src/config/mod.rs:91-129 with the renamed ones. *)
Definition known : list string :=
  ["name"; "path"; "args"; "workdir"; "type"; "uid"; "gid"; "user"; "group"; "before"; "after"; "pty"; "capabilities"; "env"].
Definition is_known (names : list string) (k : string) : bool := existsb (String.eqb k) names.

(** The visitor of a structure: entries with an unknown key are skipped, a key that is
    not a scalar or a second value for a field is an error.  (serde converts each value
    when it is met; all errors being alike, this can be done afterwards.) *)
Fixpoint gather (names : list string) (l : list (yaml * yaml)) (seen : list (string * yaml)) : option (list (string * yaml)) :=
  match l with
  | [] => Some seen
  | (k, v) :: r =>
      match decode_string k with
      | None => None
      | Some k =>
          if is_known names k then
            if existsb (fun e => String.eqb k (fst e)) seen then None else gather names r ((k, v) :: seen)
          else gather names r seen
      end
  end.
Fixpoint find_key (k : string) (l : list (string * yaml)) : option yaml :=
  match l with
  | [] => None
  | (k', v) :: r => if String.eqb k k' then Some v else find_key k r
  end.
(** A field without a default, and one with *)
Definition required {A} (f : list (string * yaml)) (k : string) (d : yaml -> option A) : option A :=
  match find_key k f with Some v => d v | None => None end.
Definition defaulted {A} (f : list (string * yaml)) (k : string) (d : yaml -> option A) (x : A) : option A :=
  match find_key k f with Some v => d v | None => Some x end.

(** src/config/mod.rs:61-75 read through serde_yaml::with::singleton_map: a variant is a
    name or a mapping with one key.  A variant without content takes null. *)
Definition decode_timer (lib : library) (y : yaml) : option string :=
  match y with
  | YMap l => match gather ["timer"] l [] with Some f => required f "timer" decode_string | None => None end
  | YSeq l => l_timer lib l
  | _ => None
  end.
Definition decode_type (lib : library) (y : yaml) : option process_type :=
  match y with
  | YScalar _ t => if String.eqb t "oneshot" then Some Oneshot else if String.eqb t "notify" then Some Notify else None
  | YMap [(YScalar _ t, v)] =>
      if String.eqb t "oneshot" then if is_null v then Some Oneshot else None
      else if String.eqb t "notify" then if is_null v then Some Notify else None
      else if String.eqb t "cronjob" then option_map CronJob (decode_timer lib v)
      else None
  | _ => None
  end.

Notation "'let?' x ':=' e 'in' k" := (match e with Some x => k | None => None end)
  (at level 200, x name, e at level 200, k at level 200, right associativity).

(** src/config/mod.rs:90-129; a missing Option is None *)
Definition program_of (lib : library) (f : list (string * yaml)) : option proc_config :=
  let? name := required f "name" decode_string in
  let? path := defaulted f "path" (decode_option decode_string) None in
  let? args := defaulted f "args" (decode_seq lib decode_string) [] in
  let? workdir := defaulted f "workdir" (decode_option decode_string) None in
  let? type := defaulted f "type" (decode_type lib) Oneshot in
  let? uid := defaulted f "uid" (decode_option decode_u32) None in
  let? gid := defaulted f "gid" (decode_option decode_u32) None in
  let? user := defaulted f "user" (decode_option decode_string) None in
  let? group := defaulted f "group" (decode_option decode_string) None in
  let? before := defaulted f "before" (decode_seq lib decode_string) [] in
  let? after := defaulted f "after" (decode_seq lib decode_string) [] in
  let? pty := defaulted f "pty" decode_bool false in
  let? caps := defaulted f "capabilities" (decode_seq lib decode_string) [] in
  let? env := defaulted f "env" (decode_seq lib (decode_env lib)) [] in
  Some {| pc_name := name; pc_path := path; pc_args := args; pc_workdir := workdir; pc_type := type; pc_uid := uid; pc_gid := gid;
          pc_user := user; pc_group := group; pc_before := before; pc_after := after; pc_pty := pty; pc_caps := caps; pc_env := env |}.
Definition decode_program (lib : library) (y : yaml) : option proc_config :=
  match y with
  | YMap l => match gather known l [] with Some f => program_of lib f | None => None end
  | YSeq l => l_program lib l
  | _ => None
  end.

(** src/config/mod.rs:222-225; what is not a mapping lacks the field *)
Definition decode_config (lib : library) (y : yaml) : option (list proc_config) :=
  match y with
  | YMap l => match gather ["programs"] l [] with Some f => required f "programs" (decode_seq lib (decode_program lib)) | None => None end
  | YSeq l => l_config lib l
  | _ => None
  end.

(** src/config/config_parser.rs:104: serde_yaml::from_str, given the syntax *)
Definition read_yaml (lib : library) (syntax : string -> option yaml) (s : string) : option (list proc_config) :=
  match syntax s with Some y => decode_config lib y | None => None end.
