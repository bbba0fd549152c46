(** The dump of the harness, line by line. *)
From stdpp Require Import gmap strings.
From Coq Require Import Ascii ZArith List Bool Permutation.
From Verif Require Import Base RStr SpecStr SpecRun SpecChild HarnessModel.
Import ListNotations.
Local Open Scope string_scope.
Local Open Scope list_scope.
Local Open Scope Z_scope.

(** An environment string that is a variable.  The first character belongs to the name. *)
Definition is_variable (entry k v : string) : Prop :=
  entry = k +:+ "=" +:+ v /\ exists a r, k = String a r /\ free_of "=" r.
(** The variables among the strings of an environment, in order. *)
Inductive variables : list string -> list (string * string) -> Prop :=
| vs_nil : variables [] []
| vs_one e k v l vs : is_variable e k v -> variables l vs -> variables (e :: l) ((k, v) :: vs)
| vs_skip e l vs : (forall k v, ~ is_variable e k v) -> variables l vs -> variables (e :: l) vs.

(** The capability [x] is in at least one set; the letters tell in which. *)
Definition held (s : self) (x : Z) : Prop := x ∈ se_eff s \/ x ∈ se_prm s \/ x ∈ se_inh s \/ x ∈ se_amb s.
Inductive in_sets (s : self) (x : Z) : string -> Prop :=
| is_sets e p i a : (e = "e" /\ x ∈ se_eff s \/ e = "" /\ x ∉ se_eff s) -> (p = "p" /\ x ∈ se_prm s \/ p = "" /\ x ∉ se_prm s) ->
    (i = "i" /\ x ∈ se_inh s \/ i = "" /\ x ∉ se_inh s) -> (a = "a" /\ x ∈ se_amb s \/ a = "" /\ x ∉ se_amb s) ->
    in_sets s x (e +:+ p +:+ i +:+ a).
Definition cap_line (s : self) (line : string) : Prop :=
  exists name x sets, In (name, x) linux_caps /\ held s x /\ in_sets s x sets /\ line = "      " +:+ name +:+ ": " +:+ sets.

(** The lines about capabilities: one for each that is held, in any order. *)
Definition cap_block (s : self) (block : list string) : Prop :=
  (block = ["    capabilities: {}"] /\ forall name x, In (name, x) linux_caps -> ~ held s x) \/
  (exists l, block = "    capabilities:" :: l /\ l <> [] /\ List.NoDup l /\ forall line, In line l <-> cap_line s line).

(** The whole file. *)
Definition page (s : self) (text : string) : Prop :=
  exists block vs, cap_block s block /\ variables (se_env s) vs /\
  text = unlines (
    ["programs:"; "  - args:"] ++ map (fun a => "      - '" +:+ a +:+ "'") (se_args s) ++
    ["    workdir: '" +:+ se_dir s +:+ "'"; "    uid: " +:+ show_Z (se_uid s); "    gid: " +:+ show_Z (se_gid s); "    groups:"] ++
    map (fun g => "      - " +:+ show_Z g) (se_groups s) ++
    ["    pty: " +:+ (if se_tty s then "true" else "false")] ++ block ++
    ["    env:"] ++ map (fun x => "      " +:+ fst x +:+ ": '" +:+ snd x +:+ "'") vs ++ [""]).

(** Everything that is written is UTF-8. *)
Definition readable (s : self) : Prop :=
  (forall a, In a (se_args s) -> utf8_valid a = true) /\ utf8_valid (se_dir s) = true /\
  (forall e k v, In e (se_env s) -> is_variable e k v -> utf8_valid k = true /\ utf8_valid v = true).

(** Nothing that is written contains a quote or a line feed. *)
Definition tame (t : string) : Prop := free_of "'" t /\ free_of "010" t.
Definition tame_self (s : self) : Prop :=
  (forall a, In a (se_args s) -> tame a) /\ tame (se_dir s) /\
  (forall e k v, In e (se_env s) -> is_variable e k v -> tame k /\ tame v).

(** Two processes that cannot be told apart. *)
Definition alike (s s' : self) : Prop :=
  se_args s = se_args s' /\ se_dir s = se_dir s' /\ se_uid s = se_uid s' /\ se_gid s = se_gid s' /\ se_groups s = se_groups s' /\ se_tty s = se_tty s' /\
  (forall name x, In (name, x) linux_caps ->
     (x ∈ se_eff s <-> x ∈ se_eff s') /\ (x ∈ se_prm s <-> x ∈ se_prm s') /\ (x ∈ se_inh s <-> x ∈ se_inh s') /\ (x ∈ se_amb s <-> x ∈ se_amb s')) /\
  forall vs, variables (se_env s) vs <-> variables (se_env s') vs.

(** The file of a program that stops at something that is not UTF-8: all lines before it. *)
Inductive broken (s : self) : string -> Prop :=
| br_arg before a after : se_args s = before ++ a :: after -> (forall x, In x before -> utf8_valid x = true) -> utf8_valid a = false ->
    broken s (unlines (["programs:"; "  - args:"] ++ map (fun a => "      - '" +:+ a +:+ "'") before))
| br_dir : (forall a, In a (se_args s) -> utf8_valid a = true) -> utf8_valid (se_dir s) = false ->
    broken s (unlines (["programs:"; "  - args:"] ++ map (fun a => "      - '" +:+ a +:+ "'") (se_args s)))
| br_env block vs before k v after : (forall a, In a (se_args s) -> utf8_valid a = true) -> utf8_valid (se_dir s) = true ->
    cap_block s block -> variables (se_env s) vs -> vs = before ++ (k, v) :: after ->
    (forall x y, In (x, y) before -> utf8_valid x = true /\ utf8_valid y = true) -> ~ (utf8_valid k = true /\ utf8_valid v = true) ->
    broken s (unlines (
      ["programs:"; "  - args:"] ++ map (fun a => "      - '" +:+ a +:+ "'") (se_args s) ++
      ["    workdir: '" +:+ se_dir s +:+ "'"; "    uid: " +:+ show_Z (se_uid s); "    gid: " +:+ show_Z (se_gid s); "    groups:"] ++
      map (fun g => "      - " +:+ show_Z g) (se_groups s) ++
      ["    pty: " +:+ (if se_tty s then "true" else "false")] ++ block ++
      ["    env:"] ++ map (fun x => "      " +:+ fst x +:+ ": '" +:+ snd x +:+ "'") before)).
