(** What a configuration document says, after doc/README.md. *)
From Coq Require Import String Ascii ZArith List Bool Permutation.
From Verif Require Import Base ConfigModel YamlModel SpecStr.
Import ListNotations.
Local Open Scope string_scope.
Local Open Scope list_scope.

(** * Values *)
Definition text (y : yaml) (t : string) : Prop := exists st, y = YScalar st t.
Definition null (y : yaml) : Prop := exists t, y = YScalar Plain t /\ In t [""; "null"; "Null"; "NULL"; "~"].
Definition optional {A} (R : yaml -> A -> Prop) (y : yaml) (o : option A) : Prop :=
  (null y /\ o = None) \/ (~ null y /\ exists x, R y x /\ o = Some x).
Definition flag (y : yaml) (b : bool) : Prop :=
  exists t, y = YScalar Plain t /\ In t (if b then ["true"; "True"; "TRUE"] else ["false"; "False"; "FALSE"]).

(** Digits up to base 16 by enumeration, and the positional value. *)
Definition digit16 (a : ascii) : option Z :=
  match a with
  | "0" => Some 0 | "1" => Some 1 | "2" => Some 2 | "3" => Some 3 | "4" => Some 4
  | "5" => Some 5 | "6" => Some 6 | "7" => Some 7 | "8" => Some 8 | "9" => Some 9
  | "a" | "A" => Some 10 | "b" | "B" => Some 11 | "c" | "C" => Some 12
  | "d" | "D" => Some 13 | "e" | "E" => Some 14 | "f" | "F" => Some 15
  | _ => None
  end%char%Z.
Inductive based (b : Z) : string -> Z -> Prop :=
| based_nil : based b "" 0
| based_cons a r d n : digit16 a = Some d -> (d < b)%Z -> based b r n -> based b (String a r) (d * b ^ Z.of_nat (String.length r) + n)%Z.

(** Decimal without leading zeros, or with a prefix for base 16, 8, 2; plus sign allowed. *)
Definition number_text (t : string) (n : Z) : Prop :=
  exists d, (t = d \/ t = String "+" d) /\
    ((d <> "" /\ based 10 d n /\ (d = "0" \/ forall r, d <> String "0" r)) \/
     (exists p b r, In (p, b) [("x"%char, 16%Z); ("o"%char, 8%Z); ("b"%char, 2%Z)] /\ d = String "0" (String p r) /\ r <> "" /\ based b r n)).
Definition number (y : yaml) (n : Z) : Prop := exists t, y = YScalar Plain t /\ number_text t n /\ (n <= 4294967295)%Z.

Definition nothing (lib : library) (y : yaml) : Prop := l_empty lib = true /\ y = YScalar Plain "".
Definition list_of {A} (lib : library) (R : yaml -> A -> Prop) (y : yaml) (l : list A) : Prop :=
  (exists ys, y = YSeq ys /\ Forall2 R ys l) \/ (nothing lib y /\ l = []).

(** * Mappings *)
Definition entry (l : list (yaml * yaml)) (k : string) (v : yaml) : Prop := exists st, In (YScalar st k, v) l.
Definition scalar_keys (l : list (yaml * yaml)) : Prop := forall k v, In (k, v) l -> exists t, text k t.
(** No two entries for the key. *)
Definition once (l : list (yaml * yaml)) (k : string) : Prop :=
  forall l1 a v l2 b w l3, l = l1 ++ (a, v) :: l2 ++ (b, w) :: l3 -> text a k -> text b k -> False.
Definition field {A} (l : list (yaml * yaml)) (k : string) (R : yaml -> A -> Prop) (x : A) : Prop :=
  exists v, entry l k v /\ R v x.
Definition field_or {A} (l : list (yaml * yaml)) (k : string) (R : yaml -> A -> Prop) (d x : A) : Prop :=
  field l k R x \/ ((forall v, ~ entry l k v) /\ x = d).

(** Variables of one item of [env]; the last value given for a variable counts. *)
Definition variables (l : list (yaml * yaml)) (m : env_map) : Prop :=
  scalar_keys l /\ (forall k v, In (k, v) l -> exists o, optional text v o) /\ NoDup (map fst m) /\
  (forall k o, In (k, o) m <-> exists l1 st v l2, l = l1 ++ (YScalar st k, v) :: l2 /\ (forall w, ~ entry l2 k w) /\ optional text v o).
Definition item (lib : library) (y : yaml) (m : env_map) : Prop :=
  (exists l, y = YMap l /\ variables l m) \/ (nothing lib y /\ m = []).

Definition timer (lib : library) (y : yaml) (s : string) : Prop :=
  (exists l, y = YMap l /\ scalar_keys l /\ once l "timer" /\ field l "timer" text s) \/
  (exists l, y = YSeq l /\ l_timer lib l = Some s).
Definition kind (lib : library) (y : yaml) (t : process_type) : Prop :=
  (text y "oneshot" /\ t = Oneshot) \/ (text y "notify" /\ t = Notify) \/
  (exists k v, y = YMap [(k, v)] /\
     ((text k "oneshot" /\ null v /\ t = Oneshot) \/ (text k "notify" /\ null v /\ t = Notify) \/
      (text k "cronjob" /\ exists s, timer lib v s /\ t = CronJob s))).

(** The options of the manual. *)
Definition options : list string :=
  ["name"; "path"; "args"; "workdir"; "type"; "uid"; "gid"; "user"; "group"; "before"; "after"; "pty"; "capabilities"; "env"].

(** * A program *)
Record says (lib : library) (l : list (yaml * yaml)) (c : proc_config) : Prop := {
  says_keys : scalar_keys l;
  says_once : forall k, In k options -> once l k;
  says_name : field l "name" text (pc_name c);
  says_path : field_or l "path" (optional text) None (pc_path c);
  says_args : field_or l "args" (list_of lib text) [] (pc_args c);
  says_workdir : field_or l "workdir" (optional text) None (pc_workdir c);
  says_type : field_or l "type" (kind lib) Oneshot (pc_type c);
  says_uid : field_or l "uid" (optional number) None (pc_uid c);
  says_gid : field_or l "gid" (optional number) None (pc_gid c);
  says_user : field_or l "user" (optional text) None (pc_user c);
  says_group : field_or l "group" (optional text) None (pc_group c);
  says_before : field_or l "before" (list_of lib text) [] (pc_before c);
  says_after : field_or l "after" (list_of lib text) [] (pc_after c);
  says_pty : field_or l "pty" flag false (pc_pty c);
  says_caps : field_or l "capabilities" (list_of lib text) [] (pc_caps c);
  says_env : field_or l "env" (list_of lib (item lib)) [] (pc_env c)
}.

(** Equal up to the order of variables within one item of [env]. *)
Definition same_program (c c' : proc_config) : Prop :=
  pc_name c = pc_name c' /\ pc_path c = pc_path c' /\ pc_args c = pc_args c' /\ pc_workdir c = pc_workdir c' /\ pc_type c = pc_type c' /\
  pc_uid c = pc_uid c' /\ pc_gid c = pc_gid c' /\ pc_user c = pc_user c' /\ pc_group c = pc_group c' /\ pc_before c = pc_before c' /\
  pc_after c = pc_after c' /\ pc_pty c = pc_pty c' /\ pc_caps c = pc_caps c' /\ Forall2 (@Permutation _) (pc_env c) (pc_env c').

Definition any_order (lib : library) : Prop := forall m, Permutation (l_order lib m) m.
Definition a_program (lib : library) (y : yaml) (c : proc_config) : Prop :=
  (exists l, y = YMap l /\ says lib l c) \/ (exists l, y = YSeq l /\ l_program lib l = Some c).
Definition a_config (lib : library) (y : yaml) (cs : list proc_config) : Prop :=
  (exists l, y = YMap l /\ scalar_keys l /\ once l "programs" /\ field l "programs" (list_of lib (a_program lib)) cs) \/
  (exists l, y = YSeq l /\ l_config lib l = Some cs).
