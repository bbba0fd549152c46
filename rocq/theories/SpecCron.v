(** What a cron expression means, independently of the parser. *)
From Coq Require Import String Ascii ZArith List Sorted.
From Verif Require Import SpecStr.
Import ListNotations.
Local Open Scope string_scope.
Local Open Scope Z_scope.

(** * Syntax
    The documented syntax is: a field is a comma list of items, an item is [*],
    a number or a range [a-b], optionally followed by a step [/s].  The code also
    tolerates a plus sign before a number and ignores further ['-...'] parts of a
    range and further ['/...'] parts of a step; these are the [bool] and
    [option string] components below, [strict] forbids them. *)
Record num := { n_plus : bool; n_digits : string }.
Inductive bounds :=
| BAll
| BOne (n : num)
| BRange (a b : num) (junk : option string).
Record item := { i_bounds : bounds; i_step : option (num * option string) }.

Definition num_text (n : num) : string := (if n_plus n then "+" else "") ++ n_digits n.
Definition num_val (n : num) : Z := value (n_digits n).
Definition tail_text (c : string) (junk : option string) : string :=
  match junk with None => "" | Some j => c ++ j end.
Definition bounds_text (b : bounds) : string :=
  match b with
  | BAll => "*"
  | BOne n => num_text n
  | BRange a b junk => num_text a ++ "-" ++ num_text b ++ tail_text "-" junk
  end.
Definition step_text (s : option (num * option string)) : string :=
  match s with None => "" | Some (n, junk) => "/" ++ num_text n ++ tail_text "/" junk end.
Definition item_text (i : item) : string := bounds_text (i_bounds i) ++ step_text (i_step i).
Definition field_text (l : list item) : string := join "," (map item_text l).

Definition junk_ok (forbidden : list ascii) (junk : option string) : Prop :=
  match junk with None => True | Some j => forall c, In c forbidden -> free_of c j end.
Definition num_wf (n : num) : Prop := numeral (n_digits n).
Definition item_wf (i : item) : Prop :=
  (match i_bounds i with
   | BAll => True
   | BOne n => num_wf n
   | BRange a b junk => num_wf a /\ num_wf b /\ junk_ok ["/"; ","]%char junk
   end) /\
  (match i_step i with
   | None => True
   | Some (n, junk) => num_wf n /\ junk_ok [","]%char junk
   end).

(** The documented syntax only. *)
Definition strict (i : item) : Prop :=
  (match i_bounds i with
   | BAll => True
   | BOne n => n_plus n = false
   | BRange a b junk => n_plus a = false /\ n_plus b = false /\ junk = None
   end) /\
  (match i_step i with
   | None => True
   | Some (n, junk) => n_plus n = false /\ junk = None
   end).

(** * Meaning *)
Definition item_lo (min : Z) (i : item) : Z :=
  match i_bounds i with BAll => min | BOne n => num_val n | BRange a _ _ => num_val a end.
Definition item_hi (max : Z) (i : item) : Z :=
  match i_bounds i with BAll => max | BOne n => num_val n | BRange _ b _ => num_val b end.
Definition item_stride (i : item) : Z :=
  match i_step i with None => 1 | Some (n, _) => num_val n end.

(** All numbers in the field's range and ordered; the stride is a 32 bit number. *)
Definition item_valid (min max : Z) (i : item) : Prop :=
  min <= item_lo min i /\ item_lo min i <= item_hi max i /\ item_hi max i <= max /\
  item_stride i <= 4294967295.

(** lo, lo+s, lo+2s, ... up to hi *)
Definition item_denotes (min max : Z) (i : item) (x : Z) : Prop :=
  exists k, 0 <= k /\ x = item_lo min i + k * item_stride i /\ x <= item_hi max i.

Definition field_denotes (min max : Z) (l : list item) (x : Z) : Prop :=
  exists i, In i l /\ item_denotes min max i x.

(** A strictly increasing list, i.e. a finite set. *)
Definition increasing (l : list Z) : Prop := StronglySorted Z.lt l.

(** White space separating the five fields. *)
Definition white (a : ascii) : Prop :=
  In a ["009"; "010"; "011"; "012"; "013"; " "]%char.
Definition all_white (s : string) : Prop := forall a, In a (chars s) -> white a.
Definition no_white (s : string) : Prop := forall a, In a (chars s) -> ~ white a.

(** Texts [f1], ... separated by white space, with optional white space at both
    ends. *)
Inductive spaced : string -> list string -> Prop :=
| spaced_nil w : all_white w -> spaced w []
| spaced_last w f w' : all_white w -> no_white f -> f <> "" -> all_white w' ->
    spaced (w ++ f ++ w') [f]
| spaced_cons w f s l : all_white w -> no_white f -> f <> "" ->
    spaced s l -> (match s with String a _ => white a | EmptyString => False end) ->
    spaced (w ++ f ++ s) (f :: l).

(** A well formed, valid field: non-empty, strides positive, numbers in range. *)
Definition field_valid (min max : Z) (l : list item) : Prop :=
  l <> [] /\ forall i, In i l -> item_wf i /\ 0 < item_stride i /\ item_valid min max i.

Definition field_means (min max : Z) (l : list item) (S : list Z) : Prop :=
  increasing S /\ forall x, In x S <-> field_denotes min max l x.

(** The text contains a text. *)
Definition occurs (sub s : string) : Prop := exists a b, s = a ++ sub ++ b.
