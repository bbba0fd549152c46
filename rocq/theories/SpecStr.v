(** Specification vocabulary for texts, independent of the model's string
    functions. *)
From Coq Require Import String Ascii ZArith List.
Import ListNotations.
Local Open Scope string_scope.

(** The characters of a string. *)
Fixpoint chars (s : string) : list ascii :=
  match s with EmptyString => [] | String a r => a :: chars r end.

(** The text contains / does not contain a character. *)
Definition free_of (c : ascii) (s : string) : Prop := ~ In c (chars s).

(** Pieces joined by a separator. *)
Fixpoint join (sep : string) (l : list string) : string :=
  match l with
  | [] => ""
  | [x] => x
  | x :: r => x ++ sep ++ join sep r
  end.

(** Decimal digit and its value, by enumeration. *)
Definition digit_of (a : ascii) : option Z :=
  match a with
  | "0" => Some 0 | "1" => Some 1 | "2" => Some 2 | "3" => Some 3 | "4" => Some 4
  | "5" => Some 5 | "6" => Some 6 | "7" => Some 7 | "8" => Some 8 | "9" => Some 9
  | _ => None
  end%char%Z.

(** A numeral is a non-empty string of digits; its positional value. *)
Definition numeral (s : string) : Prop :=
  s <> "" /\ forall a, In a (chars s) -> digit_of a <> None.

Fixpoint value (s : string) : Z :=
  match s with
  | EmptyString => 0
  | String a r =>
      match digit_of a with
      | Some d => d * 10 ^ Z.of_nat (String.length r) + value r
      | None => 0
      end
  end%Z.
