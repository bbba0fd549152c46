(** The test programs as programs of cinit. *)
From stdpp Require Import gmap strings.
From Coq Require Import ZArith List Bool.
From Verif Require Import Base ChildModel HarnessLifeModel.
Import ListNotations.
Local Open Scope string_scope.
Local Open Scope list_scope.
Local Open Scope Z_scope.

(** The harness finds the signals blocked and ignored that the child [c] has left so. *)
Definition finds (c : child) (l : luck) : Prop :=
  (forall s, l_blocked l s = true <-> In s (ch_mask c)) /\ (forall s, l_ignored l s = true <-> s ∈ ch_ignored c).

(** What is in the file after [acts]. *)
Fixpoint content (acts : list act) : string :=
  match acts with
  | [] => ""
  | Opens _ :: rest => content rest
  | Writes t :: rest => t +:+ content rest
  | _ :: rest => content rest
  end.
