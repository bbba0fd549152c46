(** The executions of forker. *)
From Coq Require Import String ZArith List Bool.
From Verif Require Import ForkerModel.
Import ListNotations.
Local Open Scope string_scope.
Local Open Scope Z_scope.

(** The events [l] lead to [s]; handler and child could be set up, two seconds are [n] ticks. *)
Definition leads (blocked : bool) (n : nat) (l : list event) (s : forker) : Prop := happen blocked (begin true true n) l = Some s.
Definition event_eq (x y : event) : {x = y} + {x <> y}.
Proof. decide equality. Defined.
Definition times (e : event) (l : list event) : nat := count_occ event_eq l e.
(** There has been a reason for SIGCHLD. *)
Definition reason (l : list event) : Prop := In KidEnds l \/ In Sent l.
