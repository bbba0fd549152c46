(** What a status client may see. *)
From Coq Require Import String List Arith.
From Verif Require Import ReportModel.
Import ListNotations.

Definition prefix_of (a b : string) : Prop := exists rest, b = (a ++ rest)%string.

(** No write fails. *)
Definition faultless_replies (l : list reply) : Prop := ~ In WErr l /\ ~ In (WOk 0) l.

(** The number of bytes the connection takes at most, and the number of calls that
    return without being interrupted. *)
Fixpoint room (l : list reply) : nat := match l with [] => 0 | WOk n :: r => n + room r | _ :: r => room r end.
Fixpoint answered (l : list reply) : nat := match l with [] => 0 | WIntr :: r => answered r | _ :: r => S (answered r) end.
