(** Specification of what a whole run shows. *)
From stdpp Require Import gmap strings.
From Coq Require Import Ascii ZArith List Bool.
From Verif Require Import Base RStr CronModel ConfigModel ProcessModel ManagerModel MainModel LogModel SpecMain SpecLog.
From Verif Require StartModel SpecStart.
Import ListNotations.
Local Open Scope string_scope.
Local Open Scope list_scope.
Local Open Scope Z_scope.

(** The machine is as supposed in C85 whatever the path. *)
Definition furnished (found : string -> StartModel.tree * machine) : Prop :=
  forall path, honest (snd (found path)) /\ m_files (snd (found path)) = StartModel.nameless (fst (found path)).

(** More than two -v count as none (C58). *)
Definition effective (v : Z) : Z := if 2 <? v then 0 else v.

(** Errors that do not end cinit. *)
Inductive survivable : string -> Prop :=
| su_fork : survivable "Forking failed"
| su_start why : survivable ("Failed to spawn child: " +:+ why)
| su_epoll why : survivable ("Could not complete epoll: " +:+ why).

(** Why cinit failed: a program ended with a status other than 0, or cinit refused to
    start for a reason of C85. *)
Inductive explains (t : StartModel.texts) (found : string -> StartModel.tree * machine) (path : string) : Z -> string -> Prop :=
| ex_crash name rc : rc <> 0 -> explains t found path 6 ("Child " +:+ name +:+ " crashed with " +:+ show_Z rc)
| ex_refused code why : code = 1 \/ code = 2 \/ code = 3 \/ code = 5 -> SpecStart.reason t path (fst (found path)) (snd (found path)) why ->
    explains t found path code why.
(** There is an error of cinit with that text among the entries. *)
Definition shows_error (es : list string) (text : string) : Prop := exists t, stamp t /\ In (log_entry t LError "cinit" text) es.
