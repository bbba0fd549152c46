(** Programs that cannot be executed, as seen by the event loop. *)
From stdpp Require Import gmap strings.
From Coq Require Import Ascii ZArith List Bool.
From Verif Require Import Base ProcessModel ManagerModel SysModel SpecRun.
From Verif Require ChildModel.
Import ListNotations.
Local Open Scope list_scope.
Local Open Scope Z_scope.

(** Process [pid], in what happens after its start, behaves like a child with fate [f]:
    if it gave up with some exit code, then this is how it ends, and until then it sends
    no notifications (it runs nothing that could). *)
Definition meets (f : ChildModel.fate) (pid : Z) (later : list event) : Prop :=
  forall code c, f = ChildModel.Exits code c ->
  (forall h1 st h2, later = h1 ++ EReap pid st :: h2 -> (forall st', ~ In (EReap pid st') h1) -> st = XExit code) /\
  (forall h1 id vars h2, later = h1 ++ ENotify id pid vars :: h2 -> exists st, In (EReap pid st) h1).

(** No program names [pid] as its main process. *)
Definition unclaimed_number (pid : Z) (later : list event) : Prop :=
  forall id x vars, In (ENotify id x vars) later -> new_pid vars <> Some pid.

(** Program number [id] is [q]. *)
Definition program_of (s : sys) (id : nat) (q : process) : Prop := nth_error (g_procs (s_g s)) id = Some q.
