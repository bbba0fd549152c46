(** Model of the test program src/programs/forker.rs: a process that starts a child, sleeps
    for two seconds and then looks whether its handler for SIGCHLD has run.  Others may
    send it SIGCHLD; signals that would kill it are left out. *)
From Coq Require Import String ZArith List Bool.
Import ListNotations.
Local Open Scope string_scope.
Local Open Scope Z_scope.

(** The child (src/programs/forker.rs:77): it prints a line and ends; then it waits to be collected. *)
Inductive kid := KFresh | KSaid | KDead | KCollected.
(** The parent (src/programs/forker.rs:65-76): asleep, with so many ticks of the clock to go, or ended. *)
Inductive stage := Asleep (ticks : nat) | Over (code : Z).
(** [f_lock] is the global variable LOCK, [f_inside] whether the handler runs, [f_pending]
    whether SIGCHLD is pending, [f_out] what both have printed. *)
Record forker := {
  f_kid : kid; f_stage : stage; f_lock : bool; f_inside : bool; f_pending : bool; f_out : list string
}.

(** src/programs/forker.rs:43-63, 78-81: the handler is installed, the child is forked.  [ticks] is the
    length of two seconds. *)
Definition begin (installs forks : bool) (ticks : nat) : forker :=
  if negb installs then
    {| f_kid := KCollected; f_stage := Over 255; f_lock := false; f_inside := false; f_pending := false; f_out := ["Could not setup signal handler: "] |}
  else if negb forks then
    {| f_kid := KCollected; f_stage := Over 255; f_lock := false; f_inside := false; f_pending := false; f_out := ["Forking failed!"] |}
  else {| f_kid := KFresh; f_stage := Asleep ticks; f_lock := false; f_inside := false; f_pending := false; f_out := [] |}.

(** What can happen next: the child prints, the child ends, someone else sends SIGCHLD, the
    handler is entered, it collects the child, it finds no more children and returns, a
    tick passes asleep, the parent looks at LOCK. *)
Inductive event := KidSays | KidEnds | Sent | Enters | Collects | Returns | Tick | Looks.

Definition running (s : forker) : bool := match f_stage s with Asleep _ => true | Over _ => false end.
(** The parent goes on only if it is not in the handler and no signal waits to be
    delivered.  [nanosleep] goes on with what was left after a signal
    (library/std/src/sys/pal/unix/thread.rs); [waitpid] in the handler waits for the child. *)
Definition free (blocked : bool) (s : forker) : bool := running s && negb (f_inside s) && (blocked || negb (f_pending s)).
Definition next (blocked : bool) (s : forker) (e : event) : option forker :=
  let '{| f_kid := k; f_stage := st; f_lock := lk; f_inside := i; f_pending := p; f_out := out |} := s in
  match e with
  | KidSays => match k with KFresh => Some {| f_kid := KSaid; f_stage := st; f_lock := lk; f_inside := i; f_pending := p; f_out := (out ++ ["Grandchild exitted"])%list |} | _ => None end
  | KidEnds => match k with KSaid => Some {| f_kid := KDead; f_stage := st; f_lock := lk; f_inside := i; f_pending := p || running s; f_out := out |} | _ => None end
  | Sent => if running s then Some {| f_kid := k; f_stage := st; f_lock := lk; f_inside := i; f_pending := true; f_out := out |} else None
  | Enters => if running s && p && negb i && negb blocked then
                Some {| f_kid := k; f_stage := st; f_lock := lk; f_inside := true; f_pending := false; f_out := out |} else None
  (** src/programs/forker.rs:36-41 *)
  | Collects => match k with KDead => if i then Some {| f_kid := KCollected; f_stage := st; f_lock := lk; f_inside := i; f_pending := p; f_out := out |} else None | _ => None end
  | Returns => match k with KCollected => if i then Some {| f_kid := k; f_stage := st; f_lock := true; f_inside := false; f_pending := p; f_out := out |} else None | _ => None end
  | Tick => match st with
            | Asleep (S n) => if free blocked s then Some {| f_kid := k; f_stage := Asleep n; f_lock := lk; f_inside := i; f_pending := p; f_out := out |} else None
            | _ => None end
  (** src/programs/forker.rs:70-75 *)
  | Looks => match st with
             | Asleep O => if free blocked s then
                 Some (if lk then {| f_kid := k; f_stage := Over 0; f_lock := lk; f_inside := i; f_pending := p; f_out := out |}
                       else {| f_kid := k; f_stage := Over 255; f_lock := lk; f_inside := i; f_pending := p; f_out := (out ++ ["Timeout waiting for child"])%list |})
               else None
             | _ => None end
  end.
Fixpoint happen (blocked : bool) (s : forker) (l : list event) : option forker :=
  match l with [] => Some s | e :: l => match next blocked s e with Some s => happen blocked s l | None => None end end.
