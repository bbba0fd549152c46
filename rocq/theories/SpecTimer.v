(** Histories of the cron scheduler. *)
From Coq Require Import String ZArith List.
From Verif Require Import Base CronModel SpecSched.
Import ListNotations.
Local Open Scope Z_scope.

(** Asking for a due job at each of the given clock readings; the ids returned. *)
Fixpoint queries (tz : zone) (c : cron) (nows : list instant) : outcome (cron * list nat) :=
  match nows with
  | [] => Ret (c, [])
  | now :: rest =>
      let! (c1, r) := cron_pop tz c now in
      let! (c2, ids) := queries tz c1 rest in
      Ret (c2, match r with Some id => id :: ids | None => ids end)
  end.

(** A whole minute of the wall clock of a zone with constant offset. *)
Definition desc_minute_boundary (o : Z) (t : instant) : Prop := exists w, t = (w - o) * NS /\ w mod 60 = 0.
