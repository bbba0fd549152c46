(** Property C89: why a cron expression is refused. *)
From Coq Require Import String Ascii ZArith List Bool Lia.
From Verif Require Import Base RStr SpecStr CronModel SpecCron SpecFault FaultProofs.
Import ListNotations.
Local Open Scope string_scope.
Local Open Scope Z_scope.

(** * C89: the message about a timer names its first fault *)
Theorem C89_first_fault s why : parse_timer s = Ret (Err why) <-> timer_fault s (Refused why).
Proof. exact (timer_refused s why). Qed.
Print Assumptions C89_first_fault.

(** The exact condition for C16: cinit crashes exactly if the first fault is a step of zero. *)
Theorem C16_crash_exactly s : (exists m, parse_timer s = Panic m) <-> timer_fault s Crashes.
Proof. exact (timer_crashes s). Qed.
Print Assumptions C16_crash_exactly.

Example C89_example :
  parse_timer "1,2/x,99 * * * *" = Ret (Err "Invalid step number") /\
  parse_timer "1,x,99 * * * *" = Ret (Err "Invalid number") /\
  parse_timer "1-/2 * * * *" = Ret (Err "Invalid number in end of interval") /\
  parse_timer "* 1-24 * * *" = Ret (Err "Invalid range in timer spec") /\
  parse_timer "* * 0 * *" = Ret (Err "Invalid range in timer spec") /\
  parse_timer "* * * 7-3 *" = Ret (Err "Interval end < begin") /\
  parse_timer "* * * *" = Ret (Err "Incomplete timer spec") /\
  parse_timer "* * * * * *" = Ret (Err "Too many timer specs") /\
  timer_fault "* * * 7-3 */0" (Refused "Interval end < begin") /\
  timer_fault "* * * */0 7-3" Crashes.
Proof.
  do 8 (split; [vm_compute; reflexivity|]). split; [apply timer_refused; vm_compute; reflexivity|].
  apply timer_crashes. eexists. vm_compute. reflexivity.
Qed.
