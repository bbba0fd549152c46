(** A whole run of cinit: the command line, the start and the event loop with what is
    logged. *)
From stdpp Require Import gmap strings.
From Coq Require Import Ascii ZArith List Bool.
From Verif Require Import Base RStr CronModel ConfigModel ProcessModel ManagerModel SysModel MainModel LogModel TraceModel SpecRun.
From Verif Require CliModel StartModel.
Import ListNotations.
Local Open Scope string_scope.
Local Open Scope list_scope.
Local Open Scope Z_scope.

(** The messages before the event loop as lines of the log. *)
Definition own_lines (ms : list (level * string)) : list line := map (fun m => Own (fst m) (snd m)) ms.

(** src/main.rs:74-111.  [found] is the configuration and everything else outside of
    cinit for each path.  A session is given by its verbosity, the lines of its log and
    its exit code, if it has ended.  Sessions that end on the command line log nothing
    (C75); a panic shows nothing in the log (it is no session here). *)
Inductive session (t : StartModel.texts) (found : string -> StartModel.tree * machine) (args : list string) : Z -> list line -> option Z -> Prop :=
| ss_refused path v code : CliModel.parse_arguments args = CliModel.Begins path v -> run (snd (found path)) = Ret (Exits code) ->
    session t found args v (own_lines (fst (StartModel.start_says t path (fst (found path)) (snd (found path))))) (Some code)
| ss_running path v e configs s0 ops s ls : CliModel.parse_arguments args = CliModel.Begins path v ->
    launched (snd (found path)) e configs s0 -> narrate e s0 ops = Some (s, ls) ->
    session t found args v (own_lines (fst (StartModel.start_says t path (fst (found path)) (snd (found path)))) ++ ls)
      (match s_pc s with Finished code => Some code | _ => None end).
