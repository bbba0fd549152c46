(** Property C87: every line of the log has its cause, and every ignored input its line. *)
From stdpp Require Import gmap strings.
From Coq Require Import Ascii ZArith List Bool Lia.
From Verif Require Import Base RStr CronModel ConfigModel ProcessModel EnvModel DepModel NotifyModel ManagerModel SysModel MainModel
  SpecStr SpecDep SpecMain SpecText SpecRun RunInv RunHist RunThms RunFinal RunExamples LogModel SpecLog TraceModel SpecTrace SpecWarn TraceProofs WarnProofs PropTrace.
Import ListNotations.
Local Open Scope string_scope.
Local Open Scope list_scope.
Local Open Scope Z_scope.

(** * C87: each operation with its lines *)
Theorem C87_every_line k e configs s0 ops s ls : launched k e configs s0 -> narrate e s0 ops = Some (s, ls) ->
  accounts e configs [] [] ops (s_hist s) ls.
Proof. exact (log_accounts k e configs s0 ops s ls). Qed.
Print Assumptions C87_every_line.

(** A datagram with an unknown variable, a line that sets nothing and a number that is
    none; a connection that cannot be accepted, an event of another kind, a message that
    cannot be received. *)
Definition trouble_ops : list op :=
  [CHead; CSpawnDep (fork 10 20 21)] ++ no_start ++
  batch [msg ("FOO=1" +:+ nl +:+ "hello" +:+ nl +:+ "MAINPID=x" +:+ nl +:+ "READY=1") 10; (EvIn 4, AAccept false); (EvOther 20, ASignal None)] [] ++
  [CHead] ++ no_start ++ batch [(EvIn 5, AMessage None)] [].
Example C87_example : exists k configs s0 s,
  launched k demo_env configs s0 /\
  narrate demo_env s0 (with_details trouble_ops) = Some (s,
    [Own LInfo "Starting web"; Own LTrace "Started child web"; Own LInfo "Started child 10";
     Own LInfo "notify manager ignores variable 'FOO' = '1'"; Own LWarn "notify_manager failed to parse status line 'hello'"] ++ twice "child web has started successfully" ++
    [Own LWarn "could not parse new main pid 'x': "; Own LWarn "Failed to print report: "; Own LWarn "Received unknown event"; Own LWarn "Failed to receive notification: "]).
Proof.
  destruct (demo_state [task "web" Notify [] []] trouble_ops
    [EStart 0 10; EOpen 20 0 true; EOpen 21 0 false; ENotify 0 10 [("READY", "1"); ("MAINPID", "x")]] AtHead) as (s & D & _);
    [vm_compute; reflexivity..|].
  destruct (demo_narrated [task "web" Notify [] []] trouble_ops s
    ([Own LInfo "Starting web"; Own LTrace "Started child web"; Own LInfo "Started child 10";
     Own LInfo "notify manager ignores variable 'FOO' = '1'"; Own LWarn "notify_manager failed to parse status line 'hello'"] ++ twice "child web has started successfully" ++
    [Own LWarn "could not parse new main pid 'x': "; Own LWarn "Failed to print report: "; Own LWarn "Received unknown event"; Own LWarn "Failed to receive notification: "])) as (s0 & A & B);
    [exact D|vm_compute; reflexivity|].
  exists (demo_machine [task "web" Notify [] []]), (demo_configs [task "web" Notify [] []]), s0, s. split; [apply demo_launched; exact A|exact B].
Qed.
