(** Specification of what cinit logs while it runs, on the observable effects. *)
From stdpp Require Import gmap strings.
From Coq Require Import Ascii ZArith List Bool.
From Verif Require Import Base RStr ConfigModel ProcessModel ManagerModel SysModel LogModel TraceModel SpecLog SpecRun.
Import ListNotations.
Local Open Scope string_scope.
Local Open Scope list_scope.
Local Open Scope Z_scope.

(** The name of a program. *)
Definition called (configs : list proc_config) (id : nat) : string :=
  match nth_error configs id with Some c => pc_name c | None => "" end.

(** * Messages at TRACE level *)
(** A program said something about itself: [v] is what was known about it before. *)
Definition told_variable (name : string) (v : view) (x : string * string) : list string :=
  let (key, t) := x in
  if String.eqb key "READY" then
    match v_state v with Starting => if String.eqb t "1" then ["child " +:+ name +:+ " has started successfully"] else [] | _ => [] end
  else if String.eqb key "STOPPING" then if String.eqb t "1" then ["child " +:+ name +:+ " is shutting down"] else []
  else if String.eqb key "STATUS" then ["child " +:+ name +:+ ": " +:+ t]
  else if String.eqb key "MAINPID" then
    match parse_i32 t with
    | Some n => if n =? v_pid v then []
                else ["child " +:+ name +:+ " main pid is changed from " +:+ show_Z (v_pid v) +:+ " to " +:+ show_Z n]
    | None => []
    end
  else [].
Fixpoint told_variables (name : string) (v : view) (l : list (string * string)) : list string :=
  match l with
  | [] => []
  | x :: r => told_variable name v x ++ told_variables name (notified_view [x] v) r
  end.

(** What an effect is announced with, given the effects before it. *)
Definition told (configs : list proc_config) (before : list event) (ev : event) : list string :=
  match ev with
  | EStart id _ => ["Started child " +:+ called configs id]
  | ERefused id =>
      ["Refusing to start child '" +:+ called configs id +:+ "' which is currently " +:+ state_word (v_state (view_of configs before id))]
  | ESkipped id => ["Refusing to start cronjob child '" +:+ called configs id +:+ "' because of uncompleted dependencies"]
  | EEnd id _ rc =>
      if rc =? 0 then
        match kind configs id with
        | CronJob _ => ["Child " +:+ called configs id +:+ " has finished and is going to sleep"]
        | _ => ["Child " +:+ called configs id +:+ " exited successfully"]
        end
      else ["Child " +:+ called configs id +:+ " crashed with " +:+ show_Z rc]
  | EUnknown pid rc => ["Reaped zombie process " +:+ show_Z pid +:+ " with return code " +:+ show_Z rc]
  | ENotify id _ vars => told_variables (called configs id) (view_of configs before id) vars
  | EExit _ => ["Exiting"]
  | _ => []
  end.
Fixpoint traced (configs : list proc_config) (before h : list event) : list string :=
  match h with
  | [] => []
  | ev :: rest => told configs before ev ++ traced configs (before ++ [ev]) rest
  end.

(** The messages of one level in a log. *)
Definition level_eqb (a b : level) : bool := rank a =? rank b.
Fixpoint at_level (l : level) (ls : list line) : list string :=
  match ls with
  | [] => []
  | Own l' t :: rest => if level_eqb l' l then t :: at_level l rest else at_level l rest
  | Child _ _ _ :: rest => at_level l rest
  end.

(** * Messages at all levels *)
(** A message about a line of a notification that means nothing to cinit. *)
Inductive junk : line -> Prop :=
| ju_ignored key value : junk (Own LInfo ("notify manager ignores variable '" +:+ key +:+ "' = '" +:+ value +:+ "'"))
| ju_malformed t : junk (Own LWarn ("notify_manager failed to parse status line '" +:+ t +:+ "'")).

Inductive variable_tells (why name : string) (v : view) : string * string -> list line -> Prop :=
| vt_told x t : fst x <> "STATUS" -> told_variable name v x = [t] -> variable_tells why name v x [Own LInfo t; Own LTrace t]
| vt_status x t : fst x = "STATUS" -> told_variable name v x = [t] -> variable_tells why name v x [Own LTrace t]
| vt_silent x : told_variable name v x = [] -> (fst x = "READY" \/ fst x = "STOPPING" -> snd x = "1") ->
    (fst x = "MAINPID" -> parse_i32 (snd x) <> None) -> variable_tells why name v x []
| vt_not_one key value : key = "READY" \/ key = "STOPPING" -> value <> "1" ->
    variable_tells why name v (key, value) [Own LWarn ("Expected " +:+ key +:+ "=1 but value was '" +:+ value +:+ "'")]
| vt_no_number value : parse_i32 value = None ->
    variable_tells why name v ("MAINPID", value) [Own LWarn ("could not parse new main pid '" +:+ value +:+ "': " +:+ why)].
Inductive variables_tell (why name : string) : view -> list (string * string) -> list line -> Prop :=
| vs_nil v : variables_tell why name v [] []
| vs_cons v x r a b : variable_tells why name v x a -> variables_tell why name (notified_view [x] v) r b ->
    variables_tell why name v (x :: r) (a ++ b).

(** cinit begins to shut down *)
Definition stops : list line := [Own LInfo "Received termination signal"; Own LInfo "Killing children"].
(** A stream could not be watched. *)
Definition unwatched : line := Own LWarn "Could not unregister fd from epoll".
(** What is said before a fork. *)
Definition prepares (c : proc_config) (terminals : bool) : list line :=
  Own LInfo ("Starting " +:+ pc_name c) :: if pc_pty c && terminals then [Own LInfo "Pseudo terminals created"] else [].

(** The lines that go with one effect. *)
Inductive tells (configs : list proc_config) (before : list event) : event -> list line -> Prop :=
| te_start id pid c n : nth_error configs id = Some c -> (n <= 2)%nat ->
    tells configs before (EStart id pid)
      (prepares c true ++ [Own LTrace ("Started child " +:+ pc_name c); Own LInfo ("Started child " +:+ show_Z pid)] ++ repeat unwatched n)
| te_no_fork id c : nth_error configs id = Some c ->
    tells configs before (EStartFail id)
      (prepares c true ++ [Own LError "Forking failed"; Own LError "Failed to spawn child: EINVAL: Invalid argument"])
| te_no_pipes id c b why : nth_error configs id = Some c ->
    tells configs before (EStartFail id) (prepares c b ++ [Own LError ("Failed to spawn child: " +:+ why)])
| te_refused id t : told configs before (ERefused id) = [t] -> tells configs before (ERefused id) [Own LWarn t; Own LTrace t]
| te_skipped id c t : nth_error configs id = Some c -> told configs before (ESkipped id) = [t] -> tells configs before (ESkipped id) [Own LTrace t]
| te_end id pid t : told configs before (EEnd id pid 0) = [t] -> tells configs before (EEnd id pid 0) [Own LInfo t; Own LTrace t]
| te_crash id pid rc t : rc <> 0 -> told configs before (EEnd id pid rc) = [t] ->
    tells configs before (EEnd id pid rc) ([Own LError t; Own LTrace t] ++ stops)
| te_unknown pid rc t : told configs before (EUnknown pid rc) = [t] -> tells configs before (EUnknown pid rc) [Own LInfo t; Own LTrace t]
| te_notify id pid c vars l ls why : nth_error configs id = Some c -> (forall x, In x l -> junk x) -> variables_tell why (called configs id) (view_of configs before id) vars ls ->
    tells configs before (ENotify id pid vars) (l ++ ls)
| te_stranger pid : main_of configs before pid = None ->
    tells configs before (EIgnored pid) [Own LWarn ("Got notification from unknown pid " +:+ show_Z pid)]
| te_not_notify pid id c : main_of configs before pid = Some id -> nth_error configs id = Some c -> pc_type c <> Notify ->
    tells configs before (EIgnored pid)
      [Own LWarn "cinit only accepts notifications from processes of type notify";
       Own LWarn (pc_name c +:+ " is not allowed to send notifications")]
| te_signal sg : sg <> SIGCHLD -> tells configs before (ESignal sg) stops
| te_child_ended : tells configs before (ESignal SIGCHLD) []
| te_output out name t : tells configs before (ELog out name t) [Child out name t]
| te_report t : tells configs before (EReport t) []
| te_report_failed t why : tells configs before (EReport t) [Own LWarn ("Failed to print report: " +:+ why)]
| te_exit code : tells configs before (EExit code) [Own LInfo "Exiting"; Own LTrace "Exiting"]
| te_silent ev : match ev with
                 | EDue _ _ | EOpen _ _ _ | EClosed _ | EReap _ _ | ELost _ | EKill _ _ | EWrote _ _ | EChunk _ _ => True
                 | _ => False
                 end -> tells configs before ev [].

(** Messages without an effect. *)
Inductive remark : line -> Prop :=
| as_shutting_down : remark (Own LInfo "Shutting down")
| as_epoll why : remark (Own LError ("Could not complete epoll: " +:+ why))
| as_event : remark (Own LWarn "Received unknown event")
| as_report why : remark (Own LWarn ("Failed to print report: " +:+ why))
| as_notification why : remark (Own LWarn ("Failed to receive notification: " +:+ why)).

(** The effects with their lines and nothing else. *)
Inductive plainly (configs : list proc_config) : list event -> list event -> list line -> Prop :=
| pl_nil before : plainly configs before [] []
| pl_effect before ev h a ls : tells configs before ev a -> plainly configs (before ++ [ev]) h ls ->
    plainly configs before (ev :: h) (a ++ ls).
(** The whole log: the lines of each effect, in order, and asides. *)
Inductive narrated (configs : list proc_config) : list event -> list event -> list line -> Prop :=
| na_nil before : narrated configs before [] []
| na_effect before ev h a ls : tells configs before ev a -> narrated configs (before ++ [ev]) h ls ->
    narrated configs before (ev :: h) (a ++ ls)
| na_aside before h x ls : remark x -> narrated configs before h ls -> narrated configs before h (x :: ls).

(** * Records *)
(** The lines as records of the log: each gets a time; a record of cinit itself is one
    of any module of cinit but those for the output of programs; messages at DEBUG level
    come in between. *)
Inductive recorded : list line -> list record -> Prop :=
| re_nil : recorded [] []
| re_debug r ls rs : own_message r -> r_level r = LDebug -> recorded ls rs -> recorded ls (r :: rs)
| re_own l t r ls rs : own_message r -> r_level r = l -> r_text r = t -> recorded ls rs -> recorded (Own l t :: ls) (r :: rs)
| re_child time out name t ls rs : stamp time -> recorded ls rs ->
    recorded (Child out name t :: ls) (child_record time out name t :: rs).

(** The texts of cinit's records at one level. *)
Definition texts_at (l : level) (rs : list record) : list string :=
  map r_text (List.filter (fun r => level_eqb (r_level r) l) rs).

(** * Errors *)
Definition crash_message (configs : list proc_config) (id : nat) (rc : Z) : string :=
  "Child " +:+ called configs id +:+ " crashed with " +:+ show_Z rc.
(** The messages at ERROR level. *)
Inductive alarms (configs : list proc_config) : list event -> list string -> Prop :=
| al_nil : alarms configs [] []
| al_crash id pid rc h es : rc <> 0 -> alarms configs h es -> alarms configs (EEnd id pid rc :: h) (crash_message configs id rc :: es)
| al_no_fork id h es : alarms configs h es ->
    alarms configs (EStartFail id :: h) ("Forking failed" :: "Failed to spawn child: EINVAL: Invalid argument" :: es)
| al_no_pipes id why h es : alarms configs h es -> alarms configs (EStartFail id :: h) (("Failed to spawn child: " +:+ why) :: es)
| al_epoll why h es : alarms configs h es -> alarms configs h (("Could not complete epoll: " +:+ why) :: es)
| al_other ev h es : match ev with EStartFail _ => False | EEnd _ _ rc => rc = 0 | _ => True end ->
    alarms configs h es -> alarms configs (ev :: h) es.

(** * Levels *)
(** Shown without -v. *)
Definition shown_always (l : level) : Prop := l = LError \/ l = LWarn \/ l = LInfo.
(** The messages that exist at TRACE level only. *)
Inductive trace_only (configs : list proc_config) : string -> Prop :=
| to_started id c : nth_error configs id = Some c -> trace_only configs ("Started child " +:+ pc_name c)
| to_skipped id c : nth_error configs id = Some c ->
    trace_only configs ("Refusing to start cronjob child '" +:+ pc_name c +:+ "' because of uncompleted dependencies")
| to_status id c t : nth_error configs id = Some c -> trace_only configs ("child " +:+ pc_name c +:+ ": " +:+ t).
(** Every other message at TRACE level comes right after the same message at a level
    that is always shown. *)
Definition echoed (configs : list proc_config) (ls : list line) : Prop := forall l1 t l2, ls = l1 ++ Own LTrace t :: l2 ->
  (exists l0 lv, l1 = l0 ++ [Own lv t] /\ shown_always lv) \/ trace_only configs t.

(** * The end *)
(** A signal to stop was read, or a program failed. *)
Definition must_stop (ev : event) : bool :=
  match ev with
  | ESignal SIGCHLD => false
  | ESignal _ => true
  | EEnd _ _ rc => negb (rc =? 0)
  | _ => false
  end.
(** How often a text occurs. *)
Definition times_in (t : string) (l : list string) : nat := length (List.filter (String.eqb t) l).
