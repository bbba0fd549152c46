(** Specification of the log line by line: which operation each line comes from. *)
From stdpp Require Import gmap strings.
From Coq Require Import Ascii ZArith List Bool.
From Verif Require Import Base RStr CronModel ConfigModel ProcessModel ManagerModel SysModel LogModel TraceModel SpecStr SpecText SpecRun SpecTrace.
Import ListNotations.
Local Open Scope string_scope.
Local Open Scope list_scope.
Local Open Scope Z_scope.

(** What is said about a line of a datagram: nothing if it sets one of the four
    variables, else that it is ignored. *)
Inductive line_tells : string -> list line -> Prop :=
| li_known key value : known_key key -> line_tells (key +:+ "=" +:+ value) []
| li_unknown key value : free_of "=" key -> ~ known_key key ->
    line_tells (key +:+ "=" +:+ value) [Own LInfo ("notify manager ignores variable '" +:+ key +:+ "' = '" +:+ value +:+ "'")]
| li_other t : free_of "=" t -> line_tells t [Own LWarn ("notify_manager failed to parse status line '" +:+ t +:+ "'")].
Inductive lines_tell : list string -> list line -> Prop :=
| ls_nil : lines_tell [] []
| ls_cons t ts a b : line_tells t a -> lines_tell ts b -> lines_tell (t :: ts) (a ++ b).

(** An operation that tries to start a program: the answer of the kernel, the program,
    and the effects before the attempt. *)
Inductive tries : op -> fork_result -> nat -> list event -> Prop :=
| tr_dep r id : tries (CSpawnDep r) r id []
| tr_cron now r id : tries (CSpawnCron now r) r id [EDue id now].

(** The operations and effects that call for lines beyond those of SpecTrace.v. *)
Definition troubled (q : list epev) (o : op) : Prop :=
  match o with
  | CPoll None => True
  | CEvent a =>
      match q, a with
      | EvOther _ :: _, _ => True
      | EvIn _ :: _, AMessage None | EvIn _ :: _, AAccept false => True
      | _, _ => False
      end
  | _ => False
  end.
Definition explained_apart (ev : event) : Prop :=
  match ev with EStart _ _ | EStartFail _ | EReport _ | ENotify _ _ _ => True | _ => False end.

(** The lines of one operation: [q] are the events of epoll not yet handled, [before]
    the effects so far, [evs] the effects of the operation. *)
Inductive explained (e : env) (configs : list proc_config) (before : list event) (q : list epev) : op -> detail -> list event -> list line -> Prop :=
| ex_started o pre id pid out err wo we c d : tries o (Forked pid out err wo we) id pre -> nth_error configs id = Some c ->
    explained e configs before q o d (pre ++ [EStart id pid; EOpen out id true; EOpen err id false])
      (prepares c true ++ [Own LTrace ("Started child " +:+ pc_name c); Own LInfo ("Started child " +:+ show_Z pid)] ++
       (if wo then [] else [unwatched]) ++ (if we then [] else [unwatched]))
| ex_no_pipes o pre id c d : tries o ForkFailed id pre -> nth_error configs id = Some c -> d_stage d = NoPipes ->
    explained e configs before q o d (pre ++ [EStartFail id]) (prepares c false ++ [Own LError ("Failed to spawn child: " +:+ d_error d)])
| ex_no_flags o pre id c d : tries o ForkFailed id pre -> nth_error configs id = Some c -> d_stage d = NoFlags ->
    explained e configs before q o d (pre ++ [EStartFail id]) (prepares c true ++ [Own LError ("Failed to spawn child: " +:+ d_error d)])
| ex_no_fork o pre id c d : tries o ForkFailed id pre -> nth_error configs id = Some c -> d_stage d = NoFork ->
    explained e configs before q o d (pre ++ [EStartFail id])
      (prepares c true ++ [Own LError "Forking failed"; Own LError "Failed to spawn child: EINVAL: Invalid argument"])
| ex_epoll d : explained e configs before q (CPoll None) d [] [Own LError ("Could not complete epoll: " +:+ d_error d)]
| ex_odd a d fd r : q = EvOther fd :: r -> explained e configs before q (CEvent a) d [] [Own LWarn "Received unknown event"]
| ex_report d text r : q = EvIn (e_status e) :: r ->
    explained e configs before q (CEvent (AAccept true)) d [EReport text]
      (if d_unwritten d then [Own LWarn ("Failed to print report: " +:+ d_error d)] else [])
| ex_no_connection d r : q = EvIn (e_status e) :: r ->
    explained e configs before q (CEvent (AAccept false)) d [] [Own LWarn ("Failed to print report: " +:+ d_error d)]
| ex_lost d r : q = EvIn (e_notify e) :: r ->
    explained e configs before q (CEvent (AMessage None)) d [] [Own LWarn ("Failed to receive notification: " +:+ d_error d)]
| ex_datagram datagram text ts sender id c vars d r js vs : q = EvIn (e_notify e) :: r ->
    readable datagram text -> lines_are text ts -> lines_tell ts js ->
    main_of configs before sender = Some id -> nth_error configs id = Some c -> pc_type c = Notify ->
    List.NoDup (map fst vars) -> (forall key value, In (key, value) vars <-> sets text key value) ->
    variables_tell (d_error d) (called configs id) (view_of configs before id) vars vs ->
    explained e configs before q (CEvent (AMessage (Some (datagram, sender)))) d [ENotify id sender vars] (js ++ vs)
| ex_closing d : explained e configs before q CHead d [] [Own LInfo "Shutting down"]
| ex_other o d evs ls : ~ troubled q o -> (forall ev, In ev evs -> ~ explained_apart ev) -> plainly configs before evs ls ->
    explained e configs before q o d evs ls.

(** The events of epoll not yet handled after an operation. *)
Definition waiting (q : list epev) (o : op) : list epev :=
  match o with CPoll (Some l) => l | CEvent _ => tl q | _ => q end.
(** A whole execution. *)
Inductive accounts (e : env) (configs : list proc_config) : list event -> list epev -> list (op * detail) -> list event -> list line -> Prop :=
| ac_nil before q : accounts e configs before q [] [] []
| ac_step before q o d ops evs h l ls : explained e configs before q o d evs l -> accounts e configs (before ++ evs) (waiting q o) ops h ls ->
    accounts e configs before q ((o, d) :: ops) (evs ++ h) (l ++ ls).
