(** Specification of the whole log, with the messages at DEBUG level. *)
From stdpp Require Import gmap strings.
From Coq Require Import Ascii ZArith List Bool.
From Verif Require Import Base RStr CronModel ConfigModel ProcessModel ManagerModel SysModel LogModel TraceModel SpecStr SpecText SpecLog SpecRun SpecTick SpecTrace SpecWarn.
Import ListNotations.
Local Open Scope string_scope.
Local Open Scope list_scope.
Local Open Scope Z_scope.

Definition dbg (text : string) : line := Own LDebug text.
Definition is_debug (x : line) : bool := match x with Own LDebug _ => true | _ => false end.
(** A log without its messages at DEBUG level. *)
Definition above_debug (ls : list line) : list line := List.filter (fun x => negb (is_debug x)) ls.

(** * Phrases *)
(** The signals 1 to 31. *)
Definition signal_names : list string :=
  ["SIGHUP"; "SIGINT"; "SIGQUIT"; "SIGILL"; "SIGTRAP"; "SIGABRT"; "SIGBUS"; "SIGFPE"; "SIGKILL"; "SIGUSR1"; "SIGSEGV"; "SIGUSR2"; "SIGPIPE";
   "SIGALRM"; "SIGTERM"; "SIGSTKFLT"; "SIGCHLD"; "SIGCONT"; "SIGSTOP"; "SIGTSTP"; "SIGTTIN"; "SIGTTOU"; "SIGURG"; "SIGXCPU"; "SIGXFSZ";
   "SIGVTALRM"; "SIGPROF"; "SIGWINCH"; "SIGIO"; "SIGPWR"; "SIGSYS"].
(** How a process ended. *)
Inductive ended_as (core : bool) (pid : Z) : status -> string -> Prop :=
| en_exit rc : ended_as core pid (XExit rc) ("Got signal from child: Exited(Pid(" +:+ show_Z pid +:+ "), " +:+ show_Z rc +:+ ")")
| en_signal i name : nth_error signal_names i = Some name ->
    ended_as core pid (XSignal (Z.of_nat i + 1))
      ("Got signal from child: Signaled(Pid(" +:+ show_Z pid +:+ "), " +:+ name +:+ ", " +:+ (if core then "true" else "false") +:+ ")").

Definition received (text : string) (sender : Z) : line := dbg ("Received notification '" +:+ text +:+ "' from " +:+ show_Z sender).

(** The program has ended or has reported READY=1 before. *)
Definition over (h : list event) (id : nat) : Prop := (exists pid rc, In (EEnd id pid rc) h) \/ notified h id "READY" "1".
Inductive reminded (h : list event) (id : nat) : list line -> Prop :=
| rm_again : over h id -> reminded h id [dbg ("Process " +:+ show_Z (Z.of_nat id) +:+ " has already triggered its dependants")]
| rm_first : ~ over h id -> reminded h id [].

(** What is said before a fork. *)
Definition prepares_all (d : detail) (c : proc_config) (terminals : bool) : list line :=
  Own LInfo ("Starting " +:+ pc_name c) ::
  if pc_pty c then
    (if d_flags d then [] else [dbg "Could not get terminal flags"]) ++
    (if d_size d then [] else [dbg "Not running inside tty, using sane defaults"]) ++
    (if terminals then [Own LInfo "Pseudo terminals created"] else [])
  else [].
Definition registers (fd : Z) (watched : bool) : list line :=
  dbg ("Registering fd " +:+ show_Z fd) :: if watched then [] else [unwatched].

(** A cronjob is due: the next time is announced. *)
Inductive scheduled (e : env) (configs : list proc_config) : list event -> list line -> Prop :=
| sc_none : scheduled e configs [] []
| sc_due id now d u : timer_is configs id d -> next_execution (e_zone e) d now = Ret u ->
    scheduled e configs [EDue id now] [dbg ("Scheduled next execution at " +:+ e_rfc3339 e u)].

(** One variable of a notification, all of them. *)
Inductive variable_all (why name : string) (v : view) : string * string -> list line -> Prop :=
| va_early : v_state v <> Starting ->
    variable_all why name v ("READY", "1") [dbg ("child " +:+ name +:+ " in " +:+ state_word (v_state v) +:+ " state has notified about startup")]
| va_other x a : x <> ("READY", "1") \/ v_state v = Starting -> variable_tells why name v x a -> variable_all why name v x a.
Inductive variables_all (why name : string) : view -> list (string * string) -> list line -> Prop :=
| vl_nil v : variables_all why name v [] []
| vl_cons v x r a b : variable_all why name v x a -> variables_all why name (notified_view [x] v) r b ->
    variables_all why name v (x :: r) (a ++ b).

(** * One operation *)
Definition loud (ev : event) : Prop :=
  match ev with
  | EStart _ _ | EStartFail _ | ERefused _ | EDue _ _ | ESkipped _ | EEnd _ _ _ | EUnknown _ _ | ENotify _ _ _ | EIgnored _ | ESignal SIGCHLD
  | EReap _ (XExit _) | EReap _ (XSignal _) => True
  | _ => False
  end.
Definition loud_op (q : list epev) (o : op) : Prop :=
  match o with
  | CPoll (Some _) => True
  | CEvent (ASignal None) => match q with EvIn _ :: _ => True | _ => False end
  | _ => False
  end.

(** The lines of one operation: [q] are the events of epoll not yet handled, [before] the
    effects so far, [evs] the effects of the operation; [fatal]: cinit panics. *)
Inductive spoken (e : env) (configs : list proc_config) (before : list event) (q : list epev) (fatal : bool) : op -> detail -> list event -> list line -> Prop :=
| sp_started o pre id pid out err wo we c d due : tries o (Forked pid out err wo we) id pre -> scheduled e configs pre due -> nth_error configs id = Some c ->
    spoken e configs before q fatal o d (pre ++ [EStart id pid; EOpen out id true; EOpen err id false])
      (due ++ prepares_all d c true ++ [Own LTrace ("Started child " +:+ pc_name c); Own LInfo ("Started child " +:+ show_Z pid)] ++
       registers out wo ++ registers err we)
| sp_no_pipes o pre id c d due : tries o ForkFailed id pre -> scheduled e configs pre due -> nth_error configs id = Some c -> d_stage d = NoPipes ->
    spoken e configs before q fatal o d (pre ++ [EStartFail id]) (due ++ prepares_all d c false ++ [Own LError ("Failed to spawn child: " +:+ d_error d)])
| sp_no_flags o pre id c d due : tries o ForkFailed id pre -> scheduled e configs pre due -> nth_error configs id = Some c -> d_stage d = NoFlags ->
    spoken e configs before q fatal o d (pre ++ [EStartFail id]) (due ++ prepares_all d c true ++ [Own LError ("Failed to spawn child: " +:+ d_error d)])
| sp_no_fork o pre id c d due : tries o ForkFailed id pre -> scheduled e configs pre due -> nth_error configs id = Some c -> d_stage d = NoFork ->
    spoken e configs before q fatal o d (pre ++ [EStartFail id])
      (due ++ prepares_all d c true ++ [Own LError "Forking failed"; Own LError "Failed to spawn child: EINVAL: Invalid argument"])
| sp_refused o r pre id t d due : tries o r id pre -> scheduled e configs pre due -> told configs (before ++ pre) (ERefused id) = [t] ->
    spoken e configs before q fatal o d (pre ++ [ERefused id]) (due ++ [Own LWarn t; Own LTrace t])
| sp_skipped now r id t d due : scheduled e configs [EDue id now] due -> told configs before (ESkipped id) = [t] ->
    spoken e configs before q fatal (CSpawnCron now r) d [EDue id now; ESkipped id] (due ++ [dbg t; Own LTrace t])
| sp_polled l d : spoken e configs before q fatal (CPoll (Some l)) d [] [dbg ("Got " +:+ show_Z (Z.of_nat (length l)) +:+ " events")]
| sp_child_signal d r : q = EvIn (e_signal e) :: r ->
    spoken e configs before q fatal (CEvent (ASignal (Some SIGCHLD))) d [ESignal SIGCHLD]
      [dbg ("Child " +:+ show_Z (d_sender d) +:+ " has exited with " +:+ show_Z (d_code d))]
| sp_no_signal d r : q = EvIn (e_signal e) :: r -> d_unread d = None ->
    spoken e configs before q fatal (CEvent (ASignal None)) d [] [dbg "No signal received"]
| sp_bad_signal d r why : q = EvIn (e_signal e) :: r -> d_unread d = Some why ->
    spoken e configs before q fatal (CEvent (ASignal None)) d [] [dbg ("Received unknown signal: " +:+ why)]
| sp_ignored datagram text sender d r ls : q = EvIn (e_notify e) :: r -> readable datagram text -> tells configs before (EIgnored sender) ls ->
    spoken e configs before q fatal (CEvent (AMessage (Some (datagram, sender)))) d [EIgnored sender] (received text sender :: ls)
| sp_datagram datagram text ts sender id c vars d r js vs m : q = EvIn (e_notify e) :: r ->
    readable datagram text -> lines_are text ts -> lines_tell ts js ->
    main_of configs before sender = Some id -> nth_error configs id = Some c -> pc_type c = Notify ->
    List.NoDup (map fst vars) -> (forall key value, In (key, value) vars <-> sets text key value) ->
    variables_all (d_error d) (called configs id) (view_of configs before id) vars vs ->
    (In ("READY", "1") vars -> reminded before id m) -> (~ In ("READY", "1") vars -> m = []) ->
    spoken e configs before q fatal (CEvent (AMessage (Some (datagram, sender)))) d [ENotify id sender vars] (received text sender :: js ++ vs ++ m)
| sp_stranger pid st d t ls : ended_as (d_core d) pid st t -> main_of configs before pid = None -> tells configs (before ++ [EReap pid st]) (EUnknown pid (code_of st)) ls ->
    spoken e configs before q fatal (CWait (Some pid)) d [EReap pid st; EUnknown pid (code_of st)] (dbg t :: ls)
| sp_ended pid st id d t ls ks m : ended_as (d_core d) pid st t -> main_of configs before pid = Some id -> tells configs (before ++ [EReap pid st]) (EEnd id pid (code_of st)) ls ->
    (forall ev, In ev ks -> exists x, ev = EKill x SIGINT) ->
    (cronjob configs id \/ fatal = true -> m = []) -> (~ cronjob configs id -> fatal = false -> reminded before id m) ->
    spoken e configs before q fatal (CWait (Some pid)) d (EReap pid st :: EEnd id pid (code_of st) :: ks) (dbg t :: ls ++ m)
| sp_other o d evs ls : ~ loud_op q o -> (forall ev, In ev evs -> ~ loud ev) -> explained e configs before q o d evs ls ->
    spoken e configs before q fatal o d evs ls.

(** A whole execution, and whether cinit panics in it. *)
Inductive speaks (e : env) (configs : list proc_config) : list event -> list epev -> list (op * detail) -> list event -> list line -> bool -> Prop :=
| sk_nil before q : speaks e configs before q [] [] [] false
| sk_step before q o d ops evs h l ls f f' : spoken e configs before q f o d evs l -> speaks e configs (before ++ evs) (waiting q o) ops h ls f' ->
    speaks e configs before q ((o, d) :: ops) (evs ++ h) (l ++ ls) (f || f').
Definition dead (p : pc) : bool := match p with Panicked _ => true | _ => false end.

(** * What can be read at DEBUG level *)
Fixpoint begins (p t : string) : bool :=
  match p, t with
  | EmptyString, _ => true
  | String a p, String b t => Ascii.eqb a b && begins p t
  | String _ _, EmptyString => false
  end.
Definition debug_texts (beginning : string) (ls : list line) : list string := List.filter (begins beginning) (at_level LDebug ls).
(** The processes that cinit reaped and how they ended, without those killed by a realtime
    signal, of which cinit learns nothing. *)
Fixpoint reaped (h : list event) : list (Z * status) :=
  match h with
  | [] => []
  | EReap pid (XExit rc) :: r => (pid, XExit rc) :: reaped r
  | EReap pid (XSignal n) :: r => (pid, XSignal n) :: reaped r
  | _ :: r => reaped r
  end.
Definition shows_end (x : Z * status) (t : string) : Prop := exists core, ended_as core (fst x) (snd x) t.
(** The notifications, accepted or not. *)
Definition heard (h : list event) : list event :=
  List.filter (fun ev => match ev with ENotify _ _ _ | EIgnored _ => true | _ => false end) h.
Inductive shows_datagram : event -> string -> Prop :=
| sd_accepted id sender vars text : (forall key value, In (key, value) vars <-> sets text key value) ->
    shows_datagram (ENotify id sender vars) ("Received notification '" +:+ text +:+ "' from " +:+ show_Z sender)
| sd_ignored sender text : shows_datagram (EIgnored sender) ("Received notification '" +:+ text +:+ "' from " +:+ show_Z sender).
(** The times at which cronjobs were due. *)
Fixpoint dues (h : list event) : list (nat * instant) :=
  match h with [] => [] | EDue id now :: r => (id, now) :: dues r | _ :: r => dues r end.
Definition shows_next (e : env) (configs : list proc_config) (x : nat * instant) (t : string) : Prop :=
  exists d u, timer_is configs (fst x) d /\ next_execution (e_zone e) d (snd x) = Ret u /\ t = "Scheduled next execution at " +:+ e_rfc3339 e u.
Fixpoint skips (h : list event) : list nat :=
  match h with [] => [] | ESkipped id :: r => id :: skips r | _ :: r => skips r end.

(** The records of a log, nothing left out. *)
Inductive recorded_all : list line -> list record -> Prop :=
| ra_nil : recorded_all [] []
| ra_own l t r ls rs : own_message r -> r_level r = l -> r_text r = t -> recorded_all ls rs -> recorded_all (Own l t :: ls) (r :: rs)
| ra_child time out name t ls rs : stamp time -> recorded_all ls rs ->
    recorded_all (Child out name t :: ls) (child_record time out name t :: rs).
