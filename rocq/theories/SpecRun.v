(** Vocabulary for executions, on the history of observable effects. *)
From stdpp Require Import gmap strings.
From Coq Require Import Ascii ZArith List Bool.
From Verif Require Import Base RStr CronModel ConfigModel ProcessModel DepModel ManagerModel SysModel MainModel SpecDep SpecMain SpecText.
Import ListNotations.
Local Open Scope string_scope.
Local Open Scope list_scope.
Local Open Scope Z_scope.

(** Processes have positive numbers and end in ways the kernel can report. *)
Definition plausible (procs : gmap Z kproc) : Prop :=
  forall pid x, procs !! pid = Some x -> 0 < pid /\ forall st, x = KZombie st -> valid_status st = true.

(** The event loop is entered with these programs in this state. *)
Definition launched (k : machine) (e : env) (configs : list proc_config) (s : sys) : Prop :=
  honest k /\ e_zone e = m_zone k /\ (forall l, Permutation (e_order e l) l) /\
  exists a others, run k = Ret (EntersLoop configs a) /\ plausible others /\ s = initial (a_processes a) (a_dep a) (a_cron a) others.

(** Some execution leads from the start of the event loop to this state. *)
Definition reachable (k : machine) (e : env) (configs : list proc_config) (s : sys) : Prop :=
  exists s0 ops, launched k e configs s0 /\ execute e s0 ops = Some s.

Definition cronjob (configs : list proc_config) (id : nat) : Prop :=
  exists c t, nth_error configs id = Some c /\ pc_type c = CronJob t.
Definition notifier (configs : list proc_config) (id : nat) : Prop :=
  exists c, nth_error configs id = Some c /\ pc_type c = Notify.

(** A notification carried this variable. *)
Definition notified (h : list event) (id : nat) (key value : string) : Prop :=
  exists pid vars, In (ENotify id pid vars) h /\ In (key, value) vars.

(** A program's main process ended with code 0, or the program reported READY=1. *)
Definition succeeded (h : list event) (id : nat) : Prop := exists pid, In (EEnd id pid 0) h.
Definition completed (h : list event) (id : nat) : Prop := succeeded h id \/ notified h id "READY" "1".

(** What ends the phase in which programs are started. *)
Definition shutdown_trigger (ev : event) : Prop :=
  match ev with
  | ESignal SIGCHLD => False
  | ESignal _ => True
  | EEnd _ _ rc => rc <> 0
  | _ => False
  end.

(** Process [pid] was started for this program and has not been reaped since. *)
Definition alive (h : list event) (id : nat) (pid : Z) : Prop :=
  exists h1 h2, h = h1 ++ EStart id pid :: h2 /\ forall st, ~ In (EReap pid st) h2.

(** No program handed its identity to another process, and no program was killed by
    a real-time signal. *)
Definition handover (ev : event) : Prop :=
  match ev with
  | ENotify _ _ vars => exists v n, In ("MAINPID", v) vars /\ parse_i32 v = Some n
  | _ => False
  end.
Definition calm (h : list event) : Prop :=
  (forall ev, In ev h -> ~ handover ev) /\
  forall h1 pid n h2, h = h1 ++ EReap pid (XRealtime n) :: h2 -> forall id, ~ alive h1 id pid.

(** States in which a program has a process. *)
Definition active (s : pstate) : Prop := s = Starting \/ s = Running \/ s = Stopping.

(** The exit code or signal number cinit sees. *)
Definition code_of (st : status) : Z := match st with XExit rc => rc | XSignal n => n | XRealtime n => n end.

(** Something holds of each event, given the history before it. *)
Definition each_time (h : list event) (P : list event -> event -> Prop) : Prop :=
  forall before ev after, h = before ++ ev :: after -> P before ev.

(** Every instance of the program was reaped, with exit code 0. *)
Definition all_reaped (h : list event) (id : nat) : Prop :=
  forall h1 pid h2, h = h1 ++ EStart id pid :: h2 -> (exists st, In (EReap pid st) h2) /\ In (EEnd id pid 0) h2.

(** A stream opened for a program and not closed since. *)
Definition opened (h : list event) (fd : Z) (id : nat) (out : bool) : Prop :=
  exists h1 h2, h = h1 ++ EOpen fd id out :: h2 /\ ~ In (EClosed fd) h2.

(** What was written to a descriptor, and what cinit read from it. *)
Fixpoint written (fd : Z) (h : list event) : string :=
  match h with
  | [] => ""
  | EWrote fd' data :: rest => if fd' =? fd then data +:+ written fd rest else written fd rest
  | _ :: rest => written fd rest
  end.
Fixpoint fetched (fd : Z) (h : list event) : string :=
  match h with
  | [] => ""
  | EChunk fd' data :: rest => if fd' =? fd then data +:+ fetched fd rest else fetched fd rest
  | _ :: rest => fetched fd rest
  end.

(** For whom a descriptor was opened last. *)
Definition owner_map := Z -> option (nat * bool).
Definition owners_step (own : owner_map) (ev : event) : owner_map :=
  match ev with
  | EOpen fd id out => fun x => if x =? fd then Some (id, out) else own x
  | _ => own
  end.
Definition owners (own : owner_map) (h : list event) : owner_map := fold_left owners_step h own.

Definition nobody : owner_map := fun _ => None.

(** Which log entries a history contains: after each chunk that was read, and nowhere
    else, one entry per line of the decoded chunk that is not empty, under the name
    of the program the descriptor was opened for. *)
Inductive logged (configs : list proc_config) : owner_map -> list event -> Prop :=
| lo_nil own : logged configs own []
| lo_chunk own fd data id out c text ls rest : own fd = Some (id, out) -> nth_error configs id = Some c ->
    salvaged (bytes data) (bytes text) -> lines_are text ls -> logged configs own rest ->
    logged configs own (EChunk fd data :: map (ELog out (pc_name c)) (List.filter nonempty ls) ++ rest)
| lo_other own ev rest : (forall fd data, ev <> EChunk fd data) -> (forall out name line, ev <> ELog out name line) ->
    logged configs (owners_step own ev) rest -> logged configs own (ev :: rest).

(** How a program's state may change, and the effect that goes with it. *)
Inductive life (id : nat) (evs : list event) : process_type -> pstate -> pstate -> Prop :=
| li_oneshot pid : In (EStart id pid) evs -> life id evs Oneshot Blocked Running
| li_notify pid : In (EStart id pid) evs -> life id evs Notify Blocked Starting
| li_cron t pid : In (EStart id pid) evs -> life id evs (CronJob t) Sleeping Running
| li_ready pid vars : In (ENotify id pid vars) evs -> In ("READY", "1") vars -> life id evs Notify Starting Running
| li_stopping pid vars st : In (ENotify id pid vars) evs -> In ("STOPPING", "1") vars -> active st -> life id evs Notify st Stopping
| li_done t pid st : In (EEnd id pid 0) evs -> active st -> (forall x, t <> CronJob x) -> life id evs t st Done
| li_sleep x pid : In (EEnd id pid 0) evs -> life id evs (CronJob x) Running Sleeping
| li_crash t pid rc st : In (EEnd id pid rc) evs -> rc <> 0 -> active st -> life id evs t st (Crashed rc).

(** A program that acts on termination signals cinit sends: any but a notify program
    that is still starting or has announced that it stops. *)
Definition responsive (configs : list proc_config) (h : list event) (id : nat) : Prop :=
  notifier configs id -> notified h id "READY" "1" /\ ~ notified h id "STOPPING" "1".

(** The signal passed on to programs. *)
Definition forwarded (sg : signal) : signal := match sg with SIGQUIT => SIGQUIT | _ => SIGINT end.

(** What makes cinit send signal [sg]: a termination signal, or a program that failed. *)
Definition reason (ev : event) (sg : signal) : Prop :=
  match ev with
  | ESignal x => x <> SIGCHLD /\ sg = forwarded x
  | EEnd _ _ rc => rc <> 0 /\ sg = SIGINT
  | _ => False
  end.

(** Steps of programs and kernel. *)
Definition outside (o : op) : Prop :=
  match o with KFork _ | KGone _ | KAdopt _ | KExit _ _ | KWrite _ _ | KHangup _ => True | _ => False end.

(** A program ended in a way that is not exit code 0. *)
Definition failed (h : list event) (id : nat) : Prop :=
  exists h1 pid st h2, h = h1 ++ EReap pid st :: h2 /\ alive h1 id pid /\ st <> XExit 0.

(** The value of a variable of a notification. *)
Fixpoint var (vars : list (string * string)) (k : string) : option string :=
  match vars with
  | [] => None
  | (k', v) :: rest => if String.eqb k' k then Some v else var rest k
  end.

(** Dependencies of a program as seen in the history. *)
Definition deps_met (configs : list proc_config) (h : list event) (id : nat) : Prop :=
  forall u, depends configs u id -> succeeded h u \/ (notifier configs u /\ notified h u "READY" "1").

(** What an observer of the effects knows: each program's state, status text and
    main process, and which program a process is the main process of. *)
Record view := { v_state : pstate; v_status : string; v_pid : Z }.
Record book := { b_view : nat -> view; b_main : Z -> option nat }.

Definition put {A} (eqb : A -> A -> bool) {B} (f : A -> B) (x : A) (y : B) : A -> B := fun z => if eqb z x then y else f z.

Definition kind (configs : list proc_config) (id : nat) : process_type :=
  match nth_error configs id with Some c => pc_type c | None => Oneshot end.

Definition first_view (t : process_type) : view :=
  {| v_state := match t with CronJob _ => Sleeping | _ => Blocked end; v_status := ""; v_pid := 0 |}.
Definition started_view (t : process_type) (pid : Z) (v : view) : view :=
  {| v_state := match t with Notify => Starting | _ => Running end; v_status := v_status v; v_pid := pid |}.
Definition ended_view (t : process_type) (rc : Z) (v : view) : view :=
  {| v_state := if rc =? 0 then match t with CronJob _ => Sleeping | _ => Done end else Crashed rc;
     v_status := v_status v; v_pid := v_pid v |}.
Definition new_pid (vars : list (string * string)) : option Z :=
  match var vars "MAINPID" with Some v => parse_i32 v | None => None end.
Definition says (vars : list (string * string)) (k : string) : bool :=
  match var vars k with Some v => String.eqb v "1" | None => false end.
Definition notified_view (vars : list (string * string)) (v : view) : view :=
  {| v_state := if says vars "STOPPING" then Stopping
                else if says vars "READY" then match v_state v with Starting => Running | x => x end
                else v_state v;
     v_status := match var vars "STATUS" with Some x => x | None => v_status v end;
     v_pid := match new_pid vars with Some n => n | None => v_pid v end |}.

Definition book_step (configs : list proc_config) (b : book) (ev : event) : book :=
  match ev with
  | EStart id pid =>
      {| b_view := put Nat.eqb (b_view b) id (started_view (kind configs id) pid (b_view b id));
         b_main := put Z.eqb (b_main b) pid (Some id) |}
  | ENotify id _ vars =>
      {| b_view := put Nat.eqb (b_view b) id (notified_view vars (b_view b id));
         b_main := match new_pid vars with
                   | Some n => put Z.eqb (put Z.eqb (b_main b) (v_pid (b_view b id)) None) n (Some id)
                   | None => b_main b
                   end |}
  | EEnd id pid rc =>
      {| b_view := put Nat.eqb (b_view b) id (ended_view (kind configs id) rc (b_view b id));
         b_main := put Z.eqb (b_main b) pid None |}
  | _ => b
  end.
Definition first_book (configs : list proc_config) : book :=
  {| b_view := fun id => first_view (kind configs id); b_main := fun _ => None |}.
Definition book_of (configs : list proc_config) (h : list event) : book := fold_left (book_step configs) h (first_book configs).

(** The current main process of programs, and a program's state, by the history. *)
Definition main_of (configs : list proc_config) (h : list event) (pid : Z) : option nat := b_main (book_of configs h) pid.
Definition view_of (configs : list proc_config) (h : list event) (id : nat) : view := b_view (book_of configs h) id.

(** The programs whose state is [Running]. *)
Definition running_programs (configs : list proc_config) (h : list event) : list nat :=
  List.filter (fun id => match v_state (view_of configs h id) with Running => true | _ => false end) (seq 0 (length configs)).

(** * Status report *)
Definition state_word (s : pstate) : string :=
  match s with
  | Blocked => "blocked" | Sleeping => "sleeping" | Starting => "starting" | Running => "running"
  | Stopping => "stopping" | Done => "done" | Crashed _ => "crashed"
  end.

Definition exit_line (s : pstate) : list string :=
  match s with
  | Done => ["    exit_code: 0"]
  | Crashed rc => ["    exit_code: " +:+ show_Z rc]
  | _ => []
  end.

(** The lines about one program; [pid] and [next] are shown when given. *)
Definition entry_lines (name : string) (v : view) (pid : option Z) (next : option string) : list string :=
  ["  - name: '" +:+ name +:+ "'"; "    state: '" +:+ state_word (v_state v) +:+ "'"] ++
  (if String.eqb (v_status v) "" then [] else ["    status: " +:+ v_status v]) ++
  exit_line (v_state v) ++
  match pid with Some x => ["    pid: " +:+ show_Z x] | None => [] end ++
  match next with Some t => ["    scheduled_at: '" +:+ t +:+ "'"] | None => [] end.

Fixpoint unlines (l : list string) : string :=
  match l with [] => "" | x :: rest => x +:+ String "010" (unlines rest) end.

(** The process number shown for a program: the one it had last, if that is the main
    process of some program now. *)
Definition shown (configs : list proc_config) (h : list event) (id : nat) : option Z :=
  let x := v_pid (view_of configs h id) in
  match main_of configs h x with Some _ => Some x | None => None end.

(** The number a program was last started with. *)
Definition last_start (h : list event) (id : nat) (x : Z) : Prop :=
  exists h1 h2, h = h1 ++ EStart id x :: h2 /\ forall y, ~ In (EStart id y) h2.

(** No number was used for two programs. *)
Definition no_reuse (h : list event) : Prop := forall id id' x, In (EStart id x) h -> In (EStart id' x) h -> id = id'.

(** The entry of program [id]. *)
Definition entry (configs : list proc_config) (h : list event) (next : nat -> string) (id : nat) : list string :=
  match nth_error configs id with
  | None => []
  | Some c =>
      entry_lines (pc_name c) (view_of configs h id) (shown configs h id)
        (match pc_type c with CronJob _ => Some (next id) | _ => None end)
  end.

(** * Hash order *)
Definition with_order (e : env) (order : list (string * string) -> list (string * string)) : env :=
  {| e_zone := e_zone e; e_signal := e_signal e; e_status := e_status e; e_notify := e_notify e; e_order := order; e_rfc3339 := e_rfc3339 e |}.

(** Equal, except for the order in which the variables of a notification are listed. *)
Inductive similar_event : event -> event -> Prop :=
| sim_same ev : similar_event ev ev
| sim_vars id pid vars vars' : Permutation vars vars' -> similar_event (ENotify id pid vars) (ENotify id pid vars').

Definition similar (s s' : sys) : Prop :=
  s_g s = s_g s' /\ s_k s = s_k s' /\ s_pc s = s_pc s' /\ s_shut s = s_shut s' /\ Forall2 similar_event (s_hist s) (s_hist s').
