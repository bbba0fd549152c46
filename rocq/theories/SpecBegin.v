(** Specification of the messages at DEBUG level before the event loop. *)
From stdpp Require Import gmap strings.
From Coq Require Import Ascii ZArith List Bool.
From Verif Require Import Base RStr CronModel ConfigModel ProcessModel MainModel LogModel TemplModel StartModel
  SpecSched SpecConfig SpecMain SpecStart SpecRefuse.
Import ListNotations.
Local Open Scope string_scope.
Local Open Scope list_scope.

(** The messages without those at DEBUG level. *)
Definition is_debug (m : message) : bool := match fst m with LDebug => true | _ => false end.
Definition quieter (ms : list message) : list message := List.filter (fun m => negb (is_debug m)) ms.

(** The version of the kernel, if it can be told and is not too old. *)
Inductive kernel_detail (release : option string) : list string -> Prop :=
| kd_known r major minor : release = Some r -> version (utf8_lossy r) major minor -> ~ too_old release ->
    kernel_detail release ["Running on kernel version " +:+ utf8_lossy r]
| kd_old : too_old release -> kernel_detail release []
| kd_unknown : (forall r major minor, release = Some r -> ~ version (utf8_lossy r) major minor) -> kernel_detail release [].

(** The whole configuration, file after file. *)
Fixpoint glued (l : list string) : string := match l with [] => "" | s :: r => s +:+ glued r end.
Definition newline : string := String "010"%char "".
Definition complete (raw : list string) : string := "Complete configuration:" +:+ newline +:+ glued raw.

(** The first run of each cronjob, up to a timer that is refused.  [clock] are the readings
    of the clock, one for each of them. *)
Definition first_run (show : instant -> string) (c : proc_config) (u : instant) : string :=
  "Scheduled execution of '" +:+ pc_name c +:+ "' at " +:+ show u.
Inductive announced (show : instant -> string) (tz : zone) : list proc_config -> list instant -> list string -> Prop :=
| an_nil clock : announced show tz [] clock []
| an_program c r clock l : (forall s, pc_type c <> CronJob s) -> announced show tz r clock l -> announced show tz (c :: r) clock l
| an_cronjob c s d now u r clock l : pc_type c = CronJob s -> spells s d -> next_execution tz d now = Ret u ->
    announced show tz r clock l -> announced show tz (c :: r) (now :: clock) (first_run show c u :: l)
| an_refused c r clock : timer_fault c -> announced show tz (c :: r) clock [].

Definition first_socket : string := "/run/cinit.socket unix domain socket open".
Definition second_socket : string := "/run/cinit-notify.socket unix domain socket open".

(** [details show first root k r l]: the start ends with [r] and logs [l] at DEBUG level.
    [first]: if not all sockets can be set up, whether the first is. *)
Inductive details (show : instant -> string) (first : bool) (root : tree) (k : machine) : boot -> list string -> Prop :=
| de_checks v : precondition_fails k -> kernel_detail (m_release k) v -> details show first root k (Exits 5) v
| de_unread v : ~ precondition_fails k -> kernel_detail (m_release k) v -> broken (m_files k) -> details show first root k (Exits 1) v
| de_unparsed v raw s : ~ precondition_fails k -> kernel_detail (m_release k) v -> holds root raw -> In s raw -> m_yaml k s = None ->
    details show first root k (Exits 1) (v ++ [complete raw])
| de_unmerged v raw parsed : ~ precondition_fails k -> kernel_detail (m_release k) v -> holds root raw -> read_as k parsed ->
    unmergeable (concat parsed) -> details show first root k (Exits 1) (v ++ [complete raw])
| de_program v raw parsed configs c : ~ precondition_fails k -> kernel_detail (m_release k) v -> holds root raw -> read_as k parsed ->
    merged (concat parsed) configs -> In c configs -> program_fault (m_world k) c ->
    details show first root k (Exits 2) (v ++ [complete raw])
| de_analysis v raw parsed configs l : ~ precondition_fails k -> kernel_detail (m_release k) v -> holds root raw -> read_as k parsed ->
    merged (concat parsed) configs -> (forall c, In c configs -> ~ program_fault (m_world k) c) -> analysis_fails k configs ->
    announced show (m_zone k) configs (m_clock k) l ->
    details show first root k (Exits 2)
      (v ++ [complete raw] ++ l ++ if m_sockets k then [first_socket; second_socket] else if first then [first_socket] else [])
| de_setup v raw parsed configs l : ~ precondition_fails k -> kernel_detail (m_release k) v -> holds root raw -> read_as k parsed ->
    merged (concat parsed) configs -> ~ analysis_fails k configs -> m_setup k = false -> announced show (m_zone k) configs (m_clock k) l ->
    details show first root k (Exits 3) (v ++ [complete raw] ++ l ++ [first_socket; second_socket])
| de_loop v raw parsed configs a l : ~ precondition_fails k -> kernel_detail (m_release k) v -> holds root raw -> read_as k parsed ->
    merged (concat parsed) configs -> ~ analysis_fails k configs -> m_setup k = true -> announced show (m_zone k) configs (m_clock k) l ->
    details show first root k (EntersLoop configs a)
      (v ++ [complete raw] ++ l ++ [first_socket; second_socket; "setup successful"; "Entering poll loop"]).
