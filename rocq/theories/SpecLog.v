(** Specification of what appears on cinit's stdout and stderr. *)
From stdpp Require Import gmap strings.
From Coq Require Import Ascii ZArith List Bool.
From Verif Require Import Base RStr SpecStr SpecText ProcessModel ManagerModel LogModel.
Import ListNotations.
Local Open Scope string_scope.
Local Open Scope list_scope.
Local Open Scope Z_scope.

(** A time stamp such as 1970-11-23T13:25:44.567 *)
Definition stamp (t : string) : Prop := free_of " " t /\ free_of line_feed t.

(** A log message of any other part of cinit or of its libraries *)
Definition own_message (r : record) : Prop :=
  stamp (r_time r) /\ forall rest, r_target r <> ("cinit::logging::stdout" +:+ rest)%string /\ r_target r <> ("cinit::logging::stderr" +:+ rest)%string.

(** The records of an execution: one for each line logged for a program, in order, and
    any messages of cinit in between. *)
Inductive said : list event -> list record -> Prop :=
| sd_nil : said [] []
| sd_program t out name line h rs : stamp t -> said h rs -> said (ELog out name line :: h) (child_record t out name line :: rs)
| sd_own r h rs : own_message r -> said h rs -> said h (r :: rs)
| sd_other ev h rs : (forall out name line, ev <> ELog out name line) -> said h rs -> said (ev :: h) rs.

(** The documented format (without the line end) *)
Definition level_text (l : level) : string :=
  match l with LError => "ERROR" | LWarn => "WARN" | LInfo => "INFO" | LDebug => "DEBUG" | LTrace => "TRACE" end.
Definition log_entry (t : string) (l : level) (name text : string) : string :=
  t +:+ " " +:+ level_text l +:+ " [" +:+ name +:+ "] " +:+ text.

(** The documented thresholds *)
Definition documented (verbosity : Z) (l : level) : Prop :=
  l = LError \/ l = LWarn \/ l = LInfo \/ (l = LDebug /\ 1 <= verbosity) \/ (l = LTrace /\ 2 <= verbosity).

(** A text made of lines that each end with LF; the lines themselves may be anything. *)
Fixpoint each_ended (ls : list string) : string :=
  match ls with [] => "" | l :: r => l +:+ String line_feed (each_ended r) end.

(** The entries of the programs on one stream, in order; one time stamp each. *)
Inductive program_entries (stream : bool) : list event -> list string -> Prop :=
| pe_nil : program_entries stream [] []
| pe_here t name line h es : stamp t -> program_entries stream h es ->
    program_entries stream (ELog stream name line :: h) (log_entry t LInfo name line :: es)
| pe_there ev h es : (forall name line, ev <> ELog stream name line) -> program_entries stream h es -> program_entries stream (ev :: h) es.

(** What stdout shows: the entries of the programs' stdout, and those of cinit's own
    messages that are important enough, in order. *)
Inductive stdout_entries (verbosity : Z) : list record -> list string -> Prop :=
| se_nil : stdout_entries verbosity [] []
| se_program t name line rs es : stdout_entries verbosity rs es ->
    stdout_entries verbosity (child_record t true name line :: rs) (log_entry t LInfo name line :: es)
| se_stderr t name line rs es : stdout_entries verbosity rs es -> stdout_entries verbosity (child_record t false name line :: rs) es
| se_shown r rs es : own_message r -> documented verbosity (r_level r) -> stdout_entries verbosity rs es ->
    stdout_entries verbosity (r :: rs) (log_entry (r_time r) (r_level r) "cinit" (r_text r) :: es)
| se_hidden r rs es : own_message r -> ~ documented verbosity (r_level r) -> stdout_entries verbosity rs es -> stdout_entries verbosity (r :: rs) es.

(** A text is cut into physical lines in only one way. *)
Inductive physical_lines : string -> list string -> Prop :=
| pl_nil : physical_lines "" []
| pl_line l rest ls : free_of line_feed l -> physical_lines rest ls -> physical_lines (l +:+ String line_feed rest) (l :: ls).

(** Lines as YAML sees them: LF, CR or CR LF ends a line. *)
Inductive yaml_lines : string -> list string -> Prop :=
| yl_last l : free_of line_feed l -> free_of carriage_return l -> yaml_lines l [l]
| yl_lf l rest ls : free_of line_feed l -> free_of carriage_return l -> yaml_lines rest ls -> yaml_lines (l +:+ String line_feed rest) (l :: ls)
| yl_cr l rest ls : free_of line_feed l -> free_of carriage_return l -> (forall r, rest <> String line_feed r) ->
    yaml_lines rest ls -> yaml_lines (l +:+ String carriage_return rest) (l :: ls)
| yl_crlf l rest ls : free_of line_feed l -> free_of carriage_return l -> yaml_lines rest ls ->
    yaml_lines (l +:+ String carriage_return (String line_feed rest)) (l :: ls).
