# Formal model of cinit in Rocq/Coq

MANIFEST.json is authoritative for theorem names and status; this file explains what
is modelled, how the properties are proved and what has to be trusted.

## Approach

The model is a set of total, executable Gallina functions that follow the Rust source
function by function; each definition cites file and lines.  Rust `Result`/`Option`
stay data; every panic path (`unwrap`, `expect`, `panic!`, indexing, `% 0`, arithmetic
underflow, `DateTime` overflow, out-of-bounds read) is the explicit value `Panic msg`
of type `outcome`.

* Hash maps: a map that is only looked up is a std++ `gmap`; wherever the code
  *iterates* over a hash map, the iteration order is an explicit argument and theorems
  quantify over all orders.
* External services (user database, process environment, template engine, YAML parser,
  file system, clock, kernel) are explicit arguments or explicit state; theorems
  quantify over all of them.
* The event loop (`ProcessManager`) is a transition system `sstep : env -> sys -> op ->
  option sys`, composed with a kernel model (children alive, ended, reaped; foreign
  processes; descriptors).  An `op` is a kernel or program action, or one step of cinit
  together with the answers of its system calls.  Theorems hold for every finite list
  of ops, i.e. every schedule, number of programs and behaviour of programs.
  Observable effects (fork, reap, kill, log line, report, exit) are recorded in a
  history; properties are stated about that history and the configuration.
* The child between fork and exec is a list of system calls run against a model of
  Linux credentials and descriptor tables; any call may fail.

Specifications live in `Spec*.v` and do not use helpers of the model beyond its data
types; `Prop*.v` contain only the final theorems, `Print Assumptions`, and for each
property an `Example` that meets the hypotheses in a non-trivial case.  A theorem whose
name ends in `_partial` proves less than the English property; one that ends in
`_refuted` gives a witness against the English property.

## Files (rocq/theories)

| Files | Content |
|-------|---------|
| Base, RStr | panics and results; Rust string functions |
| CronModel | src/runtime/cronjob.rs, with a Gregorian calendar and time zones (chrono) |
| ConfigModel | src/config/mod.rs, src/config/config_parser.rs |
| ProcessModel, EnvModel | src/runtime/process.rs (record, notifications), src/analyse/process_builder.rs |
| DepModel | src/runtime/dependency_graph.rs |
| MainModel | src/main.rs, src/startup_checks.rs, src/analyse/process_manager_builder.rs |
| SetupModel | src/analyse/process_manager_builder.rs, `setup` of src/runtime/process_manager/mod.rs, call by call |
| YamlModel | the `Deserialize` attributes of src/config/mod.rs, with the conversions of serde_yaml 0.9.34, from a YAML tree |
| NotifyModel, ManagerModel, SysModel | src/runtime/process_map.rs, src/runtime/process_manager/*, kernel |
| ReportModel | src/runtime/process_manager/status_reporter.rs, write by write |
| LogModel | src/logging/*, doc/README.md Logging |
| TemplModel | tera as described in doc/README.md, messages of src/analyse/process_builder.rs |
| ChildModel, FdModel, PtyModel | src/runtime/process.rs start/setup_child/set_user_and_caps/create_ptys/create_pipes, descriptors, terminals |
| SearchModel | execvpe(3) of the C library |
| CliModel, HarnessCliModel | src/cli_parser.rs and src/programs/harness.rs:43-93 with clap |
| HarnessModel, HarnessLifeModel, ForkerModel | src/programs/* |
| TraceModel, DebugModel | the log of the event loop, without and with DEBUG level |
| StartModel, BeginModel, SessionModel | the log before the event loop, without and with DEBUG level; whole runs |
| Spec* | specifications |
| *Proofs, Run*, ChildThms | lemmas |
| Prop* | theorems |
| RepoTests, RepoTestsCron | the tests of /repo, run on the model (no proofs) |

## Properties and how each is proved

| Id | Modelled | Proof |
|----|----------|-------|
| C01-C03 | `ProcessConfig::merge`, fold over fragments | the fold is characterised by a specification on the multiset of fragments; permutation invariance follows. C03: false for `type: notify` in a drop-in |
| C04 | `merge_dropins` with arbitrary drain order | invariant over the fold |
| C05 | `read_config` over an inductive file tree | induction on trees; false for paths that are not UTF-8 |
| C06 | `map_id` with abstract user database | case analysis |
| C07-C11 | `Process::from`, `convert_env`, `copy_from_config` with abstract environment and template engine | induction on the env list; non-interference as a two-run theorem; false for keys containing `=` |
| C12 | `with_nodes` and helpers; petgraph's `toposort` enters by its contract, which is shown satisfiable by an executable search | soundness and completeness of reachability |
| C13, C14 | `run`, `do_startup_checks` | case analysis on the whole run; crashing inputs characterised |
| C15, C16 | `parse_element`, `TimerDescription::parse` on byte strings | exact characterisation of accepted texts; C16 false for step 0 |
| C17-C20 | `get_next_execution` with an executable calendar | calendar proved against the day-successor specification; exact characterisation of when the result is not in the future, of when there is one and of when it is the earliest one (`C20_exact`, SpecExact.v: weekday, date and time of day each by a condition on the lists and the wall clock); refutations by computed witnesses |
| C21 | gap search in arbitrary zones | loop induction |
| C22, C23 | `Cron` | invariant over histories |
| C24 | cron spawn loop | false (job that stays due); termination proved when next executions lie in the future |
| C25 | `DependencyManager` | invariant: counter = number of unfinished dependency edges |
| C26-C31 | `spawn_children`, `spawn_child`, `handle_finished_child`, main loop | invariants over all schedules (RunInv, RunHist, RunFlow), stated on the history |
| C32-C36 | signals, exit code, reaping | same; false in full generality (starting/stopping programs, MAINPID, real-time signals), proved with the stated restriction |
| C37 | process state machine | every step's state change is an edge of the life cycle; state determined by effects |
| C38 | `print_child_output` with lossy UTF-8 decoding and `str::lines` | induction on bytes; history of reads against history of log lines |
| C39 | descriptor maps | invariant over all schedules |
| C40-C44 | `notify_manager` | C41 by simulation of two runs with different orders; C43 false (non-UTF-8, 4096 bytes and more, no NUL), crashing datagrams characterised; C44 false for other programs' processes |
| C45, C46 | `format_report` | induction over programs; C46 false by reuse of process numbers |
| C47, C48, C50, C51 | `setup_child`, `set_user_and_caps` over Linux credentials | inversion of the sequence of calls for arbitrary sets; forward execution for C50 |
| C49 | descriptors of cinit and its children | invariant over all histories of opening and closing |
| C52 | `start`, `setup_child` | false: descriptors 1 and 2 are closed when `setup_child` returns |
| C53 | dispositions (Rust runtime) | false: SIGPIPE is ignored; exact set given |
| C54 | main loop, `spawn_children`, dependency counters | invariant: nothing runnable is left when cinit polls; the released programs are those whose dependencies are completed |
| C55 | main loop | potential function over states (bytes and streams left, position in the loop) that every round decreases; false after a death by real-time signal (the loop never ends) |
| C56-C58 | `initialise` (log4rs rules as documented), stdout/stderr appenders | log of an execution as a function of its history; uniqueness of splitting into lines and of reading an entry; C57 false for names with `]` or LF and for a program called cinit; C58 false for -vvv |
| C59 | report text of C45 | no line feed survives in a status; false for YAML readers with a bare carriage return |
| C60, C61 | `start`, `create_std_fds`, `create_ptys`, `create_pipes` call by call with failing calls | relation "these descriptors were opened" kept by every call and undone by dropping; simulation by the coarser FdModel |
| C62 | line discipline (OPOST, ONLCR) followed by `print_child_output` | removing the carriage returns commutes with decoding and splitting into lines; false for reads that end between CR and LF |
| C63-C65 | `ProcessManager::from`, `setup_file_descriptors`, `setup`, `run` over file names, descriptors, signal mask | symbolic execution of every call for arbitrary answers; refinement to MainModel; C64 false for epoll_create, C65 for dependency and timer errors |
| C66-C68 | `decode_program`, `decode_config` | each conversion is shown equivalent to a relation written after the manual; reading is sound and complete for it; C67 false: unknown options are dropped silently |
| C69 | event loop | invariant over all steps: programs are kept up to state, process number and status |
| C70 | YamlModel, reading and merging of files, `process_from`, event loop and `setup_child`, joined | a unique position in the files gives a unique fragment and that a unique program; C66, C13, C69, C47 and C48 composed; for documents and entries written as mappings (serde also takes other forms), which is a hypothesis |
| C71 | set-up, event loop and descriptor table, joined (SpecBoot) | induction over the joint executions: the table is determined by the history; `C71_states` shows that joint states are states of each part, `C71_nothing_lost` that joining them excludes no step of the event loop whose new descriptors are unused; the end uses that the loop ends only without streams |
| C72 | `write_report` and `write_all`, call by call (ReportModel), joined to the report of the event loop | induction on the answers of write(2) and on the fragments; false for a client that does not read: writes to the accepted connection block (Linux accounts several hundred bytes for each of the small writes, so a few dozen programs suffice) |
| C73 | the child (ChildModel) and the event loop (SysModel), joined by what the event loop sees of a child with a given fate (SpecFail) | `C48_all_or_nothing` for the child; for the event loop: the number of a started process is not reused before it is reaped, the books of processes stay as they are until then, and what follows a failed end (C29, C30) |
| C74 | the call of `execvpe` at the end of `setup_child` (SearchModel, after the GNU C library), joined to the child (ChildModel) | induction over the elements of PATH; elements characterised as the unique colon-free parts |
| C75 | `parse_arguments` with clap's reading of the two declared options (CliModel), and its use in `run` | a grammar of command lines as an inductive relation; both inclusions by induction on the relation and on the arguments |
| C76 | `Cron::with_jobs`, `pop_runnable`, `get_next_execution` and `spawn_children` in executions of the event loop (CronModel, SysModel) | invariant: each job is scheduled at the next time computed from its last reading of the clock; joined to C17, C18, C20 and C30 (`C76_any_on_time_partial`: with the exact conditions of C20 at the last reading, for all timers; `C76_left_out`, `C76_held`: where they fail, the first time is left out, or cinit does nothing else until midnight). Refuted for cronjobs alone, and for timers that C18 and C20 refute |
| C77 | the line `scheduled_at` of `format_report` | same invariant, joined to C45 |
| C78 | `render_template` with tera for text and `{{ NAME }}` (TemplModel), `copy_from_config`, the arguments | the parser is shown to read what the specification prints; joined to C09 and C10. Refuted for variables named like pages, whose values are HTML-escaped |
| C79 | the messages of `copy_from_config`, `treat_template_error_in_argument` and `Process::from` (`build`) | erasing the messages gives `process_from`; one group of messages per entry and argument, by induction. Refuted: a warning says that the raw value is used when it is not |
| C80 | `get_default_env`, `sanitise_env` | from C07; refuted for HOME, PWD, USER, LOGNAME and SHELL, which are not forwarded |
| C81 | `TraceModel.v`: every message above DEBUG of the handlers in process_manager/, process.rs and notify_manager.rs, one list of lines per step of `sstep` | the lines of a step are those of its effects (by cases on the step, using the views of C29 for the words and numbers shown), then induction over executions; C56 gives the text on stdout |
| C82 | as C81 | induction over the log. Refuted by two executions: a status is not shown without -v although the manual says that cinit logs it; a skipped cronjob likewise |
| C83 | as C81 | induction over the log, exit code by the invariant of C31. Refuted: exit code 9 and signal 9 give the same log |
| C84 | as C81 | invariant over executions with the flags of the loop. Refuted: "Received termination signal" is logged when a program fails |
| C85 | `StartModel.v`: every message above DEBUG of startup_checks.rs, config_parser.rs, process_manager_builder.rs and main.rs, beside the computation of `MainModel.v`; file names are added to the tree of `ConfigModel.v` | `SpecStart.v` lists the reasons with what each supposes of the machine; per phase: no INFO, only true ERRORs, at least one exactly if the phase fails; forgetting the messages gives `run`. Refuted: the wording of two reasons |
| C86 | as C85 | from the result of reading, all files are in the list of parse errors. Refuted: the file is not named; of two faulty programs one is reported |
| C87 | as C81 | `SpecWarn.v` gives the lines of one operation from the operation, the answer of the kernel and the effects before it; by cases on the step, then induction over executions |
| C88 | as C85 | for a start that succeeds the log is computed phase by phase; the ignored files by induction on the tree |
| C89 | `TimerDescription::parse`, `parse_element` | `SpecFault.v` describes faults by grammar; equivalence with the parser's result per item, field and expression; also gives the exact condition for the crash of C16. The reason about timers in C85 refers to it |
| C90 | `SessionModel.v`: main.rs with the command line of `CliModel.v`, the messages of `StartModel.v` and those of `TraceModel.v`, shown by `LogModel.v`. A panic ends no session | C85 and C83 carried through the filter of C56: an ERROR of cinit is hidden at no verbosity |
| C91 | as C90 | from the list of errors in C83. Refuted: no process can be forked, cinit logs two errors and ends with 0 |
| C92 | as C85 | `SpecRefuse.v`: an inductive relation with one clause per phase, each with what the earlier phases supposed; the log is followed phase by phase as in C88, the first fault by induction on the list or tree |
| C93 | `DebugModel.v`: the messages of C81 together with those at DEBUG level, one list of lines per step of `sstep` | `SpecDebug.v`: an inductive relation with one clause per kind of operation; by cases on the step, using the views of C29 and the invariants for dependencies and timers, then induction over executions; dropping the DEBUG lines gives `TraceModel.v` by computation |
| C94 | as C81 and C93 | every text above DEBUG is put together from names, numbers, words and single lines of datagrams (by cases on the clauses of C87); refuted with -v by a forged line of a stranger |
| C95 | `BeginModel.v`: the messages of C85 together with those at DEBUG level | `SpecBegin.v`: one clause per way in which the start can end, in terms of `SpecMain.v` and `SpecRefuse.v`; by following the computation; dropping the DEBUG messages gives `StartModel.v` by computation |
| C96 | `BeginModel.v`: `SessionModel.v` with all levels | C95 for the message, C58 and C93 for the way to stdout; the converse by induction over the records |
| C97 | as C95 | induction over the cronjobs with the invariant of the timer map; refuted by two equal timers |
| C98 | `get_next_execution` in arbitrary zones | within three days of no change the result is that of a zone with a fixed offset (agreement of all searches), C17-C20 then apply (`C98_exact_partial`; `C98_chosen_partial` also for timers with both restrictions, whose search for the date may run past the next change); refuted in Berlin 2021 |
| C99 | C76 with arbitrary zones | as C76 with C98, for all timers with the conditions of C98 at the last reading (`C99_any_on_time_partial`, `C99_any_never_early_partial`); the state at the cronjob loop with a time in the past is an invariant of all steps |
| C100 | as C70 | the fragments of a name are listed with their positions in the files and related one to one to the entries; C02, C03 on these; the child as for C70 |
| C101 | `HarnessModel.v`: the pieces `dump` in programs/harness.rs writes, a panic ending the list; the process is a record of what the kernel tells it | `SpecHarness.v`: the file as a list of lines, capabilities in any order; reading back by cutting the file into lines (only in one way) and these into runs of lines with six blanks. Refuted: an argument with a quote and a line feed looks like two |
| C102 | C100 and C101 together | the fields of the process are those of the child of C100; the terminal by C03 |
| C103 | `HarnessLifeModel.v`: `main` of programs/harness.rs as a list of jobs; before each, signals arrive and kill, wait or do nothing; calls fail as the system likes | `SpecHarnessLife.v`: how far it may have come, what it needs, its code; induction over the jobs. With C48 (nothing is blocked) and C53 for a harness started by cinit |
| C104 | `ForkerModel.v`: parent, handler, child and others as a transition system; two seconds are any number of ticks | invariants over the list of events; a weight that every event but a foreign signal decreases |
| C105 | `HarnessCliModel.v`: clap's reading of the options declared in programs/harness.rs:43-93, in front of C103 | `SpecHarnessCli.v`: a grammar of command lines as for C75; both inclusions; with C103 from the command line to the end, also as a program of cinit. Refuted: readiness only with its flag |

## Findings (theorems ending in `_refuted`)

* A drop-in of type `notify` is accepted and ignored (C03); fragments without any path
  depend on file order (C01); a path that is not UTF-8 panics (C05); an env key with `=`
  yields duplicate variables (C08); a NUL byte panics (C10, C13).
* Cron: step 0 panics (C16); a single weekday later the same day yields a time not in
  the future (C18) and starves other jobs (C24); the 31st panics from a short month
  (C19); years are skipped; minutes, hours and days are not reset when a larger unit advances; `0 0 * 2 *` goes from 28 February to the next 29 February (C20).
* If fork fails for every program, cinit exits with 0 and nothing ran (C28, C91).
* A child killed by a real-time signal ends the reaping round and is never noticed
  (C32, C34, C36); cinit then never exits (C55).  If its number is reused, cinit may exit
  with 0 though programs never ran (C28).
* Notify programs in starting or stopping state are not signalled (C33).
* MAINPID accepts any number: -1, 1, other programs' processes (C34, C35, C40, C44, C46).
  cinit then exits with 0 though a program failed or never ran (C28, C32), or never exits (C55).
* Datagrams that are not UTF-8 or too long crash cinit (C43).
* CAP_SETFCAP is needed for every program (C50); the message `Could not exec child` is
  never visible, because `setup_child` has closed descriptor 1 before (C52); programs
  run with SIGPIPE ignored (C53).
* The harness looks for signals while it waits, but blocks none; as a program of cinit a
  signal kills it (C103).  Its return code counts modulo 256.  It announces readiness with
  or without `--ready`: clap gives the flag the value false by default, and `contains_id`
  is true of that; without cinit's socket it cannot run at all (C105).
* A report connection is closed twice (explicitly and when `File` is dropped); harmless
  in this single-threaded program, as the second close finds no descriptor (C49).
* `-vvv` shows less than `-vv` (C58); log entries are ambiguous for names with `]`, line
  feeds, or a program called cinit (C57); a carriage return in STATUS forges entries of
  the YAML report (C59).
* Without a terminal of its own cinit leaves the default ONLCR on for `pty` programs;
  stray carriage returns reach the log (C62).
* A configuration with a dependency cycle or a bad timer is refused only after the
  sockets at /run have been replaced: a second cinit started by mistake takes the
  status and notify sockets away from the first (C65).  If epoll_create fails cinit
  panics instead of exiting with a code (C64).
* A program given by a bare name is looked up in cinit's PATH, not in the PATH configured
  for it (C74).
* Scheduled cronjobs do not keep cinit alive: when no process of a program is left and
  nothing else can be started, cinit exits with 0, so a configuration of cronjobs only
  ends after about a second without running any of them (C76).
* A value with braces in it is used after instantiation, although the warning says "cinit
  will use raw value" (C79); the value of a variable called `*.html` is HTML-escaped (C78).
* The manual says that HOME, LOGNAME, PWD, SHELL and USER are forwarded from cinit; they
  are set from the user database.  A comment in the code says that PWD is the working
  directory; it is the home directory (C80).
* "STATUS=...: cinit will log the published status" (manual) holds with -v or -vv only; that
  a cronjob is skipped shows only with these, too (C82).  "Received termination signal" is
  logged when a program fails though no signal came (C84).  The message about a failed
  program does not say whether the number is an exit code or a signal (C83).  If a stream
  cannot be registered at epoll the warning says "Could not unregister fd" (mod.rs:338).
* With -v the text of every datagram is written to the log as it is, even when it comes
  from a stranger: a line feed in it forges entries of other programs (C94).  With -v the
  complete configuration, secrets included, goes to stdout, too (C96).  Of several
  cronjobs due at the same time all but one are scheduled some nanoseconds later than the
  log announces (C97).
* Daylight saving (zone Berlin, 2021): `30 23 * * *` does not run on the day on which the
  clocks go forward; `30 0 * * *` is due without end from 00:30 to 01:00 on the day on
  which they go back, and cinit does nothing else meanwhile; `30 0 * * 1,2` then runs on a
  Sunday; `* * * * *` does not run in the repeated hour, and a cinit started in it is held
  up until its end (C98, C99).  Cause: days are added as 24 hours.
* The log before the event loop: a drop-in "changes type to cronjob" though the program is
  one already; "Cronjobs may not have dependencies" though `after` is accepted (C85).  The
  file that does not parse is not named, and of several faulty programs an arbitrary one
  is reported (C86).
* Options that are not in the manual are dropped without a message: with `usr: nobody`
  instead of `user: nobody` the program runs as root (C67).

## Trusted base

* Coq 8.16.1's kernel (including `vm_compute`).
* `Print Assumptions` answers "Closed under the global context" for every theorem named
  in MANIFEST.json: no axioms, neither own nor from libraries.  (The libraries loaded,
  std++ and Coq's ssreflect, contain the module `Coq.ssr.ssrunder`, whose seven
  parameters of the sealed module `Under_rel` a checker may list; no theorem uses them.)
* The fidelity of the reading of the Rust code, and the models of libraries and kernel:

  The reading is checked by running the authors' own tests on the model: all 47 unit
  tests of cronjob.rs, the unit tests of config/mod.rs, config_parser.rs,
  dependency_graph.rs and process_builder.rs, and the 31 system tests (from the YAML
  trees of their configurations to exit code, arguments, environment, credentials and
  the order of messages) hold of it; only those of util/libc_helpers.rs have no
  counterpart.  They are tests, and no theorem depends on them.

| Part | What is assumed |
|------|-----------------|
| Rust std | strings are their UTF-8 bytes; `char` classes used are ASCII except `lines`/lossy decoding, which are modelled on bytes; `println!` to a closed descriptor 1 is no error; leaving a scope drops `OwnedFd` and closes; SIGPIPE is ignored by the runtime |
| hash maps | iteration order arbitrary, even between two iterations |
| serde/YAML | C05 and C13: the parser is an arbitrary function from file contents to a parsed configuration or error; C66-C68: serde_yaml 0.9.34 and serde_derive as far as known without their sources, which are not available here, and checked only against the examples of the manual and system-tests; open are whether an empty value counts as an empty list or mapping, what is made of a list in place of a mapping, and the order of a HashMap (one permutation per map) |
| chrono | proleptic Gregorian calendar; a zone is a function from UTC seconds to offset; local-to-UTC resolution by the set of matching instants, of two the earlier one (as the test at cronjob.rs:829-842 demands; C21 and `C98_repeated_hour_refuted` depend on it); date range errors are panics |
| nix, libc | users, groups, environment are arbitrary functions; waitpid reports exit, signal (unknown for real-time signals), or nothing |
| petgraph | `toposort` reports an error exactly if there is a cycle (contract `finds_cycles`) |
| template engine (tera) | arbitrary function, may fail; C78 and the examples of C79: tera 1.20.0 as documented for text, for `{{ NAME }}` with a name of capital letters, digits and underscores, for expressions that are not closed, and for the escaping of templates called `*.html`, `*.htm`, `*.xml`; nothing is supposed about other templates |
| Linux | process numbers of live or unreaped processes are not reused; waitpid collects any ended child; kill reaches the named live process or fails; epoll reports arbitrary ready descriptors; capabilities as in capabilities(7) and security/commoncap.c for executables without file capabilities or set-id bits |
| clap 4.5 | options of one letter may be clustered, values attached with or without `=`; values do not begin with a dash unless attached; a repeated `--config` and unknown or surplus arguments are errors with exit code 2, found in the order of the arguments; counts saturate at 255; an argument with `num_args(0)` and no action is a flag with the value false by default, one with another number of values may be given once; `contains_id` is true of defaults; with `trailing_var_arg` nothing is an option after the first other argument |
| caps crate 0.5.5 | `set` for permitted/effective/inheritable replaces one set and writes all three; `set` for ambient raises or lowers each of the 41 capabilities in turn |

## Not modelled

* log4rs itself (its configuration and output rules are modelled
  as documented; panics bypass the log), build.rs, the YAML syntax and tags, the template language beyond C78.
* In SysModel a report is one effect, and writing the log takes no time: the liveness
  properties (C36 and others) suppose that these writes return; see C72.
* Texts of errors of the kernel and of libraries (arbitrary).
* Terminals: input, output flags other than OPOST and ONLCR, control characters.
* One op of the transition system covers one handler: signals sent in one loop over the
  programs, or the messages of one datagram, are not interleaved with programs' steps
  except for the answers the kernel gives, which are arbitrary.
* Elements of PATH of 4096 bytes and more (C74); outside of C74 `h_exec` stands for the
  whole search of `execvpe`.
* SIGCHLD is assumed not to be ignored when cinit is started: with it ignored Linux
  discards ended children and cinit would wait for them for ever.
