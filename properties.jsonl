{"id": "C01", "title": "Drop-in merging does not depend on file discovery order", "statement": "Take all configuration fragments that share one program name, one of them (at least) carrying a path. Whatever order the files are discovered in, either every order is rejected or every order is accepted, and all accepted orders give the same path, type, workdir, uid, gid, user, group, pty flag and the same before, after and capabilities lists.", "quantifier": "all non-empty lists of fragments with the same name, all permutations of them, all field values", "why_tests_cant": "The order comes from read_dir and from how many files exist; tests fix one order and two fragments, while the fold over n fragments has n! orders and two argument positions per merge.", "anchors": ["src/config/mod.rs: ProcessConfig::merge, prune_duplicates", "src/config/config_parser.rs: merge_dropins"]}
{"id": "C02", "title": "Merged list fields are exactly what the manual promises", "statement": "When merging succeeds, args is the args of the fragment containing path followed by the other fragments' args as whole uninterrupted blocks; env is likewise a concatenation of whole blocks; before, after and capabilities contain exactly the union of all fragments' entries without duplicates (whenever at least two fragments were merged); pty is the disjunction; workdir/uid/gid/user/group are the single value given anywhere.", "quantifier": "all lists of fragments of one program, in any order", "why_tests_cant": "Unit tests merge two fixed fragments; the claim is about arbitrarily long sequences of merges in which the path-carrying fragment may come at any position.", "anchors": ["src/config/mod.rs: ProcessConfig::merge", "src/config/config_parser.rs: merge_dropins", "doc/README.md: Merging configuration"]}
{"id": "C03", "title": "Merging rejects exactly the documented conflicts", "statement": "A set of fragments for one program is rejected iff two fragments give a path, or two fragments give the same one of workdir/uid/gid/user/group, or a fragment without path declares a type other than oneshot.", "quantifier": "all lists of fragments of one program with exactly one or more path-carrying fragments, in any order", "why_tests_cant": "Which of the pairwise checks fires depends on the accumulated partial merge; tests only check single pairwise conflicts.", "anchors": ["src/config/mod.rs: ProcessConfig::merge, MergeError", "src/config/config_parser.rs: merge_dropins", "doc/README.md: type"]}
{"id": "C04", "title": "Program names are unique after loading and no program is lost or invented", "statement": "For every loaded configuration that is accepted, the resulting program list has pairwise different names, and its set of names is exactly the set of names mentioned in the files; consequently the later 'Duplicate name' panic is unreachable, whatever order the hash map yields the programs in.", "quantifier": "all configurations (lists of fragments with arbitrary names) and all hash map iteration orders", "why_tests_cant": "Hash iteration order is randomised per run; a test sees one order.", "anchors": ["src/config/config_parser.rs: merge_dropins", "src/runtime/dependency_graph.rs: build_name_dict"]}
{"id": "C05", "title": "Configuration directory traversal reads every file exactly once or fails", "statement": "Given a configuration root, loading yields the contents of exactly the regular files at any depth below it (each once, special files ignored); if any file, directory or entry is unreadable or any file is not parseable, loading fails with exit code 1 and no partial configuration is used.", "quantifier": "all directory trees of any depth and width, with failures at any position", "why_tests_cant": "The claim ranges over all trees and all failure positions.", "anchors": ["src/config/config_parser.rs: read_config, parse_raw_config, parse_config", "src/config/mod.rs: Config::merge"]}
{"id": "C06", "title": "User and group resolution", "statement": "A program runs as the user given by uid, or by user name, or as root if neither is given; it is rejected iff both are given or the given one does not exist in the user database. The same holds for the group.", "quantifier": "all optional ids and names, all user databases (including lookup failures)", "why_tests_cant": "Tests depend on one machine's passwd file.", "anchors": ["src/analyse/process_builder.rs: map_id, map_uid, map_gid"]}
{"id": "C07", "title": "The nine well-known environment variables are always present and sanitised", "statement": "Every started program's environment contains HOME, LANG, LANGUAGE, LOGNAME, PATH, PWD, SHELL, TERM and USER. Unless the program's env list overrides them, HOME and PWD are the target user's home directory, USER and LOGNAME the target user's name, SHELL is /bin/sh, and LANG, LANGUAGE, PATH, TERM are forwarded from cinit (empty if unset there).", "quantifier": "all cinit environments, users and env lists", "why_tests_cant": "The environment of cinit is unbounded input.", "anchors": ["src/analyse/process_builder.rs: get_default_env, sanitise_env, convert_env"]}
{"id": "C08", "title": "cinit's own environment does not leak", "statement": "A variable reaches a program's environment only if it is one of the nine well-known ones, is named in the program's env list, or is NOTIFY_SOCKET for a notify program; the environment has at most one entry per variable; and the whole result depends on cinit's own environment only through LANG, LANGUAGE, PATH, TERM and the variables listed in env without a value.", "quantifier": "all pairs of cinit environments and all env lists", "why_tests_cant": "Non-interference is a statement about pairs of runs over all environments.", "anchors": ["src/analyse/process_builder.rs: convert_env, copy_from_config, flatten_to_strings, Process::from"]}
{"id": "C09", "title": "Environment list semantics", "statement": "The env list is processed in order: an entry with a value binds the variable to the template rendered with everything bound so far (or the raw text if rendering fails), an entry without a value forwards cinit's value and is skipped when cinit has none; the last entry for a variable that binds it wins; variables not mentioned are unchanged.", "quantifier": "all env lists, all template engine behaviours, all cinit environments", "why_tests_cant": "Ranges over all lists, orders and template outcomes.", "anchors": ["src/analyse/process_builder.rs: copy_from_config, render_template"]}
{"id": "C10", "title": "Program arguments", "statement": "A started program receives its path as argument 0 and then exactly one argument per configured arg, in order, each rendered against the program's final environment or passed verbatim if rendering fails. No configured arg is dropped, duplicated or reordered.", "quantifier": "all arg lists and template behaviours", "why_tests_cant": "Ranges over all lists and template outcomes.", "anchors": ["src/analyse/process_builder.rs: Process::from, treat_template_error_in_argument"]}
{"id": "C11", "title": "Notify programs always get cinit's notify socket", "statement": "Every notify program sees NOTIFY_SOCKET=/run/cinit-notify.socket whatever its env list says; programs of other types see NOTIFY_SOCKET only if their env list asks for it.", "quantifier": "all program configurations", "why_tests_cant": "Ranges over all env lists.", "anchors": ["src/analyse/process_builder.rs: Process::from", "src/analyse/process_manager_builder.rs: NOTIFY_SOCKET_PATH"]}
{"id": "C12", "title": "Dependency validation is exact", "statement": "A configuration's dependencies are accepted iff every name in before/after exists, no program lists a cronjob in after, and the before/after relation has no cycle (including a program depending on itself). The error names a real offender: the program and list position of an unknown reference, a program that depends on a cronjob, or a program on a cycle.", "quantifier": "all configurations with unique names, all hash map iteration orders", "why_tests_cant": "Graphs of any size; acyclicity is a global property.", "anchors": ["src/runtime/dependency_graph.rs: with_nodes, validate_references, build_dependencies, check_for_cycles, build_name_dict"]}
{"id": "C13", "title": "Bad configurations never start anything and the exit code tells the phase", "statement": "If preconditions fail cinit exits 5; if loading fails it exits 1; if analysis fails it exits 2; if runtime setup fails it exits 3. In all these cases no program has been started.", "quantifier": "all configurations and environments", "why_tests_cant": "Must hold for every kind of invalid configuration, including those no test lists.", "anchors": ["src/main.rs: run", "src/analyse/process_manager_builder.rs: ProcessManager::from, build_dependency_manager, build_cron", "src/runtime/process_manager/mod.rs: start, setup"]}
{"id": "C14", "title": "Startup precondition check", "statement": "cinit refuses to start iff it does not run as root or the kernel release parses as a version older than 4.3; an unparseable release never blocks startup.", "quantifier": "all kernel release strings and user ids", "why_tests_cant": "Unbounded strings.", "anchors": ["src/startup_checks.rs: do_startup_checks, check_kernel_version, check_user"]}
{"id": "C15", "title": "Cron expressions mean what they say", "statement": "A cron field built from *, numbers, ranges, steps and comma lists is accepted exactly when all its numbers are in the field's range and ordered, and then denotes exactly the union of its parts (a-b/s being a, a+s, a+2s, ... up to b). Whatever text is accepted, the denoted set is non-empty and inside the field's range. A timer has exactly five fields separated by arbitrary white space.", "quantifier": "all field expressions, all texts, all ranges", "why_tests_cant": "Unbounded strings and all sizes of lists.", "anchors": ["src/runtime/cronjob.rs: parse_element, TimerDescription::parse"]}
{"id": "C16", "title": "Malformed cron expressions are rejected, never crash", "statement": "For every text, analysing a cron expression either yields a timer or an error that makes cinit exit with code 2; it never panics.", "quantifier": "all texts", "why_tests_cant": "Unbounded strings.", "anchors": ["src/runtime/cronjob.rs: parse_element (line 275)", "src/analyse/process_manager_builder.rs: build_cron"]}
{"id": "C17", "title": "A cronjob's next execution matches its expression", "statement": "The next execution computed for a cronjob has a minute and hour contained in the expression, and falls on a day whose weekday, or whose day-of-month and month, are contained in the expression (day-of-month/month only when weekday is unrestricted, weekday only when both others are unrestricted), seconds being zero.", "quantifier": "all expressions, all starting instants (time zones with constant offset)", "why_tests_cant": "Infinitely many instants and expressions; a test covers a handful of dates.", "anchors": ["src/runtime/cronjob.rs: TimerDescription::get_next_execution"]}
{"id": "C18", "title": "A cronjob's next execution lies strictly in the future", "statement": "The next execution computed from an instant is strictly later than that instant.", "quantifier": "all expressions and instants, all time zones", "why_tests_cant": "Fails only for particular combinations of weekday, time of day and expression (or time zone transition) that the fixed instant of the tests does not hit.", "anchors": ["src/runtime/cronjob.rs: get_next_execution (lines 100-107, 134-140), Cron::pop_runnable"]}
{"id": "C19", "title": "A satisfiable cron expression always gets a next execution", "statement": "If some calendar day satisfies the day-of-month and month fields, computing the next execution terminates normally.", "quantifier": "all satisfiable expressions and all starting instants", "why_tests_cant": "Depends on the starting date; tests use 15 June.", "anchors": ["src/runtime/cronjob.rs: get_next_execution (lines 109-150)"]}
{"id": "C20", "title": "No scheduled execution is skipped", "statement": "The next execution is the earliest instant after the starting instant that matches the expression.", "quantifier": "all expressions and starting instants", "why_tests_cant": "Minimality is a universally quantified statement over all intermediate instants.", "anchors": ["src/runtime/cronjob.rs: get_next_execution"]}
{"id": "C21", "title": "Daylight-saving gaps and folds", "statement": "If the nominal local time does not exist, the execution happens at the first existing local minute after it; if it exists once or twice it happens at that local time (the first of the two), and never before the nominal day's local time.", "quantifier": "all time zones (any finite list of offset changes), all nominal local times", "why_tests_cant": "Tests know one zone and two dates.", "anchors": ["src/runtime/cronjob.rs: get_next_execution (lines 163-199)"]}
{"id": "C22", "title": "The cron scheduler never loses or duplicates a job", "statement": "After construction and after any sequence of due-job queries, every cronjob has exactly one scheduled instant and no other program has one, even if many jobs fall on the same instant; asking for a job's next execution never fails.", "quantifier": "all sets of cronjobs, all histories of queries at arbitrary clock readings", "why_tests_cant": "Collisions depend on history; needs an invariant over all histories.", "anchors": ["src/runtime/cronjob.rs: Cron::with_jobs, pop_runnable, insert_job, get_next_execution"]}
{"id": "C23", "title": "Due-job queries return only due jobs, earliest first", "statement": "A query at time now returns a job iff some job is scheduled at or before now; the returned job is one with the earliest scheduled instant; it alone is rescheduled, to its next execution computed from now, moved by at most (number of jobs) nanoseconds to avoid collisions; all other schedules stay unchanged.", "quantifier": "all scheduler states and clock readings", "why_tests_cant": "All states and histories.", "anchors": ["src/runtime/cronjob.rs: Cron::pop_runnable, insert_job"]}
{"id": "C24", "title": "Cron scheduling never starves the event loop", "statement": "Between two reaping/signal handling rounds cinit starts or skips each cronjob finitely often: the loop that starts due cronjobs always terminates.", "quantifier": "all sets of cronjobs, all clock readings", "why_tests_cant": "Non-termination needs a clock reading on the job's own weekday after its time of day, or inside a DST fold.", "anchors": ["src/runtime/process_manager/mod.rs: spawn_children", "src/runtime/cronjob.rs: Cron::pop_runnable"]}
{"id": "C25", "title": "Dependency bookkeeping", "statement": "For every history of completion notices, a program is handed out for starting exactly once, and exactly when all programs it depends on have been reported complete (immediately if there are none); repeated reports of the same program have no effect; the counters never underflow, whether a dependency is declared once, twice, or from both sides.", "quantifier": "all accepted configurations, all sequences of completion reports and requests", "why_tests_cant": "All graphs and all completion orders.", "anchors": ["src/runtime/dependency_graph.rs: DependencyManager::pop_runnable, is_runnable, has_runnables, notify_process_finished, find_initial_runnables"]}
{"id": "C26", "title": "Start order respects dependencies", "statement": "In every execution, when a program is started, every program it depends on has completed before: a oneshot has exited with code 0, a notify program has reported READY=1 or exited with code 0.", "quantifier": "all accepted configurations and all schedules of forks, exits, notifications, signals, clock readings", "why_tests_cant": "All interleavings.", "anchors": ["src/runtime/process_manager/mod.rs: start, spawn_children, handle_finished_child", "src/runtime/dependency_graph.rs", "src/runtime/process_manager/notify_manager.rs: handle_notification"]}
{"id": "C27", "title": "Every non-cron program is started at most once", "statement": "In every execution a oneshot or notify program is forked at most once.", "quantifier": "all configurations and schedules", "why_tests_cant": "All interleavings.", "anchors": ["src/runtime/process_manager/mod.rs: spawn_children, spawn_child", "src/runtime/dependency_graph.rs: pop_runnable"]}
{"id": "C28", "title": "A clean exit means everything ran", "statement": "If cinit exits without having been told to shut down, then every oneshot and notify program was started and finished successfully.", "quantifier": "all accepted configurations and schedules", "why_tests_cant": "Liveness of the dependency resolution for all graphs and interleavings.", "anchors": ["src/runtime/process_manager/mod.rs: start, spawn_child", "src/runtime/dependency_graph.rs"]}
{"id": "C29", "title": "Cronjobs are not reentrant", "statement": "At any time at most one instance of each program started by cinit is alive; a cronjob is only started again after its previous instance was reaped with exit code 0.", "quantifier": "all schedules", "why_tests_cant": "All interleavings of clock and exits.", "anchors": ["src/runtime/process_manager/mod.rs: spawn_child, handle_finished_child"]}
{"id": "C30", "title": "Cronjobs start only when due and unblocked", "statement": "A cronjob is only started when its scheduled instant is not after the current time and all its dependencies have completed; otherwise that run is skipped and the job rescheduled.", "quantifier": "all schedules", "why_tests_cant": "All interleavings.", "anchors": ["src/runtime/process_manager/mod.rs: spawn_children", "src/runtime/cronjob.rs: pop_runnable", "src/runtime/dependency_graph.rs: is_runnable"]}
{"id": "C31", "title": "No program is started once shutdown began", "statement": "After cinit handled SIGINT, SIGQUIT or SIGTERM, or reaped a program with a non-zero status, it starts no further program.", "quantifier": "all schedules", "why_tests_cant": "All interleavings.", "anchors": ["src/runtime/process_manager/mod.rs: start, initiate_shutdown, handle_finished_child"]}
{"id": "C32", "title": "Exit code reflects child failures", "statement": "When cinit's event loop ends, the exit code is 6 iff some program ended with a non-zero exit code or by a signal, and 0 otherwise.", "quantifier": "all schedules", "why_tests_cant": "All interleavings.", "anchors": ["src/runtime/process_manager/mod.rs: start, handle_finished_child"]}
{"id": "C33", "title": "Termination signals are forwarded to all children", "statement": "When cinit handles SIGINT or SIGQUIT it sends that signal (SIGINT for SIGTERM or a crash) to every program that is alive.", "quantifier": "all schedules", "why_tests_cant": "Depends on the state of every child at the moment of the signal.", "anchors": ["src/runtime/process_manager/mod.rs: handle_signal, initiate_shutdown, signal_children"]}
{"id": "C34", "title": "cinit signals only its own children and does not crash doing so", "statement": "Every signal cinit sends goes to a process that cinit started and has not reaped yet, and sending never fails.", "quantifier": "all schedules and all notification contents", "why_tests_cant": "Depends on hostile notification contents.", "anchors": ["src/runtime/process_manager/mod.rs: signal_children", "src/runtime/process.rs: handle_notification (MAINPID)", "src/runtime/process_manager/notify_manager.rs: handle_notification"]}
{"id": "C35", "title": "cinit exits only after its children", "statement": "When cinit's event loop ends, every process it started has been reaped and every output stream it opened for a program has been drained to end-of-file.", "quantifier": "all schedules", "why_tests_cant": "All interleavings.", "anchors": ["src/runtime/process_manager/mod.rs: start, handle_event", "src/runtime/process_map.rs: has_running_processes"]}
{"id": "C36", "title": "Zombie reaping", "statement": "Each round of the event loop collects every child that has terminated before it waits for children, including adopted orphans; reaping a process that is not a known program changes no program's state, starts nothing and does not affect the exit code; each terminated program is noticed.", "quantifier": "all schedules", "why_tests_cant": "All interleavings, all exit statuses.", "anchors": ["src/runtime/process_manager/mod.rs: look_for_finished_children, handle_finished_child", "src/runtime/process_map.rs: process_id_for_pid"]}
{"id": "C37", "title": "Program life cycle", "statement": "A program's reported state only moves along the documented life cycle: blocked -> starting/running (by being started), starting -> running (READY), any active state -> stopping (STOPPING), active -> done/crashed (reaped), for cronjobs sleeping -> running -> sleeping/crashed; done and crashed are final.", "quantifier": "all schedules", "why_tests_cant": "All interleavings and message contents.", "anchors": ["src/runtime/process.rs: ProcessState, start, handle_notification", "src/runtime/process_manager/mod.rs: handle_finished_child, spawn_child"]}
{"id": "C38", "title": "Child output is attributed correctly and not lost", "statement": "Every chunk read from a program's stdout (stderr) is logged to cinit's stdout (stderr) as one entry per non-empty line, in order, under that program's name; invalid UTF-8 does not crash; nothing but line breaks, empty lines and undecodable bytes is altered.", "quantifier": "all byte sequences", "why_tests_cant": "Unbounded byte strings.", "anchors": ["src/runtime/process_manager/mod.rs: print_child_output, handle_event", "src/runtime/process_map.rs: process_for_fd, is_stdout"]}
{"id": "C39", "title": "Event dispatch never hits an unknown descriptor", "statement": "Whatever events epoll delivers for registered descriptors, cinit never panics looking up the owning program, and a descriptor always resolves to the program it was opened for.", "quantifier": "all schedules of events and batches", "why_tests_cant": "All histories of descriptor reuse.", "anchors": ["src/runtime/process_manager/mod.rs: dispatch_epoll, handle_event, print_child_output", "src/runtime/process_map.rs"]}
{"id": "C40", "title": "Only the main process of a notify program can notify", "statement": "A notification changes cinit's state only if its sender's pid is the current main pid of a program of type notify, and then it changes only that program (and what depends on it); all other notifications are ignored.", "quantifier": "all messages, all senders, all reachable states", "why_tests_cant": "Arbitrary senders and messages.", "anchors": ["src/runtime/process_manager/notify_manager.rs: process", "src/runtime/process_map.rs: process_id_for_pid"]}
{"id": "C41", "title": "A notification's effect does not depend on hash order", "statement": "The effect of a notification on the system does not depend on the order in which its variables are iterated.", "quantifier": "all messages, all iteration orders, all reachable states", "why_tests_cant": "Rust's hash order is random per map.", "anchors": ["src/runtime/process_manager/notify_manager.rs: process, parse, handle_notification", "src/runtime/process.rs: handle_notification"]}
{"id": "C42", "title": "Notification text parsing", "statement": "A message is split into lines; each line KEY=VALUE with KEY one of READY, STOPPING, STATUS, MAINPID takes effect with everything after the first '=' as value, the last line for a key winning; all other lines are ignored.", "quantifier": "all texts", "why_tests_cant": "Unbounded strings.", "anchors": ["src/runtime/process_manager/notify_manager.rs: parse"]}
{"id": "C43", "title": "No notification can crash cinit", "statement": "Receiving any datagram on the notify socket, from any process, never makes cinit panic or read out of bounds.", "quantifier": "all byte sequences, all senders", "why_tests_cant": "Unbounded hostile input.", "anchors": ["src/runtime/process_manager/notify_manager.rs: read_socket, process", "src/util/libc_helpers.rs: slice_to_string, rescue_from_libc"]}
{"id": "C44", "title": "MAINPID handover", "statement": "After a notify program hands over to a new main pid, the end of the new pid is what completes (or crashes) the program, the end of the old pid is treated as an unknown process, and no other program is affected.", "quantifier": "all schedules and pids", "why_tests_cant": "All interleavings, arbitrary pids.", "anchors": ["src/runtime/process_manager/notify_manager.rs: handle_notification", "src/runtime/process.rs: handle_notification", "src/runtime/process_map.rs: register_pid, deregister_pid"]}
{"id": "C45", "title": "Status report", "statement": "A status report lists every program exactly once with its name and current state; exit_code is present exactly for done (0) and crashed (the status) programs; scheduled_at is present exactly for cronjobs and is the scheduled next execution; producing it never fails for lack of data and changes nothing.", "quantifier": "all reachable states", "why_tests_cant": "All states.", "anchors": ["src/runtime/process_manager/status_reporter.rs: format_report", "src/runtime/cronjob.rs: Cron::get_next_execution", "src/runtime/process.rs: Display for ProcessState"]}
{"id": "C46", "title": "Status report shows pids of running programs only", "statement": "The report contains a pid for a program exactly if that program is alive, and it is that program's main pid.", "quantifier": "all reachable states, including pid reuse", "why_tests_cant": "Needs pid recycling.", "anchors": ["src/runtime/process_manager/status_reporter.rs: format_report (line 80)", "src/runtime/process_map.rs: process_id_for_pid"]}
{"id": "C47", "title": "Capabilities of started programs", "statement": "A program started as a non-root user has exactly the configured capabilities in its effective, permitted, inheritable and ambient sets after exec (unknown names ignored); a root program keeps all capabilities of the container; if a configured capability cannot be granted the program is not executed.", "quantifier": "all capability lists, all users, all bounding sets", "why_tests_cant": "Depends on the kernel's capability rules for all sets.", "anchors": ["src/runtime/process.rs: set_user_and_caps, setup_child"]}
{"id": "C48", "title": "Identity switch is complete or the program is not executed", "statement": "The program is executed only after its uid, gid and supplementary groups are exactly the configured ones (no groups other than its gid), its signal mask is empty and its working directory was entered; if any step fails, it is not executed and the child exits with code 4.", "quantifier": "all configurations and all failure points", "why_tests_cant": "All failure points.", "anchors": ["src/runtime/process.rs: start, setup_child, set_user_and_caps"]}
{"id": "C49", "title": "Descriptors of programs and of cinit", "statement": "An executed program has exactly its own stdout and stderr streams as descriptors 1 and 2 and, apart from these, exactly the descriptors that were open without close-on-exec when cinit was started; none of cinit's sockets, epoll or signal descriptors and no stream of another program. cinit itself never keeps the program's end of a stream or an answered report connection open, and never closes what it inherited.", "quantifier": "all histories of starts, failed starts, ended streams and reports, all descriptor numbers handed out by the kernel", "why_tests_cant": "All interleavings of opening and closing, and all reuse of descriptor numbers.", "anchors": ["src/runtime/process.rs: create_std_fds, setup_child, start", "src/analyse/process_manager_builder.rs", "src/runtime/process_manager/status_reporter.rs"]}
{"id": "C50", "title": "When a program is executed", "statement": "If no system call fails for an external reason, a program is executed exactly when its working directory, executable, user and group exist, setgroups is permitted, and cinit holds the configured capabilities plus CAP_SETUID, CAP_SETGID, CAP_SETPCAP and CAP_SETFCAP as permitted and may make them inheritable.", "quantifier": "all configurations, credentials of cinit and hosts with a kernel knowing all 41 capabilities", "why_tests_cant": "Depends on the kernel's capability rules for all sets.", "anchors": ["src/runtime/process.rs: set_user_and_caps, setup_child"]}
{"id": "C51", "title": "Unknown capabilities are reported", "statement": "Every configured capability name that does not exist is reported once, in the order of the configuration, on the program's stdout before the program runs, and is otherwise ignored.", "quantifier": "all capability lists", "why_tests_cant": "All lists.", "anchors": ["src/runtime/process.rs: set_user_and_caps"]}
{"id": "C52", "title": "The reason for a failed exec is reported", "statement": "If a program cannot be executed, a line with the reason is written to its stdout.", "quantifier": "all configurations and failure points", "why_tests_cant": "All failure points; the message is written after the descriptor has been closed.", "anchors": ["src/runtime/process.rs: start, setup_child"]}
{"id": "C53", "title": "Signal dispositions of programs", "statement": "A program starts with the signal dispositions cinit was started with.", "quantifier": "all configurations and inherited dispositions", "why_tests_cant": "Tests do not look at dispositions; Rust's runtime ignores SIGPIPE.", "anchors": ["src/runtime/process.rs: setup_child"]}
{"id": "C54", "title": "Programs start as soon as they can", "statement": "Whenever cinit is about to wait for events and nothing has asked it to shut down, it has tried to start every program (other than cronjobs) whose dependencies have all completed; no such program waits for a further event.", "quantifier": "all reachable states of the event loop, all dependency graphs", "why_tests_cant": "Needs all orders in which programs end and notify.", "anchors": ["src/runtime/process_manager/mod.rs: start, spawn_children", "src/runtime/dependency_graph.rs: pop_runnable"]}
{"id": "C55", "title": "cinit ends", "statement": "cinit is never stuck; after a reason to shut down, once the programs have ended and nobody writes to their streams any more, cinit exits after a number of steps bounded by the bytes and streams left and the children it reaps, whatever signals, requests, notifications and orphans arrive; it exits only after it has noticed the end of every process it started.", "quantifier": "all reachable states and all continuations", "why_tests_cant": "A bound on all continuations; termination is not observable in finite tests.", "anchors": ["src/runtime/process_manager/mod.rs: start, look_for_finished_children, dispatch_epoll", "src/runtime/process_map.rs: has_running_processes"]}
{"id": "C56", "title": "What appears on stdout and stderr", "statement": "cinit's stderr shows exactly one entry per line the programs wrote to their stderr; its stdout shows exactly one entry per line the programs wrote to their stdout, plus one per message of cinit itself of level info or above (with -v also debug, with -vv also trace), each in the order they were produced. An entry is a time stamp, the level, the bracketed name of the program (or cinit) and the text. More than two -v show the same as none.", "quantifier": "all executions, all verbosities, all texts of cinit's own messages, all timestamps", "why_tests_cant": "All interleavings of outputs of all programs.", "anchors": ["src/logging/mod.rs: initialise", "src/logging/stdout.rs: log", "src/logging/stderr.rs: log", "doc/README.md: Logging"]}
{"id": "C57", "title": "Log lines can be attributed", "statement": "Each physical line on cinit's stdout and stderr belongs to one entry, and the program it is from and the text it printed can be read off the line, whatever the programs print.", "quantifier": "all outputs of all programs", "why_tests_cant": "Adversarial output.", "anchors": ["src/logging/stdout.rs: log", "src/runtime/process_manager/mod.rs: print_child_output"]}
{"id": "C58", "title": "More verbose shows more", "statement": "Whatever is shown at one verbosity is shown at every higher one, in the same order.", "quantifier": "all pairs of verbosities and all executions", "why_tests_cant": "All pairs of verbosity values.", "anchors": ["src/logging/mod.rs: initialise", "src/cli_parser.rs"]}
{"id": "C59", "title": "Programs cannot forge the report", "statement": "Whatever a program sends as its status, the status report has exactly the entries of the configured programs, for a reader that splits it into lines as well as for a YAML parser.", "quantifier": "all notifications sent by all programs", "why_tests_cant": "Adversarial notification texts.", "anchors": ["src/runtime/process_manager/status_reporter.rs: format_report", "src/runtime/process_manager/notify_manager.rs"]}
{"id": "C60", "title": "Terminals for programs", "statement": "A program with `pty: true` is executed with two terminals of its own as stdout and stderr, owned by its user and group with mode 0620, of the size of cinit's terminal (24 rows and 80 columns if it has none) and with fixed line settings if cinit has a terminal (the system's defaults otherwise); terminals of other programs are left alone; other programs get none.", "quantifier": "all programs, all terminals of cinit, all histories of starts and hangups, all kernel answers", "why_tests_cant": "Needs root, several users and every kind of terminal.", "anchors": ["src/runtime/process.rs: create_ptys, create_std_fds, start", "src/util/libc_helpers.rs: ttyname"]}
{"id": "C61", "title": "A failed start leaves nothing behind", "statement": "Whichever system call fails while a program is being started, no child is forked and cinit's descriptors and terminals are exactly those before; if none fails, a child is forked and cinit has exactly two more descriptors, its ends of the two streams, which are closed on exec.", "quantifier": "all programs, all subsets of failing calls, all histories", "why_tests_cant": "Failing system calls in every position cannot be provoked by tests.", "anchors": ["src/runtime/process.rs: start, create_std_fds, create_ptys, create_pipes"]}
{"id": "C62", "title": "The log of a program on a terminal", "statement": "The log entries of a program on a terminal are those the same output on a pipe would give.", "quantifier": "all outputs, all ways the output is split into reads, with and without a terminal of cinit", "why_tests_cant": "All splits into reads.", "anchors": ["src/runtime/process.rs: create_ptys", "src/runtime/process_manager/mod.rs: print_child_output"]}
{"id": "C63", "title": "What is in place when the event loop starts", "statement": "When cinit enters its event loop, /run/cinit.socket is a listening stream socket and /run/cinit-notify.socket a datagram socket that passes credentials, both usable by every user whatever the umask and whatever was at these paths before (unless a directory); SIGINT, SIGQUIT, SIGTERM and SIGCHLD are blocked and read from a descriptor; exactly that descriptor and the two sockets are polled; cinit is a subreaper; all its descriptors close on exec; no other name, descriptor or blocked signal has changed.", "quantifier": "all configurations, all states of the file system and of cinit's descriptors, umask and signal mask, all answers of the kernel", "why_tests_cant": "Needs root and every state an earlier run, or another program, may have left.", "anchors": ["src/analyse/process_manager_builder.rs: setup_file_descriptors, setup_signal_handler, setup_unix_socket", "src/runtime/process_manager/mod.rs: setup, setup_epoll_fd"]}
{"id": "C64", "title": "Failing set-up calls", "statement": "With an acceptable configuration cinit enters its event loop exactly if no call of its set-up fails and neither socket path is a directory; otherwise it exits with 2 (signals and sockets) or 3 (epoll, subreaper) and starts nothing.", "quantifier": "all configurations, all subsets of failing calls, all states of the machine", "why_tests_cant": "Failing system calls in every position cannot be provoked by tests.", "anchors": ["src/analyse/process_manager_builder.rs: ProcessManager::from", "src/runtime/process_manager/mod.rs: start, setup", "src/main.rs: run"]}
{"id": "C65", "title": "Refusing to run leaves the sockets alone", "statement": "If cinit refuses to run because of preconditions or the configuration, the sockets of another cinit on the machine are still at their paths and nothing else has changed.", "quantifier": "all configurations, all states of the machine", "why_tests_cant": "The order of checks and side effects matters for every kind of error.", "anchors": ["src/analyse/process_manager_builder.rs: ProcessManager::from", "src/main.rs: run"]}
{"id": "C66", "title": "A configuration document means what the manual says", "statement": "A program entry is accepted exactly if every option in it has a value of the documented kind, no option occurs twice and the name is given; every option then has the value written, options not given have the documented defaults (oneshot, no terminal, nothing else), a variable without a value is forwarded, the last value of a variable within one item counts, and the order of options does not matter. A document is its programs in order.", "quantifier": "all YAML trees, all orders of options, both scalar styles, all ways a HashMap is ordered", "why_tests_cant": "All combinations of options and kinds of values.", "anchors": ["src/config/mod.rs: ProcessConfig, ProcessType, Config", "src/config/config_parser.rs: parse_config"]}
{"id": "C67", "title": "An option that is not in the manual is reported", "statement": "If a program entry contains an option that is not in the manual, e.g. a misspelt one, the document is refused.", "quantifier": "all YAML trees, all names of options", "why_tests_cant": "All misspellings.", "anchors": ["src/config/mod.rs: ProcessConfig"]}
{"id": "C68", "title": "Malformed documents are refused", "statement": "A program without a name or with an option given twice, a document without programs, a document with one malformed program among any number, and a user number that is not an unsigned 32 bit number are refused; a user number that is taken is the number written.", "quantifier": "all YAML trees, all positions of the error", "why_tests_cant": "All positions and kinds of errors.", "anchors": ["src/config/mod.rs: ProcessConfig, Config", "src/config/config_parser.rs: parse_config"]}
{"id": "C69", "title": "Nothing that happens changes what a program is run with", "statement": "Whatever events, notifications, exits, restarts by timer and signals happen while cinit runs, the name, program file, arguments, environment, working directory, user, group, capabilities, terminal setting and type of every program stay exactly those computed from the configuration at startup, and no program is added or removed.", "quantifier": "all configurations, all executions of the event loop, all programs", "why_tests_cant": "Executions are unbounded; a notification or a restart that changes a setting shows only in the next start of that program.", "anchors": ["src/runtime/process_manager/mod.rs: start", "src/runtime/process_manager/notify_manager.rs: ProcessManager", "src/runtime/process.rs: Process"]}
{"id": "C70", "title": "A program runs as its entry in the configuration file says", "statement": "If an entry in any configuration file is the only one with its name, then whenever cinit starts the program of that name and it comes to run, it runs with the user and group the entry gives (root if it gives none) as real, effective and saved ids and only that group, in the working directory the entry gives, executing the file the entry gives with the arguments the entry gives, one for one, rendered in the environment it gets; unless it is root it has exactly the capabilities listed there. And every program cinit has comes from an entry with its name in some file.", "quantifier": "all directories of configuration files, all YAML trees, all executions of the event loop, all starts", "why_tests_cant": "Spans the parser, merging, analysis, event loop and the child; each test fixes one configuration and looks at one start.", "anchors": ["src/config/config_parser.rs: parse_config, merge_dropins", "src/analyse/process_builder.rs: Process::from", "src/runtime/process.rs: Process::start, setup_child"]}
{"id": "C71", "title": "No descriptor is leaked", "statement": "From the first call of the set-up to its end, whatever programs do, cinit has open exactly the descriptors it was started with, its signal descriptor, two sockets and epoll instance, and one close-on-exec descriptor for each output stream of a started program that has not ended; no descriptor of a failed start, a finished program or a status connection remains, and when cinit ends only those it was started with and its own four are open.", "quantifier": "all configurations, all answers of the kernel during set-up, all executions of the event loop, all numbers the kernel hands out", "why_tests_cant": "A leak of one descriptor per start or per report shows only after about a thousand of them.", "anchors": ["src/runtime/process.rs: start, create_std_fds", "src/runtime/process_map.rs: deregister_fd", "src/runtime/process_manager/status_reporter.rs: write_report", "src/analyse/process_manager_builder.rs: setup_file_descriptors"]}
{"id": "C72", "title": "A status client cannot hold up cinit", "statement": "Whatever a status client does, reading slowly, hanging up or not reading at all, it gets a prefix of the report, the whole of it exactly if no write fails, cinit neither crashes nor changes its state, and handling the request ends.", "quantifier": "all reachable states, all sequences of answers of write(2) including short writes, interruptions and errors", "why_tests_cant": "Short writes and full buffers depend on the kernel and on the timing of the client.", "anchors": ["src/runtime/process_manager/status_reporter.rs: report_status, write_report, format_report"]}
{"id": "C73", "title": "A program that cannot be executed counts as failed", "statement": "If a program is started but its file cannot be executed, or its working directory, user, group or capabilities cannot be set, then, as long as no program claims its process number by a notification, cinit sees it end with exit code 4 and records that for this very program, starts nothing afterwards, never starts a program that directly or indirectly depends on it, and its own exit code is 6 and comes only after that end was seen.", "quantifier": "all configurations, all executions of the event loop, all starts, all descriptor tables and credentials, all faults of the calls in the child", "why_tests_cant": "Spans the child and the event loop, and any call in the child may fail; tests look at one missing file in one configuration.", "anchors": ["src/runtime/process.rs: start, setup_child", "src/runtime/process_manager/mod.rs: look_for_finished_children, handle_finished_child", "src/runtime/dependency_graph.rs"]}
{"id": "C74", "title": "Which file is executed for a program", "statement": "If a program comes to run, the file executed is: its configured path if that contains a slash, relative paths starting at the program's working directory; otherwise the first file of that name in the directories of cinit's own PATH (/bin:/usr/bin if cinit has none) that exists and may be executed; a file of unknown format is run by /bin/sh with the remaining arguments. There is exactly one such file; the environment configured for the program, including its PATH, has no influence; and if there is none the child ends with exit code 4.", "quantifier": "all programs, all values of cinit's PATH, all contents of the file system, all descriptor tables and credentials", "why_tests_cant": "Tests use absolute paths of existing files; the difference between cinit's PATH and the program's shows only if they differ.", "anchors": ["src/runtime/process.rs: setup_child", "src/analyse/process_builder.rs: get_default_env"]}
{"id": "C75", "title": "The command line", "statement": "A command line made of any number of -v (alone, repeated or clustered) and --verbose and at most one configuration path, given as -c PATH, -cPATH, -c=PATH, --config PATH or --config=PATH, has exactly one meaning: cinit runs with that path, or /etc/cinit.yml if none is given, and with the number of v as verbosity, at most 255. If the arguments before it are well formed, a request for help or version ends the process with 0. Everything else (unknown options, two paths, a missing path, other arguments) ends it with 2 before anything else happens.", "quantifier": "all lists of arguments, all byte strings", "why_tests_cant": "Infinitely many combinations and orders; the system tests always pass one absolute path.", "anchors": ["src/cli_parser.rs: parse_arguments", "src/main.rs: run"]}
{"id": "C76", "title": "Cronjobs run when their timers say so", "statement": "While cinit is not told to shut down it stays and runs its cronjobs: whenever it is about to wait for events, every cronjob has been tried at or after every time of its timer that has passed since the configuration was read; each attempt belongs to a time of the timer not accounted for before; and an attempt starts the job exactly if its dependencies are completed and its previous process has ended.", "quantifier": "all configurations, all timers, all time zones with a fixed offset, all readings of the clock, all executions of the event loop", "why_tests_cant": "Needs the expression parser, the calendar, the queue of jobs and the event loop together, over days of clock readings; the system test waits for one minute.", "anchors": ["src/runtime/cronjob.rs: Cron::with_jobs, pop_runnable, TimerDescription::get_next_execution", "src/runtime/process_manager/mod.rs: start, spawn_children"]}
{"id": "C77", "title": "The status report shows the next run of a cronjob", "statement": "The time shown as scheduled_at for a cronjob is the first time of its timer after the clock reading at which it was last due (or at which the configuration was read), up to one nanosecond per configured program.", "quantifier": "all configurations, all reachable states, all timers, all time zones with a fixed offset", "why_tests_cant": "The time shown depends on the whole history of clock readings and on collisions between jobs.", "anchors": ["src/runtime/process_manager/status_reporter.rs: format_report", "src/runtime/cronjob.rs: get_next_execution, insert_job"]}
{"id": "C78", "title": "Templates in variables and arguments mean what the manual says", "statement": "The value a program sees for a variable given by a template is the template with every {{ VAR }} replaced by the value VAR has at this place of the env list; if a VAR is not defined by then, or the braces are not closed, the variable has the template itself as its value. The same holds for arguments with the program's complete environment. Text without double braces, {% and {# is passed on unchanged.", "quantifier": "all env lists and argument lists, all templates made of text and {{ NAME }}, all machines", "why_tests_cant": "Infinitely many texts, names, values and orders of definition; the tests check five templates.", "anchors": ["src/analyse/process_builder.rs: render_template, copy_from_config, Process::from"]}
{"id": "C79", "title": "Problems with templates are reported, and only they are", "statement": "While a program is built, a variable or argument is reported, at levels WARN and TRACE, exactly if its template fails or if its value contains a brace; the messages come in the order of the env list, then of the arguments; the message says truly which value is used; a NOTIFY_SOCKET given for a program of type notify is warned about; nothing else is logged, and the messages do not change the program.", "quantifier": "all configurations of a program, all machines, all template engines", "why_tests_cant": "The tests check four messages of one program.", "anchors": ["src/analyse/process_builder.rs: copy_from_config, treat_template_error_in_argument, looks_like_tera_template"]}
{"id": "C80", "title": "The nine default variables are forwarded from cinit's environment", "statement": "As the manual says, HOME, LANG, LANGUAGE, LOGNAME, PATH, PWD, SHELL, TERM and USER have, unless the env list sets them, the values they have in cinit's own environment, and are empty if they are not set there.", "quantifier": "all configurations of a program, all environments of cinit", "why_tests_cant": "The tests run with one environment.", "anchors": ["src/analyse/process_builder.rs: get_default_env, sanitise_env", "doc/README.md: Environment"]}
{"id": "C81", "title": "The log tells what happens, in order", "statement": "Every start, refused start, skipped cronjob, end, notification and unknown process, and cinit's exit, has its message in the log, in the order of the events, with the program's name, its process number, its state and its exit code as they are at that moment; there are no messages about programs besides these, and the lines of the programs' output stand between them in their place.", "quantifier": "all configurations, all reachable executions of the event loop, all answers of the kernel, all records made of the messages", "why_tests_cant": "Needs the order of messages, output and events over arbitrary interleavings; the system tests look for a few messages of one run each.", "anchors": ["src/runtime/process_manager/mod.rs: start, handle_finished_child, start_process, print_child_output", "src/runtime/process_manager/notify_manager.rs: handle_notification", "src/runtime/process.rs: start, handle_notification"]}
{"id": "C82", "title": "What programs announce can be read in the log without options", "statement": "Every message at level TRACE is also in the log that is shown without -v, in particular the status that a program publishes, which cinit logs according to the manual.", "quantifier": "all configurations, all reachable executions of the event loop", "why_tests_cant": "The tests run with -vv.", "anchors": ["src/runtime/process.rs: handle_notification", "src/runtime/process_manager/mod.rs: spawn_children", "doc/README.md: notify"]}
{"id": "C83", "title": "There is an error in the log for everything that fails, and it says how", "statement": "The messages at level ERROR are exactly those for programs that end with another code than 0, for programs that cannot be started and for failed waits for events, in order; cinit exits with 6 exactly if there is a message about a program that failed, and else with 0; the message tells how the program failed.", "quantifier": "all configurations, all reachable executions of the event loop, all records made of the messages", "why_tests_cant": "Quantifies over all ways to fail and all orders.", "anchors": ["src/runtime/process_manager/mod.rs: handle_finished_child, start_process, handle_event"]}
{"id": "C84", "title": "The log tells how the shutdown goes", "statement": "When cinit has exited, the log has the message Shutting down exactly once; no program is announced to start after it; the last message is Exiting; and the message that a termination signal was received stands in the log exactly as often as such a signal was read.", "quantifier": "all configurations, all executions of the event loop that end", "why_tests_cant": "Over arbitrary many programs, signals and failures during the shutdown.", "anchors": ["src/runtime/process_manager/mod.rs: start, initiate_shutdown"]}
{"id": "C85", "title": "When cinit refuses to start its log gives a true reason", "statement": "If cinit exits before it starts programs, at least one message at level ERROR is in the log, and if it starts programs, none is; each of these messages is true: what it says of the kernel, the user, a file, a field, a program, a reference, a cycle, a timer or the sockets is the case, with the name of the file, field or program that is at fault; and the messages at level INFO tell how far cinit came.", "quantifier": "all machines, all configuration trees, all texts of errors of the kernel and libraries, all orders of hash maps", "why_tests_cant": "The tests look for one message of one faulty configuration each.", "anchors": ["src/main.rs: main", "src/startup_checks.rs", "src/config/config_parser.rs: read_config, parse_raw_config, merge_dropins", "src/analyse/process_manager_builder.rs: from, build_dependency_manager, build_cron", "src/config/mod.rs: Display for MergeError"]}
{"id": "C86", "title": "All mistakes are reported, with the place where they are", "statement": "When the configuration has several mistakes the log before the exit names all of them, and for each one the file or the program.", "quantifier": "all machines, all configuration trees", "why_tests_cant": "Quantifies over all sets of mistakes.", "anchors": ["src/config/config_parser.rs: parse_raw_config", "src/analyse/process_manager_builder.rs: from"]}
{"id": "C87", "title": "Every line of the log has its cause, and every ignored input its line", "statement": "While the event loop runs, the log consists of the lines of each operation in order: an attempt to start a program says what it attempts and how it went; each line of a datagram that sets no known variable is reported as ignored, once and with its text; values that cannot be used are reported with their text; a connection, message or event that cannot be handled is reported; there are no other lines than these and those of the effects.", "quantifier": "all configurations, all executions, all answers of the kernel, all datagrams", "why_tests_cant": "Quantifies over all executions and all texts of datagrams; says which lines must not be there.", "anchors": ["src/runtime/process_manager/mod.rs: dispatch_epoll, handle_event, spawn_child", "src/runtime/process_manager/notify_manager.rs: read_notification, process, handle_notification, parse", "src/runtime/process_manager/status_reporter.rs: report_status"]}
{"id": "C88", "title": "What is ignored before the event loop is said, and nothing else is", "statement": "A start that succeeds logs exactly its milestones, at most one warning about the kernel version (exactly if it cannot be read or understood), one warning for each thing in the configuration directory that is neither a file nor a directory, in order and with its path, and the messages about the templates of each program. Whether the start succeeds or not, every warning is true.", "quantifier": "all machines, all configuration trees", "why_tests_cant": "Quantifies over all directory trees and kernel versions.", "anchors": ["src/startup_checks.rs: check_kernel_version", "src/config/config_parser.rs: read_config", "src/analyse/process_manager_builder.rs: from", "src/main.rs: main"]}
{"id": "C89", "title": "The message about a timer names its first fault", "statement": "A cron expression that is refused is refused for its first fault from left to right, and the message is the one for this fault: a step or number that is no 32 bit number, a missing end of an interval, a value outside the range of its field, an interval that ends before it begins, too few or too many fields. Nothing else is refused.", "quantifier": "all texts", "why_tests_cant": "Quantifies over all texts.", "anchors": ["src/runtime/cronjob.rs: parse, parse_element"]}
{"id": "C90", "title": "A run that fails says why on stdout, whatever the options", "statement": "Whenever cinit ends with an exit code other than 0 after it understood its command line, stdout contains an entry at ERROR level of cinit whose text is true: with exit code 6 that a program ended with a status other than 0, with exit codes 1, 2, 3 and 5 one of the reasons of C85. This holds for any number of -v, and stdout consists of such entries, one per line of the log that is to be shown, and nothing else.", "quantifier": "all command lines, machines and executions that do not panic", "why_tests_cant": "Relates command line, start, event loop and output; quantifies over all executions.", "anchors": ["src/main.rs: run", "src/logging/mod.rs: initialise", "src/runtime/process_manager/mod.rs: start", "src/analyse/process_manager_builder.rs: from"]}
{"id": "C91", "title": "A run that ends with exit code 0 showed no error", "statement": "If cinit ends with exit code 0, there is no entry at ERROR level on stdout.", "quantifier": "all command lines, machines and executions that do not panic", "why_tests_cant": "Quantifies over all executions; errors of the kernel are hard to provoke.", "anchors": ["src/main.rs: run", "src/runtime/process_manager/mod.rs: start, spawn_child", "src/runtime/process_manager/mod.rs: dispatch_epoll"]}
{"id": "C92", "title": "A refused start gives its reason and nothing else", "statement": "When cinit refuses to start, its ERROR lines are exactly: the three lines for an old kernel or for a user other than root (only the former if both hold); or the first thing that cannot be read, in the order of the directories; or a heading and one line for each file that does not parse; or the first fragment that does not fit those merged before; or the first faulty program with one of its faults by a fixed precedence; or, if all programs are fine, one fault of the dependencies, the first refused timer and the sockets, in this order and each only if there is such a fault; or the failed registration. Each is repeated at TRACE level as far as the code has a cause to print, and nothing else is.", "quantifier": "all machines, all configuration trees, all iteration orders of hash maps", "why_tests_cant": "Quantifies over all configurations with any number of faults at once; says which lines must not be there.", "anchors": ["src/startup_checks.rs: do_startup_checks", "src/config/config_parser.rs: parse_config", "src/config/mod.rs: merge", "src/analyse/process_manager_builder.rs: from", "src/main.rs: run"]}
{"id": "C93", "title": "With -v the log tells how processes end, what is sent to cinit and when cronjobs run", "statement": "The log with the messages at DEBUG level is determined line by line by the operations. It has one message for each process reaped, in order, from which its pid and how it ended (exit code or signal) can be told apart; one for each notification that is accepted or ignored, with its text and sender; one for each time a cronjob is due, with its next time, and one for each time it is skipped. With one or two -v all of these are on stdout. Without the messages at DEBUG level it is the log of C81.", "quantifier": "all configurations, all executions, all answers of the kernel, all datagrams", "why_tests_cant": "Quantifies over all executions; says which lines must not be there.", "anchors": ["src/runtime/process_manager/mod.rs: dispatch_epoll, handle_signal, wait_for_children, spawn_child", "src/runtime/process_manager/notify_manager.rs: read_notification", "src/runtime/cronjob.rs: pop_runnable", "src/runtime/dependency_graph.rs: notify_process_finished"]}
{"id": "C94", "title": "What is sent to cinit does not add lines to its output", "statement": "Every line of stdout is one entry of the log, whatever the programs or strangers send as notifications: nobody can make a line appear that looks like one of another program or of cinit.", "quantifier": "all configurations with names on one line, all executions, all datagrams", "why_tests_cant": "Quantifies over all texts of datagrams and all executions.", "anchors": ["src/runtime/process_manager/notify_manager.rs: read_notification, parse, process", "src/logging/mod.rs: initialise"]}
{"id": "C95", "title": "With -v the start tells the kernel, the configuration, the first runs and the sockets", "statement": "Before the event loop cinit logs at DEBUG level exactly: the version of the kernel if it can be told and is new enough; once everything could be read, the contents of all files, one after the other; once all programs are in order, the first run of each cronjob up to the first refused timer; each socket once it is open; and that the event loop is entered. Where the start is refused the rest is missing. The other levels are as in C85, C88 and C92; for a successful start the order of all lines is fixed.", "quantifier": "all machines, all configuration trees, all iteration orders of hash maps, all zones and clock readings", "why_tests_cant": "Quantifies over all configurations and says which lines must not be there.", "anchors": ["src/startup_checks.rs: check_kernel_version", "src/config/config_parser.rs: parse_config", "src/analyse/process_manager_builder.rs: from, setup_unix_socket", "src/runtime/cronjob.rs: with_jobs", "src/runtime/process_manager/mod.rs: start"]}
{"id": "C96", "title": "With -v the configuration files appear on stdout as they are, without -v they do not", "statement": "With one or two -v, each file below the configuration root, if everything could be read, appears verbatim within one entry on stdout, secrets in it included, however the run continues. Without -v, or with more than two, stdout is the same as if there were no messages at DEBUG level.", "quantifier": "all command lines, machines, configuration trees and executions that do not panic", "why_tests_cant": "Quantifies over all configurations and executions; relates files to output.", "anchors": ["src/config/config_parser.rs: parse_config", "src/main.rs: run", "src/logging/mod.rs: initialise"]}
{"id": "C97", "title": "A cronjob is scheduled for the time that the log announces", "statement": "When the event loop is entered, the log has announced for each cronjob the instant for which it is then scheduled.", "quantifier": "all configurations, zones and clock readings", "why_tests_cant": "Quantifies over all sets of timers; only equal times show the difference.", "anchors": ["src/runtime/cronjob.rs: with_jobs, insert_job"]}
{"id": "C98", "title": "A change of the clocks neither leaves out nor misplaces the next run of a cronjob", "statement": "In a time zone in which the clocks change (daylight saving), the next run of a cronjob is the first instant after now at which the local clock shows a time of the timer on a day of the timer.", "quantifier": "all zones with finitely many offsets below a day, all accepted timers, all instants", "why_tests_cant": "The changes of the clocks are a few instants per year and the error shows only for particular hours before or after them; tests take single dates of one zone.", "anchors": ["src/runtime/cronjob.rs: get_next_execution"]}
{"id": "C99", "title": "Changes of the clocks do not disturb the event loop", "statement": "In a time zone in which the clocks change, every cronjob is tried at or after each time of its timer and not before, and cinit keeps reacting to signals, ends of processes and queries.", "quantifier": "all machines, zones, configurations, schedules and clock readings", "why_tests_cant": "Needs executions that run through a change of the clocks with arbitrary behaviour of the programs meanwhile.", "anchors": ["src/runtime/cronjob.rs: get_next_execution, pop_runnable", "src/runtime/process_manager/mod.rs: spawn_children"]}
{"id": "C100", "title": "A program with drop-ins runs as all its entries together say", "statement": "Wherever the entries for one program stand in the configuration files, the program is run with the path of the one entry that has one, with the user, group and directory of the entry that gives them (root and the current directory if none does), with exactly the capabilities that some entry lists (unless it runs as root), and with the arguments and variables of the entry with the path followed by those of the drop-ins, in the same order for both. Its relations, terminal and type follow likewise. Entries that contradict each other, declare a cronjob without path, or have no path at all keep cinit from entering the event loop.", "quantifier": "all configuration trees and documents of mappings, all positions of the entries, all executions, all children started", "why_tests_cant": "Quantifies over all splittings of a program into entries and over all executions; joins parsing, merging, the start and the started child.", "anchors": ["src/config/config_parser.rs", "src/config/mod.rs: merge, merge_dropins", "src/analyse/process_builder.rs: process_from", "src/runtime/process.rs: start, setup_child"]}
{"id": "C101", "title": "The harness writes down what it finds, and the file tells it back", "statement": "The test program (harness) writes a file with its arguments, directory, user, groups, terminal, capabilities and environment, one line each, capabilities in any order with the sets they are in, and environment strings that are not variables left out. It completes the file exactly if everything in it is UTF-8. Two processes that write the same file agree in all of these.", "quantifier": "all processes: arguments, directories, users, groups, capability sets and environments", "why_tests_cant": "Quantifies over all processes and orders of hash sets; that the file determines what it describes is about all pairs.", "anchors": ["src/programs/harness.rs: dump"]}
{"id": "C102", "title": "The file of the harness shows a program as its entries say", "statement": "If cinit starts the harness as a program whose entries stand in the configuration files, the file it writes shows the path, arguments, directory, user, group, terminal, variables and, unless it runs as root, capabilities that the entries give, the only supplementary group being the own one.", "quantifier": "all configuration trees and documents of mappings, all executions, all children started", "why_tests_cant": "The system tests compare single files of this kind; the claim is about all configurations.", "anchors": ["src/programs/harness.rs: dump", "src/config/config_parser.rs", "src/config/mod.rs: merge, merge_dropins", "src/analyse/process_builder.rs: process_from", "src/runtime/process.rs: start, setup_child"]}
{"id": "C103", "title": "The harness does what its options say, and nothing else", "statement": "Whatever fails or arrives, the harness sends the messages its options ask for in order (readiness, then status), then writes its file, then waits, each only after the one before; it sends nothing else. If nothing it needs is missing, it ends with its return code modulo 256 (101 if that is no number) after the given number of seconds, or earlier only because of a signal that was blocked; it is killed only by a signal that has arrived. The file is that of C101. Started by cinit it never ends early with its return code: it waits for the whole time or is killed.", "quantifier": "all options, all failures of calls, all signals at all times, all children started by cinit", "why_tests_cant": "The system tests run it with a few options and no failures; when signals arrive is up to the scheduler.", "anchors": ["src/programs/harness.rs: main"]}
{"id": "C104", "title": "forker tells whether its child has ended in time", "statement": "forker ends with 0 if, before its two seconds are over, its child has ended or someone has sent it SIGCHLD, and with 255 and a line about the timeout otherwise; started by cinit, SIGCHLD is not blocked. If it ends with 0 its child has printed its line, has ended and has been collected. It sleeps for the whole time, always can go on, and ends after a bounded number of steps however often others send SIGCHLD. If SIGCHLD were blocked it would always report a timeout.", "quantifier": "all interleavings of parent, child and signals", "why_tests_cant": "The system test runs it once; the interleaving of handler, sleep and child cannot be controlled.", "anchors": ["src/programs/forker.rs"]}
{"id": "C105", "title": "The command line of the harness means what it says", "statement": "Each of the options for return code, seconds, file and status may be given once, in long or short form, with the value attached or not, and readiness as a flag; what is not given has its default; from the first other argument on, or after two dashes, everything is passed over. The harness then goes on with exactly these options, and announces readiness if and only if the flag is given. It prints help and ends with 0 if that is asked for before any mistake, and ends with 2 without any effect on every other command line.", "quantifier": "all lists of arguments", "why_tests_cant": "There are infinitely many command lines; tests use a few of them, and none checks that nothing is announced without the flag.", "anchors": ["src/programs/harness.rs: main"]}
