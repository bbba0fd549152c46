{
 "claims": [
  {
   "property": "C01",
   "status": "proved",
   "theorems": [
    "C01_merge_order",
    "C01_load_order",
    "C01_pathless_order_refuted"
   ],
   "note": "both for one program's fragments and for whole configurations; the refutation shows the hypothesis that a path is given is needed"
  },
  {
   "property": "C02",
   "status": "proved",
   "theorems": [
    "C02_merge_blocks",
    "C02_merge_fields"
   ],
   "note": "the order of blocks is given exactly"
  },
  {
   "property": "C03",
   "status": "partial",
   "theorems": [
    "C03_merge_rejects_partial",
    "C03_notify_dropin_refuted"
   ],
   "note": "false as stated: a drop-in of type notify is silently accepted and ignored; exact for all other conflicts"
  },
  {
   "property": "C04",
   "status": "proved",
   "theorems": [
    "C04_unique_names",
    "C04_accepts",
    "C04_total"
   ],
   "note": ""
  },
  {
   "property": "C05",
   "status": "partial",
   "theorems": [
    "C05_load_partial",
    "C05_non_utf8_name_refuted"
   ],
   "note": "false as stated: a path that is not UTF-8 panics; proved for all finite trees with UTF-8 paths"
  },
  {
   "property": "C06",
   "status": "proved",
   "theorems": [
    "C06_user_selected",
    "C06_user_rejected",
    "C06_program_identity",
    "C06_program_rejected"
   ],
   "note": "user and group database abstract; the identity theorem assumes an id lookup returns an entry with that id"
  },
  {
   "property": "C07",
   "status": "partial",
   "theorems": [
    "C07_well_known_partial",
    "C08_equals_in_key_refuted"
   ],
   "note": "false as stated when an env key contains '='; proved for all env lists with plain keys"
  },
  {
   "property": "C08",
   "status": "partial",
   "theorems": [
    "C08_no_leak",
    "C08_one_per_variable_partial",
    "C08_noninterference",
    "C08_equals_in_key_refuted"
   ],
   "note": "no leak and non-interference without restriction; one entry per variable only for keys without '='"
  },
  {
   "property": "C09",
   "status": "proved",
   "theorems": [
    "C09_env_after",
    "C09_last_wins",
    "C09_untouched"
   ],
   "note": "any hash iteration order inside one map"
  },
  {
   "property": "C10",
   "status": "proved",
   "theorems": [
    "C10_arguments",
    "C10_crash_iff_nul"
   ],
   "note": "also states exactly when building crashes"
  },
  {
   "property": "C11",
   "status": "partial",
   "theorems": [
    "C11_notify_socket_partial",
    "C08_equals_in_key_refuted"
   ],
   "note": "the entry is always present; uniqueness only for env keys without '='"
  },
  {
   "property": "C12",
   "status": "proved",
   "theorems": [
    "C12_validation",
    "C12_decides",
    "C12_loaded_names_unique",
    "C12_contract_satisfiable"
   ],
   "note": "petgraph's toposort enters by its contract (finds_cycles), shown satisfiable"
  },
  {
   "property": "C13",
   "status": "partial",
   "theorems": [
    "C13_exit_codes_partial",
    "C13_crash_causes",
    "C13_crash_refuted"
   ],
   "note": "exact for every run that does not crash; the crashing inputs are characterised and shown to exist"
  },
  {
   "property": "C14",
   "status": "proved",
   "theorems": [
    "C14_startup_check"
   ],
   "note": ""
  },
  {
   "property": "C15",
   "status": "proved",
   "theorems": [
    "C15_timer_meaning",
    "C15_field_accepts",
    "C15_field_rejects",
    "C15_accepted_set_in_range"
   ],
   "note": "exact characterisation of accepted texts (lenient grammar) and of the denoted sets; ASCII white space"
  },
  {
   "property": "C16",
   "status": "partial",
   "theorems": [
    "C16_no_panic_partial",
    "C16_crash_exactly",
    "C16_no_panic_refuted"
   ],
   "note": "false as stated: a step of zero panics; proved for all texts without a zero step"
  },
  {
   "property": "C17",
   "status": "proved",
   "theorems": [
    "C17_calendar",
    "C17_next_matches"
   ],
   "note": "constant-offset zones, as quantified; other zones in C21"
  },
  {
   "property": "C18",
   "status": "partial",
   "theorems": [
    "C18_future_partial",
    "C18_future_refuted"
   ],
   "note": "false as stated (single weekday, later the same day); exact condition proved for constant-offset zones"
  },
  {
   "property": "C19",
   "status": "partial",
   "theorems": [
    "C19_next_exists_partial",
    "C19_exists_iff_partial",
    "C19_next_exists_refuted"
   ],
   "note": "false as stated (31st from a short month); proved when every listed day exists in every listed month; exact condition: the day and month the search settles on exist together in some year"
  },
  {
   "property": "C20",
   "status": "partial",
   "theorems": [
    "C20_daily_partial",
    "C20_weekly_partial",
    "C20_monthly_partial",
    "C20_yearly_partial",
    "C20_earliest_partial",
    "C20_exact",
    "C20_year_skipped_refuted",
    "C20_hour_not_reset_refuted",
    "C20_minute_not_reset_refuted",
    "C20_day_not_reset_refuted",
    "C20_short_month_refuted"
   ],
   "note": "false as stated; C20_exact says for every expression and instant exactly when the result is the earliest time (in terms of the lists and the wall clock); one refutation per cause"
  },
  {
   "property": "C21",
   "status": "proved",
   "theorems": [
    "C21_gap_and_fold"
   ],
   "note": "all zones given by any offset function with finitely many offsets"
  },
  {
   "property": "C22",
   "status": "proved",
   "theorems": [
    "C22_conservation"
   ],
   "note": ""
  },
  {
   "property": "C23",
   "status": "proved",
   "theorems": [
    "C23_query",
    "C23_timer_of",
    "C23_query_total"
   ],
   "note": ""
  },
  {
   "property": "C24",
   "status": "partial",
   "theorems": [
    "C24_once_per_minute_partial",
    "C24_starvation_refuted"
   ],
   "note": "false as stated; termination within a minute proved outside the C18 situation"
  },
  {
   "property": "C25",
   "status": "proved",
   "theorems": [
    "C25_bookkeeping",
    "C25_repeated_report",
    "C25_drained"
   ],
   "note": "all histories of reports and requests"
  },
  {
   "property": "C26",
   "status": "proved",
   "theorems": [
    "C26_start_order"
   ],
   "note": "all executions of the event loop with the kernel and programs as adversary"
  },
  {
   "property": "C27",
   "status": "proved",
   "theorems": [
    "C27_started_once"
   ],
   "note": ""
  },
  {
   "property": "C28",
   "status": "partial",
   "theorems": [
    "C28_everything_ran_partial",
    "C28_fork_failure_refuted",
    "C28_handover_refuted",
    "C28_realtime_refuted"
   ],
   "note": "false as stated: when fork fails for every program cinit exits with 0 and nothing ran; after a handover to another program's process, or when a number is reused after a death by real-time signal, cinit exits with 0 though a program never ran; proved for executions without refused starts, handover or real-time deaths"
  },
  {
   "property": "C29",
   "status": "proved",
   "theorems": [
    "C29_one_instance",
    "C29_restart"
   ],
   "note": "one instance in terms of starts and reaps; no restriction on notifications"
  },
  {
   "property": "C30",
   "status": "proved",
   "theorems": [
    "C30_due_before",
    "C30_cron_round"
   ],
   "note": ""
  },
  {
   "property": "C31",
   "status": "proved",
   "theorems": [
    "C31_no_start_after_shutdown"
   ],
   "note": ""
  },
  {
   "property": "C32",
   "status": "partial",
   "theorems": [
    "C32_exit_code_seen",
    "C32_exit_code_partial",
    "C32_realtime_refuted",
    "C32_handover_refuted"
   ],
   "note": "exact in terms of the ends cinit noticed in all executions; in terms of actual ends false when a program dies by a real-time signal or has handed over to another process"
  },
  {
   "property": "C33",
   "status": "partial",
   "theorems": [
    "C33_signal_forwarded_partial",
    "C33_running_signalled",
    "C33_only_then",
    "C33_crash_forwarded_partial",
    "C33_starting_refuted",
    "C33_stopping_refuted"
   ],
   "note": "false as stated: notify programs that are starting or stopping get no signal; the set of receivers is given exactly"
  },
  {
   "property": "C34",
   "status": "partial",
   "theorems": [
    "C34_own_children_partial",
    "C34_never_fails_partial",
    "C34_foreign_refuted",
    "C34_itself_refuted",
    "C34_crash_refuted",
    "C34_realtime_refuted"
   ],
   "note": "false after a MAINPID handover or a death by real-time signal; proved otherwise"
  },
  {
   "property": "C35",
   "status": "partial",
   "theorems": [
    "C35_children_reaped_partial",
    "C35_no_main_process",
    "C35_streams_drained",
    "C35_refuted"
   ],
   "note": "streams: all executions; children: false after a handover, proved otherwise; main processes: all executions"
  },
  {
   "property": "C36",
   "status": "partial",
   "theorems": [
    "C36_round_collects_partial",
    "C36_reaping",
    "C36_unknown_changes_nothing_partial",
    "C36_end_noticed_partial",
    "C36_round_refuted"
   ],
   "note": "false as stated: a child killed by a real-time signal ends the round early and is not noticed"
  },
  {
   "property": "C37",
   "status": "proved",
   "theorems": [
    "C37_life_cycle",
    "C37_final",
    "C37_state_from_effects"
   ],
   "note": ""
  },
  {
   "property": "C38",
   "status": "proved",
   "theorems": [
    "C38_output_logged",
    "C38_output_in_order"
   ],
   "note": "a chunk is what one read of at most 4096 bytes returned; a line that spans two reads gives two entries"
  },
  {
   "property": "C39",
   "status": "proved",
   "theorems": [
    "C39_dispatch",
    "C39_one_owner"
   ],
   "note": ""
  },
  {
   "property": "C40",
   "status": "partial",
   "theorems": [
    "C40_listens_partial",
    "C40_main_processes",
    "C40_refuted"
   ],
   "note": "who is listened to and what changes: all executions; false in that a message can take away another program's main process"
  },
  {
   "property": "C41",
   "status": "proved",
   "theorems": [
    "C41_order_irrelevant"
   ],
   "note": "whole executions, any two iteration orders"
  },
  {
   "property": "C42",
   "status": "proved",
   "theorems": [
    "C42_message_text",
    "C42_main_pid"
   ],
   "note": "line ends are LF or CR LF"
  },
  {
   "property": "C43",
   "status": "partial",
   "theorems": [
    "C43_datagram_partial",
    "C43_refuted"
   ],
   "note": "false as stated; the crashing datagrams are characterised exactly"
  },
  {
   "property": "C44",
   "status": "partial",
   "theorems": [
    "C44_new_main",
    "C44_old_unknown",
    "C44_ends",
    "C36_reaping",
    "C44_refuted"
   ],
   "note": "false in that a handover to another program's process affects that program"
  },
  {
   "property": "C45",
   "status": "proved",
   "theorems": [
    "C45_report"
   ],
   "note": "the whole text of the report; the time format is a parameter"
  },
  {
   "property": "C46",
   "status": "partial",
   "theorems": [
    "C46_pid_shown_partial",
    "C46_reuse_refuted",
    "C46_zero_refuted"
   ],
   "note": "false as stated when the kernel reuses a number or after MAINPID=0"
  },
  {
   "property": "C47",
   "status": "proved",
   "theorems": [
    "C47_user_has_configured_capabilities",
    "C47_root_keeps_capabilities",
    "C47_missing_capability_prevents_start"
   ],
   "note": "Linux credential rules modelled after capabilities(7); executables without file capabilities and set-id bits"
  },
  {
   "property": "C48",
   "status": "proved",
   "theorems": [
    "C48_identity",
    "C48_all_or_nothing",
    "C48_any_failing_step_prevents_start",
    "C48_impossible_identity_prevents_start"
   ],
   "note": "any subset of the steps may fail"
  },
  {
   "property": "C49",
   "status": "proved",
   "theorems": [
    "C49_descriptors_of_program",
    "C49_descriptors_of_cinit"
   ],
   "note": ""
  },
  {
   "property": "C50",
   "status": "proved",
   "theorems": [
    "C50_executed_iff",
    "C50_needs_nothing_refuted"
   ],
   "note": "the refutation shows that CAP_SETFCAP is required even for a program that asks for nothing"
  },
  {
   "property": "C51",
   "status": "proved",
   "theorems": [
    "C51_unknown_capabilities_are_reported"
   ],
   "note": ""
  },
  {
   "property": "C52",
   "status": "partial",
   "theorems": [
    "C52_reason_is_reported_refuted",
    "C52_reason_is_never_reported"
   ],
   "note": "false: the descriptor is closed before the message is written, so it is never seen"
  },
  {
   "property": "C53",
   "status": "partial",
   "theorems": [
    "C53_ignored_signals",
    "C53_default_dispositions_refuted"
   ],
   "note": "false: SIGPIPE is ignored in all programs; the ignored signals are given exactly"
  },
  {
   "property": "C54",
   "status": "proved",
   "theorems": [
    "C54_started_at_once",
    "C54_start_round"
   ],
   "note": ""
  },
  {
   "property": "C55",
   "status": "partial",
   "theorems": [
    "C55_never_stuck",
    "C55_ends_partial",
    "C55_rounds_partial",
    "C55_exit_after_all_ends",
    "C55_hang_refuted",
    "C55_handover_refuted"
   ],
   "note": "false as stated: after a death by real-time signal or a handover to a process that does not exist cinit loops forever; the bound is proved for executions without handover and real-time deaths of programs, with epoll reporting output as long as there is some"
  },
  {
   "property": "C56",
   "status": "proved",
   "theorems": [
    "C56_stderr",
    "C56_stdout",
    "C56_very_verbose"
   ],
   "note": "log4rs modelled by its documented rules; texts of cinit's own messages arbitrary"
  },
  {
   "property": "C57",
   "status": "partial",
   "theorems": [
    "C57_stderr_lines_partial",
    "C57_stdout_lines_partial",
    "C57_attributed_partial",
    "C57_newline_refuted",
    "C57_bracket_refuted",
    "C57_called_cinit_refuted"
   ],
   "note": "false for program names with a line feed or closing bracket, or a program called cinit; proved otherwise"
  },
  {
   "property": "C58",
   "status": "partial",
   "theorems": [
    "C58_more_shows_more_partial",
    "C58_three_refuted"
   ],
   "note": "false: -vvv shows less than -v; proved up to -vv"
  },
  {
   "property": "C59",
   "status": "partial",
   "theorems": [
    "C59_report_lines_partial",
    "C59_report_yaml_partial",
    "C59_carriage_return_refuted"
   ],
   "note": "false: a carriage return in STATUS starts a new line in YAML; proved for line-feed readers, and for YAML without carriage returns; names are unescaped"
  },
  {
   "property": "C60",
   "status": "proved",
   "theorems": [
    "C60_terminals",
    "C60_other_terminals",
    "C60_program_is_on_it"
   ],
   "note": ""
  },
  {
   "property": "C61",
   "status": "proved",
   "theorems": [
    "C61_failure_leaves_nothing",
    "C61_success_leaves_two",
    "C61_forked_iff",
    "C61_every_answer",
    "C61_refines"
   ],
   "note": ""
  },
  {
   "property": "C62",
   "status": "partial",
   "theorems": [
    "C62_unchanged",
    "C62_same_entries_partial",
    "C62_same_entries_refuted"
   ],
   "note": "false without a terminal of cinit: Linux expands line feeds, and a read that ends between carriage return and line feed leaves the carriage return in the log; proved up to such trailing carriage returns, for output without carriage returns"
  },
  {
   "property": "C63",
   "status": "proved",
   "theorems": [
    "C63_ready",
    "C63_confined"
   ],
   "note": ""
  },
  {
   "property": "C64",
   "status": "partial",
   "theorems": [
    "C64_outcome",
    "C64_calls_decide_partial",
    "C64_epoll_refuted"
   ],
   "note": "false: cinit panics if epoll_create fails; everything else proved"
  },
  {
   "property": "C65",
   "status": "partial",
   "theorems": [
    "C65_refusal_partial",
    "C65_refusal_refuted"
   ],
   "note": "false: dependency and timer errors are reported only after the sockets were replaced; proved for all other reasons"
  },
  {
   "property": "C66",
   "status": "proved",
   "theorems": [
    "C66_program_sound",
    "C66_program_complete",
    "C66_document_sound",
    "C66_document_complete",
    "C66_option_order"
   ],
   "note": "over YAML trees; conversions of serde_yaml modelled"
  },
  {
   "property": "C67",
   "status": "partial",
   "theorems": [
    "C67_no_effect_partial",
    "C67_reported_refuted"
   ],
   "note": "false: unknown options are dropped silently, so that a misspelt user means root; proved that they have no effect"
  },
  {
   "property": "C68",
   "status": "proved",
   "theorems": [
    "C68_no_name",
    "C68_twice",
    "C68_no_programs",
    "C68_one_bad",
    "C68_numbers",
    "C68_not_a_number"
   ],
   "note": ""
  },
  {
   "property": "C69",
   "status": "proved",
   "theorems": [
    "C69_settings_kept",
    "C69_programs_kept"
   ],
   "note": ""
  },
  {
   "property": "C70",
   "status": "proved",
   "theorems": [
    "C70_entry_is_a_program",
    "C70_every_program_has_an_entry",
    "C70_runs_as_written"
   ],
   "note": "for entries written as mappings and a user database that gives users by their own numbers"
  },
  {
   "property": "C71",
   "status": "proved",
   "theorems": [
    "C71_states",
    "C71_descriptors",
    "C71_no_leak",
    "C71_nothing_lost"
   ],
   "note": "descriptors of a start that fails midway are taken to be closed by their owners (process.rs drops them)"
  },
  {
   "property": "C72",
   "status": "partial",
   "theorems": [
    "C72_written_partial",
    "C72_not_accepted",
    "C72_idle_client_refuted"
   ],
   "note": "false of the code: the connection is blocking, so a client that does not read stops cinit once the connection has no room left; everything else is proved, with the number of answered writes that suffices"
  },
  {
   "property": "C73",
   "status": "proved",
   "theorems": [
    "C73_not_executed_is_failed",
    "C73_impossible_settings"
   ],
   "note": ""
  },
  {
   "property": "C74",
   "status": "proved",
   "theorems": [
    "C74_file_executed",
    "C74_call_executes_it",
    "C74_only_one_file",
    "C74_no_file",
    "C74_reason",
    "C74_own_environment_irrelevant"
   ],
   "note": "execvpe modelled after the GNU C library; elements of PATH of 4096 bytes and more are left out"
  },
  {
   "property": "C75",
   "status": "proved",
   "theorems": [
    "C75_understood",
    "C75_one_meaning",
    "C75_what_happens"
   ],
   "note": "the library clap is modelled by its documented rules for options, values and clusters"
  },
  {
   "property": "C76",
   "status": "partial",
   "theorems": [
    "C76_on_time_partial",
    "C76_any_on_time_partial",
    "C76_every_due_job_tried",
    "C76_left_out",
    "C76_at_once",
    "C76_held",
    "C76_never_early",
    "C76_once_per_time_partial",
    "C76_leaves_last_partial",
    "C76_cronjobs_alone_refuted",
    "C76_missed_refuted",
    "C76_again_refuted"
   ],
   "note": "false: scheduled cronjobs do not keep cinit alive, times are missed by timers outside plain_timer, and timers with one weekday are due again and again; proved otherwise, for fixed offsets"
  },
  {
   "property": "C77",
   "status": "partial",
   "theorems": [
    "C77_next_run_partial",
    "C77_any_next_run_partial",
    "C77_wrong_time_refuted"
   ],
   "note": "false for timers whose next time is miscalculated (C20); for all timers it is proved exactly when the time shown is the next one"
  },
  {
   "property": "C78",
   "status": "partial",
   "theorems": [
    "C78_variable_partial",
    "C78_page_partial",
    "C78_too_early",
    "C78_argument",
    "C78_raw_variable",
    "C78_raw_argument",
    "C78_page_refuted"
   ],
   "note": "false for variables whose names end in .html, .htm or .xml: tera escapes what is inserted; proved for the others; tera is modelled after its documentation"
  },
  {
   "property": "C79",
   "status": "partial",
   "theorems": [
    "C79_same_program",
    "C79_messages",
    "C79_quiet",
    "C79_raw_value_refuted"
   ],
   "note": "false in one point: the message about a value with braces says that the raw value is used, but the value after instantiation is; everything else is proved"
  },
  {
   "property": "C80",
   "status": "partial",
   "theorems": [
    "C80_forwarded_partial",
    "C80_replaced",
    "C80_home_refuted",
    "C80_pwd_refuted"
   ],
   "note": "false: only LANG, LANGUAGE, PATH and TERM are forwarded; the other five are set from the user database"
  },
  {
   "property": "C81",
   "status": "proved",
   "theorems": [
    "C81_every_execution_has_a_log",
    "C81_log",
    "C81_trace",
    "C81_console"
   ],
   "note": "messages at level DEBUG are left open; error texts of the kernel and of libraries are arbitrary"
  },
  {
   "property": "C82",
   "status": "partial",
   "theorems": [
    "C82_shown_by_default_partial",
    "C82_status_refuted",
    "C82_skipped_refuted"
   ],
   "note": "false: the status of a program, a skipped cronjob and the name of a started program are not shown without -v; proved for all other messages"
  },
  {
   "property": "C83",
   "status": "partial",
   "theorems": [
    "C83_errors",
    "C83_exit_code",
    "C83_how_it_failed_refuted"
   ],
   "note": "false in one point: the message gives a number that may be an exit code or a signal; everything else is proved"
  },
  {
   "property": "C84",
   "status": "partial",
   "theorems": [
    "C84_end",
    "C84_termination_partial",
    "C84_no_signal_refuted"
   ],
   "note": "false in one point: the message about a termination signal is also written when a program fails; everything else is proved"
  },
  {
   "property": "C85",
   "status": "partial",
   "theorems": [
    "C85_reasons",
    "C85_progress",
    "C85_changes_type_refuted",
    "C85_dependencies_refuted"
   ],
   "note": "false in the wording of two messages: 'changes type to cronjob' is said of a drop-in for a cronjob, and 'may not have dependencies' of cronjobs, which may have 'after'; each message is proved to come only with the fault it stands for"
  },
  {
   "property": "C86",
   "status": "partial",
   "theorems": [
    "C86_files_partial",
    "C86_place_refuted",
    "C86_programs_refuted"
   ],
   "note": "false: files that do not parse are not named, and only one of several faulty programs is reported; proved: every file that does not parse is reported"
  },
  {
   "property": "C87",
   "status": "proved",
   "theorems": [
    "C87_every_line"
   ],
   "note": ""
  },
  {
   "property": "C88",
   "status": "proved",
   "theorems": [
    "C88_started",
    "C88_warnings"
   ],
   "note": "what is said about the templates of a program is C79"
  },
  {
   "property": "C89",
   "status": "proved",
   "theorems": [
    "C89_first_fault"
   ],
   "note": ""
  },
  {
   "property": "C90",
   "status": "proved",
   "theorems": [
    "C90_console",
    "C90_failure_shown"
   ],
   "note": ""
  },
  {
   "property": "C91",
   "status": "partial",
   "theorems": [
    "C91_success_clean_partial",
    "C91_success_clean_refuted"
   ],
   "note": "false: errors about programs that cannot be started and about failing epoll_wait do not change the exit code; there are no other errors"
  },
  {
   "property": "C92",
   "status": "proved",
   "theorems": [
    "C92_exact_reason"
   ],
   "note": ""
  },
  {
   "property": "C93",
   "status": "proved",
   "theorems": [
    "C93_every_execution",
    "C93_every_line",
    "C93_above",
    "C93_ends",
    "C93_tells_how",
    "C93_datagrams",
    "C93_cronjobs",
    "C93_shown"
   ],
   "note": ""
  },
  {
   "property": "C94",
   "status": "partial",
   "theorems": [
    "C94_default_partial",
    "C94_verbose_refuted"
   ],
   "note": "Holds without -v. False with -v: a datagram is written to the log as it is, line feeds included."
  },
  {
   "property": "C95",
   "status": "proved",
   "theorems": [
    "C95_above",
    "C95_details",
    "C95_started"
   ],
   "note": ""
  },
  {
   "property": "C96",
   "status": "proved",
   "theorems": [
    "C96_above",
    "C96_every_run",
    "C96_shown",
    "C96_configuration",
    "C96_hidden"
   ],
   "note": ""
  },
  {
   "property": "C97",
   "status": "partial",
   "theorems": [
    "C97_announced_partial",
    "C97_announced_refuted"
   ],
   "note": "Holds up to as many nanoseconds as there are cronjobs. False exactly: of several cronjobs with the same next time all but one are moved."
  },
  {
   "property": "C98",
   "status": "partial",
   "theorems": [
    "C98_next_partial",
    "C98_exact_partial",
    "C98_exact_any_partial",
    "C98_matches_partial",
    "C98_chosen_partial",
    "C98_skipped_refuted",
    "C98_now_refuted",
    "C98_wrong_day_refuted",
    "C98_repeated_hour_refuted"
   ],
   "note": "Proved while the clocks do not change within three days of now and of the next run: C98_chosen_partial says for all timers exactly when the chosen time is the earliest one; that the earliest one is chosen then is proved for timers not restricted by weekday and date at once. False otherwise: a day is skipped, the next run is now or an hour ago, or on a day not in the timer."
  },
  {
   "property": "C99",
   "status": "partial",
   "theorems": [
    "C99_on_time_partial",
    "C99_any_on_time_partial",
    "C99_left_out_partial",
    "C99_any_never_early_partial",
    "C99_never_early_partial",
    "C99_held_partial",
    "C99_missed_refuted",
    "C99_held_refuted"
   ],
   "note": "Proved while the clocks do not change within three days. False otherwise: the daily run of 23:30 is missed in spring; with a run at 00:30 cinit does nothing else for half an hour in autumn."
  },
  {
   "property": "C100",
   "status": "proved",
   "theorems": [
    "C100_entries_together",
    "C100_contradictory_refused",
    "C100_runs_together"
   ],
   "note": "for documents and entries written as mappings, as C70; the order of the drop-ins among each other is that of the directory (C02)"
  },
  {
   "property": "C101",
   "status": "partial",
   "theorems": [
    "C101_completes",
    "C101_page",
    "C101_breaks_off",
    "C101_reads_back_partial",
    "C101_reads_back_refuted"
   ],
   "note": "That the file tells everything back holds if nothing contains a quote or a line feed. False in general: an argument with both looks like two arguments."
  },
  {
   "property": "C102",
   "status": "proved",
   "theorems": [
    "C102_file_as_entries_say"
   ],
   "note": "for documents and entries written as mappings, as C70; what is written is UTF-8"
  },
  {
   "property": "C103",
   "status": "proved",
   "theorems": [
    "C103_course",
    "C103_ends",
    "C103_fault",
    "C103_killed",
    "C103_undisturbed",
    "C103_file",
    "C103_started_by_cinit",
    "C103_stops_refuted"
   ],
   "note": "options as clap has read them; the last theorem shows that as a program of cinit the harness is killed by SIGTERM although its loop looks for signals"
  },
  {
   "property": "C104",
   "status": "proved",
   "theorems": [
    "C104_setup",
    "C104_result",
    "C104_started_by_cinit",
    "C104_blocked",
    "C104_collected",
    "C104_output",
    "C104_sleeps",
    "C104_not_stuck",
    "C104_sent",
    "C104_bounded"
   ],
   "note": "signals that kill forker are left out"
  },
  {
   "property": "C105",
   "status": "partial",
   "theorems": [
    "C105_understood_partial",
    "C105_one_meaning",
    "C105_what_happens_partial",
    "C105_undisturbed_partial",
    "C105_started_by_cinit_partial",
    "C105_no_socket",
    "C105_ready_refuted"
   ],
   "note": "All but the flag for readiness. False: the harness announces readiness with or without the flag, since clap gives a flag without values the default false and contains_id is true of defaults; where the socket cannot be reached it fails (C105_no_socket)."
  }
 ]
}