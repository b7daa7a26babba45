{
 "claims": [
  {
   "property": "C01",
   "status": "proved",
   "theorems": [
    "C01_loaded_configuration_closed"
   ],
   "note": ""
  },
  {
   "property": "C02",
   "status": "proved",
   "theorems": [
    "C02_pipelines_are_the_declared_ones",
    "C02_components_are_the_used_ones"
   ],
   "note": "also characterises the component table"
  },
  {
   "property": "C03",
   "status": "proved",
   "theorems": [
    "C03_accepted_iff_well_formed"
   ],
   "note": ""
  },
  {
   "property": "C04",
   "status": "partial",
   "theorems": [
    "C04_refuted",
    "C04_distinct_channels_distinct_names_partial",
    "C04_no_channel_dropped_partial"
   ],
   "note": "False in general (finding): device addresses/channels containing commas can give two hardware channels the same component name. Proved when driver names contain no '(' and channels no ','."
  },
  {
   "property": "C05",
   "status": "proved",
   "theorems": [
    "C05_driver_settings"
   ],
   "note": "hypothesis NoDup on the TOML tables: TOML forbids duplicate keys"
  },
  {
   "property": "C06",
   "status": "proved",
   "theorems": [
    "C06_reload_keeps_running_jobs"
   ],
   "note": ""
  },
  {
   "property": "C07",
   "status": "proved",
   "theorems": [
    "C07_failed_reload_changes_nothing",
    "C07_successful_reload_is_exact",
    "C07_compatible_reload_succeeds",
    "C07_reason"
   ],
   "note": "'keeps everything used by running jobs' includes that an occupied pipeline is configured at present; the other case is C73"
  },
  {
   "property": "C08",
   "status": "partial",
   "theorems": [
    "C08_refuted",
    "C08_kept_pipelines_partial",
    "C08_kept",
    "C08_never"
   ],
   "note": "False (finding): reload creates no state record for a new pipeline; loading a sample into it then reports success without effect. Proved: records that exist are kept by a reload; in every execution without reload every pipeline of the configuration in force has a record (C08_kept); a pipeline without record gets one only when a daemon is started (C08_never)."
  },
  {
   "property": "C09",
   "status": "proved",
   "theorems": [
    "C09_start_completes_records"
   ],
   "note": ""
  },
  {
   "property": "C38",
   "status": "proved",
   "theorems": [
    "C38_stop_iff_idle"
   ],
   "note": ""
  },
  {
   "property": "C73",
   "status": "partial",
   "theorems": [
    "C73_refuted",
    "C73_reload_is_answered_partial",
    "C73_raises_iff"
   ],
   "note": "False in general (finding): KeyError when a pipeline that holds a job is not in the present configuration. Proved when all occupied pipelines are configured; C73_raises_iff says exactly when a reload raises."
  },
  {
   "property": "C10",
   "status": "proved",
   "theorems": [
    "C10_submit_adds_one_job"
   ],
   "note": "wf_queue (ids increasing and at most the largest used one) holds in every reachable state, see C21"
  },
  {
   "property": "C11",
   "status": "partial",
   "theorems": [
    "C11_refuted",
    "C11_submit_reports_its_job_partial",
    "C11_reports_first",
    "C11_iff"
   ],
   "note": "False (finding): the id is read back by submission time, so two submits at the same clock reading report the first job. Proved when no job has the same submission time, and that this is necessary (C11_iff); the job reported is always the first one with this submission time."
  },
  {
   "property": "C12",
   "status": "proved",
   "theorems": [
    "C12_submit_succeeds_iff",
    "C12_rejected_submit_changes_nothing"
   ],
   "note": ""
  },
  {
   "property": "C13",
   "status": "proved",
   "theorems": [
    "C13_queued_payload",
    "C10_submit_adds_one_job"
   ],
   "note": "the update() methods of dgbowl-schemas are an arbitrary chain of payload objects"
  },
  {
   "property": "C14",
   "status": "proved",
   "theorems": [
    "C14_status_is_exact"
   ],
   "note": ""
  },
  {
   "property": "C15",
   "status": "proved",
   "theorems": [
    "C15_cancel_one_job"
   ],
   "note": ""
  },
  {
   "property": "C16",
   "status": "partial",
   "theorems": [
    "C16_refuted",
    "C16_other_jobs_untouched_partial",
    "C16_cancel_list_partial",
    "C16_exact",
    "C16_iff"
   ],
   "note": "False (finding): every update goes to the last listed id. Proved: jobs not listed are untouched; exactly what happens for every list of existing jobs (C16_exact), and exactly when a list is cancelled as it should be (C16_iff)."
  },
  {
   "property": "C17",
   "status": "partial",
   "theorems": [
    "C17_refuted",
    "C17_cancel_twice_partial",
    "C17_iff"
   ],
   "note": "False (finding): cancelling a running job twice raises UnboundLocalError. Proved: the second cancel never changes anything, and it is answered exactly if the job was not running or being cancelled (C17_iff)."
  },
  {
   "property": "C18",
   "status": "proved",
   "theorems": [
    "C18_search_finds_all"
   ],
   "note": ""
  },
  {
   "property": "C19",
   "status": "partial",
   "theorems": [
    "C19_refuted",
    "C19_search_exact_partial",
    "C19_pattern_exact"
   ],
   "note": "False (finding): LIKE ignores ASCII case and interprets '_' and '%'. Proved: for texts without these and quotes, the result is exactly the jobs whose name contains the text up to ASCII case; for all texts without quotes it is exactly the jobs with a name of which a part matches the text as a pattern (C19_pattern_exact)."
  },
  {
   "property": "C20",
   "status": "partial",
   "theorems": [
    "C20_refuted",
    "C20_snapshot_refused_iff",
    "C20_snapshot_writes_all_partial",
    "C20_iff",
    "C20_snapshot_writes_only_partial",
    "C20_archives_distinct"
   ],
   "note": "False (finding): a requested job that was cancelled while queued has no job folder; snapshot raises, possibly after writing other archives. Proved: refusal iff a job is missing or queued; otherwise exactly the requested archives if and only if all jobs have a folder and can be merged; never anything else."
  },
  {
   "property": "C22",
   "status": "proved",
   "theorems": [
    "C22_load"
   ],
   "note": "C22_quote shows that a pipeline name with a quote character makes the command raise"
  },
  {
   "property": "C23",
   "status": "proved",
   "theorems": [
    "C23_eject",
    "C23_C24_no_record",
    "C23_C24_unrecorded"
   ],
   "note": "for a configured pipeline without a record (C08) the command raises AssertionError and changes nothing"
  },
  {
   "property": "C24",
   "status": "proved",
   "theorems": [
    "C24_ready",
    "C23_C24_no_record",
    "C23_C24_unrecorded"
   ],
   "note": "for a configured pipeline without a record (C08) the command raises AssertionError and changes nothing"
  },
  {
   "property": "C26",
   "status": "proved",
   "theorems": [
    "C26_matching"
   ],
   "note": ""
  },
  {
   "property": "C27",
   "status": "proved",
   "theorems": [
    "C27_check"
   ],
   "note": ""
  },
  {
   "property": "C28",
   "status": "proved",
   "theorems": [
    "C28_start"
   ],
   "note": ""
  },
  {
   "property": "C35",
   "status": "proved",
   "theorems": [
    "C35_reconcile"
   ],
   "note": "finding: a job marked for termination without a recorded process is never resolved (C35_no_process)"
  },
  {
   "property": "C36",
   "status": "proved",
   "theorems": [
    "C36_free"
   ],
   "note": ""
  },
  {
   "property": "C37",
   "status": "partial",
   "theorems": [
    "C37_refuted",
    "C37_partial",
    "C37_unreached"
   ],
   "note": "False (finding): MAX_JOB_NOPID of pip.py is passed to timedelta as days, and manage_running only looks at jobs with a recorded process. Proved: the pipeline is freed after ten days and not before; the job is never marked; the code meant for it would mark it as cancelled after ten seconds (C37_unreached), but is not reached."
  },
  {
   "property": "C64",
   "status": "proved",
   "theorems": [
    "C64_outcome"
   ],
   "note": ""
  },
  {
   "property": "C21",
   "status": "proved",
   "theorems": [
    "C21_jobs_kept"
   ],
   "note": "All executions from any state with a well-formed queue; SQL statements are atomic and succeed."
  },
  {
   "property": "C29",
   "status": "partial",
   "theorems": [
    "C29_refuted",
    "C29_once_partial"
   ],
   "note": "False as stated: a reload that changes the job storage while a started job has not yet reported back lets the job be started a second time. Proved for all executions in which the job storage stays the same."
  },
  {
   "property": "C30",
   "status": "proved",
   "theorems": [
    "C30_reserved_free"
   ],
   "note": "For pipelines whose name has no quote character."
  },
  {
   "property": "C45",
   "status": "proved",
   "theorems": [
    "C45_port_pid"
   ],
   "note": "All executions."
  },
  {
   "property": "C25",
   "status": "proved",
   "theorems": [
    "C25_well"
   ],
   "note": "All executions in which commands and iterations of the job manager do not overlap; commands among themselves, the other managers, and job and driver processes run at any time. For pipelines whose name has no quote character. C25_overlap shows that the condition is needed."
  },
  {
   "property": "C31",
   "status": "partial",
   "theorems": [
    "C31_refuted",
    "C31_race_refuted",
    "C31_one_partial"
   ],
   "note": "False as stated (findings): cancelling a running job frees its pipeline but never ends its process, so the next job runs beside it; and an iteration of the pipeline manager acts on rows it read before the job ended and the next one was started (C31_race_refuted). Proved for all executions without a running job marked for termination, without overlap of an iteration of the job manager with one of the pipeline manager (commands, drivers, processes and the driver manager run at any time), with processes that connect within ten days, with a clock that does not reach a job's tenth day in the middle of an iteration, and for pipeline names without an apostrophe: one process per pipeline, and the row of the pipeline names its job."
  },
  {
   "property": "C32",
   "status": "partial",
   "theorems": [
    "C32_refuted",
    "C32_connect_refuted",
    "C32_never_runs",
    "C32_cancelled_partial"
   ],
   "note": "False as stated (findings): a scheduling pass in progress starts the job although it has been cancelled, and a process already started for it connects and records it as running. Proved that these are the only two ways (C32_never_runs): a job recorded as cancelled while the job manager is not in the middle of an iteration, and that has no process, is never started and never becomes queued or running, whatever commands are in progress or follow. C32_cancelled_partial: its status even stays 'cd' if no command is about to write to its record and no cancel of several jobs names it last."
  },
  {
   "property": "C33",
   "status": "partial",
   "theorems": [
    "C33_refuted",
    "C33_list_refuted",
    "C33_final_partial"
   ],
   "note": "False as stated (findings): the process of a cancelled job goes on and replaces 'cd' by 'c'; a cancel of several jobs overwrites the final status of the job that it names last. Proved when the job has no process left, the job manager is not in the middle of an iteration, no command in progress is about to write to the record, and no later cancel of several jobs names it last. What such a cancel does is C16_exact."
  },
  {
   "property": "C34",
   "status": "partial",
   "theorems": [
    "C34_refuted",
    "C34_pass_partial",
    "C34_exact",
    "C34_needs"
   ],
   "note": "False as stated (finding): a job started but not yet connected is started again on another ready pipeline, makedirs fails and the job manager ends. Proved: a pass succeeds whenever drivers answer, archives can be written, and no queued job has a folder yet (C34_pass_partial); exactly: if drivers answer and archives can be written, both of which are necessary (C34_needs), it succeeds if and only if none of the jobs it is about to start has a folder (C34_exact)."
  },
  {
   "property": "C39",
   "status": "partial",
   "theorems": [
    "C39_refuted",
    "C39_stopped_partial"
   ],
   "note": "False as stated (finding): the pass in progress goes on starting jobs. Proved: nothing is started once managers have been told to stop and the pass in progress is over."
  },
  {
   "property": "C44",
   "status": "partial",
   "theorems": [
    "C44_refuted",
    "C44_starts_partial"
   ],
   "note": "False as stated (finding): a driver that dies right after registering is restarted after less than five seconds, since its record is reset with spawn time 0. Proved: from any state in which the driver is not registered, as long as it does not register and the daemon does not crash, at most 3 - spawn_count starts, more than five seconds apart."
  },
  {
   "property": "C46",
   "status": "partial",
   "theorems": [
    "C46_refuted",
    "C46_never",
    "C46_stopped_partial"
   ],
   "note": "False (finding): del_drv passes its parameter wrongly, always raises, and ends the driver manager; the record is never deleted. Proved: the first removed driver is told to stop."
  },
  {
   "property": "C47",
   "status": "partial",
   "theorems": [
    "C47_refuted",
    "C47_pass_partial"
   ],
   "note": "False as stated (finding): contact times are perf_counter values kept in the database; after a reboot they lie in the future and a dead driver is not noticed. Proved: exactly what a pass does to every record relative to the recorded times, for every configured driver whose answers are well-formed."
  },
  {
   "property": "C40",
   "status": "partial",
   "theorems": [
    "C40_refuted",
    "C40_ends_refuted",
    "C40_unknown",
    "C40_regular_partial"
   ],
   "note": "False as stated (finding): an unknown command leaves the variable ret as it was, so the sender gets the reply to somebody else's request (this happens after every successful 'passata register', since the driver sends the unknown command 'component'), or the daemon ends with UnboundLocalError; the names of other attributes of module cmd end it with TypeError. Proved for messages without a command and the three commands."
  },
  {
   "property": "C41",
   "status": "partial",
   "theorems": [
    "C41_refuted",
    "C41_exit_partial",
    "C41_flags"
   ],
   "note": "False as stated because of the exceptions of C40. Proved: the loop is left only after a stop was accepted and in the first turn in which no manager is alive; the managers are told to go on until then and all told to stop afterwards (C41_flags)."
  },
  {
   "property": "C42",
   "status": "proved",
   "theorems": [
    "C42_definite",
    "C42_unbounded"
   ],
   "note": ""
  },
  {
   "property": "C43",
   "status": "partial",
   "theorems": [
    "C43_refuted",
    "C43_count_partial"
   ],
   "note": "False (finding): a slow server executes the request once per retry. Proved: at most as often as it is sent; once if late requests are dropped."
  },
  {
   "property": "C48",
   "status": "partial",
   "theorems": [
    "C48_refuted",
    "C48_attempts_partial",
    "C48_untouched",
    "C48_skip",
    "C48_success_resets",
    "C48_half_registered"
   ],
   "note": "False as stated (finding): an attempt on request at count three re-opens automatic registration without limit. Proved: without such requests at most three attempts since the last success, registered components untouched, success resets."
  },
  {
   "property": "C49",
   "status": "partial",
   "theorems": [
    "C49_refuted",
    "C49_unit_refuted",
    "C49_options_refuted",
    "C49_partial",
    "C49_default_unit",
    "C49_prepare",
    "C49_runs",
    "C49_v20_unchecked"
   ],
   "note": "False as stated (findings): nan passes the bounds, compatible units are not converted, options are checked before the unit is added. Proved with these exceptions made explicit, and for whole runs of a 2.1 driver that only results of coerce_val are passed on; the 2.0 interface checks nothing when an attribute is set (C49_v20_unchecked)."
  },
  {
   "property": "C50",
   "status": "proved",
   "theorems": [
    "C50",
    "C50_prepare",
    "C50_iff",
    "C50_refused",
    "C50_prepare_exact"
   ],
   "note": "For the 2.1 interface; a 2.0 device has no coerce_val."
  },
  {
   "property": "C51",
   "status": "partial",
   "theorems": [
    "C51_refuted",
    "C51_unknown_partial",
    "C51_dies20"
   ],
   "note": "False for the 2.0 interface (finding): the refusal cannot be pickled and ends the driver. Proved for the 2.1 interface."
  },
  {
   "property": "C71",
   "status": "partial",
   "theorems": [
    "C71_refuted",
    "C71_spaced_partial",
    "C71_failure",
    "C71_endings"
   ],
   "note": "False when a driver overrides cmp_measure by a method that raises (finding): the round is repeated at once, after every failure and without the components behind the failing one (C71_failure). Proved for the class's own cmp_measure and unchanged settings; for every driver, how the idle part of a turn can end (C71_endings)."
  },
  {
   "property": "C72",
   "status": "partial",
   "theorems": [
    "C72_refuted",
    "C72_register20",
    "C72_survives_partial",
    "C72_fatal",
    "C72_fatal_component",
    "C72_settings"
   ],
   "note": "False for registration on request, and for the register request with the 2.0 interface (findings). Proved for all other bad requests (C72_survives_partial); C72_fatal lists the requests about the driver itself, C72_fatal_component those about a component, that end it in every state (findings)."
  },
  {
   "property": "C52",
   "status": "partial",
   "theorems": [
    "C52_partial",
    "C52_objects",
    "C52_refuted",
    "C52_v20_partial"
   ],
   "note": "Proved for each device object of the 2.1 interface under all schedules; a component that is registered again while busy gets a second worker, and both measure at the same time (C52_refuted). 2.0: proved when resets and one-off measurements are requested only while no thread is active (C52_v20_partial); otherwise false (C56_v20_refuted, C57_v20_refuted)."
  },
  {
   "property": "C53",
   "status": "proved",
   "theorems": [
    "C53"
   ],
   "note": "2.1 interface, each device object; do_measure stores one new point or raises. Points of a get_data overtaken by the start of a task count as returned."
  },
  {
   "property": "C54",
   "status": "partial",
   "theorems": [
    "C54_partial",
    "C54_ends_partial",
    "C54_refuted",
    "C54_v20_spacing"
   ],
   "note": "The sampling part is proved, and that at most one measurement is made past the maximum duration, after which the task ends; strictly, that one measurement violates the statement (C54_refuted). Times are integers."
  },
  {
   "property": "C55",
   "status": "partial",
   "theorems": [
    "C55_partial",
    "C55_none_partial",
    "C55_progress",
    "C55_refuted",
    "C55_v20_refuted",
    "C55_v20_noop"
   ],
   "note": "2.1: true once the worker is in the measuring loop; a stop that arrives while the task is prepared is lost. 2.0: a stop never stops anything."
  },
  {
   "property": "C56",
   "status": "partial",
   "theorems": [
    "C56_partial",
    "C56_data",
    "C56_data_step",
    "C56_refuted",
    "C56_v20_refuted"
   ],
   "note": "The data part is proved; acceptance can race with the worker taking a task from the queue; in 2.0 with the thread of a task just started, which then runs beside the measurement (C56_v20_refuted)."
  },
  {
   "property": "C57",
   "status": "proved",
   "theorems": [
    "C57",
    "C57_accepts",
    "C57_goes",
    "C57_bound",
    "C57_v20_refuted"
   ],
   "note": "Proved for the 2.1 interface (the anchor). The 2.0 interface does not have the property: C57_v20_refuted."
  },
  {
   "property": "C58",
   "status": "proved",
   "theorems": [
    "C58",
    "C58_one",
    "C58_broken",
    "C58_error"
   ],
   "note": "Tasks of a role in method order, one worker per role of the pipeline that has tasks, with its component, device and driver port; C58_broken: if the main thread raises while distributing, the workers of the roles before are already running"
  },
  {
   "property": "C59",
   "status": "partial",
   "theorems": [
    "C59_partial",
    "C59_sent",
    "C59_refuted",
    "C59_no_port",
    "C59_port_refuted"
   ],
   "note": "False: with three tasks on a role the third is never sent and the job ends with 'c' (C59_refuted), because completed_tasks becomes None and the worker dies of an AttributeError after its second task. False also when the driver manager finds the driver silent and clears its port after the job process has seen that all drivers have ports: the worker dies while connecting, nothing is sent, the job ends with 'c' (C59_no_port, C59_port_refuted). Proved for at most two tasks per role, a driver with a port, no crash flag and no operation that raised"
  },
  {
   "property": "C60",
   "status": "partial",
   "theorems": [
    "C60_partial",
    "C60_refuted"
   ],
   "note": "Proved with 'seen to end, stopped, or status refused'; a refused status request ends the wait for the task, so the next one may be sent while the previous runs (C60_refuted)"
  },
  {
   "property": "C61",
   "status": "partial",
   "theorems": [
    "C61_partial",
    "C61_end_partial",
    "C61_file_partial",
    "C61_refuted"
   ],
   "note": "False when writing raises: the data is lost, the worker ends without crash flag and the job is reported complete (C61_refuted). Proved: stored is received at every moment, except the last answer, which is about to be stored or whose storing has just raised (then it is lost and the worker is dead)"
  },
  {
   "property": "C62",
   "status": "partial",
   "theorems": [
    "C62_partial",
    "C62_never",
    "C62_refuted"
   ],
   "note": "False for roles with two tasks or more: their worker never resets the component, whatever happens (C62_never). Proved for at most one task"
  },
  {
   "property": "C63",
   "status": "partial",
   "theorems": [
    "C63_worker",
    "C63_partial",
    "C63_ended",
    "C63_refuted"
   ],
   "note": "The worker's part is proved. The job ends with 'ce' if the crash flag was set before the last turn of the main loop; a crash between its two readings gives 'c' (C63_refuted)"
  },
  {
   "property": "C65",
   "status": "proved",
   "theorems": [
    "C65",
    "C65_folder"
   ],
   "note": "Role names without slash (a slash names another folder and storing raises). Files of the folder are readable; see C66 for those that are not"
  },
  {
   "property": "C66",
   "status": "partial",
   "theorems": [
    "C66_partial",
    "C66_refuted",
    "C66_lost",
    "C66_snapshot"
   ],
   "note": "False: the file is truncated before it is written; killed in between, all data of the role is lost (C66_refuted) and no data of any role can be merged (C66_lost). Proved for every other crash point, and for all other files at every crash point"
  },
  {
   "property": "C67",
   "status": "partial",
   "theorems": [
    "C67_partial",
    "C67_prefix_partial",
    "C67_refuted",
    "C67_overwrites"
   ],
   "note": "False with equal prefixes or a prefix that looks like a default name (C67_refuted). Proved without prefixes, and with different prefixes without slash"
  },
  {
   "property": "C68",
   "status": "proved",
   "theorems": [
    "C68",
    "C68_same",
    "C68_force",
    "C68_race"
   ],
   "note": "The check and the change are two requests; a task may start in between (C68_race), and a queued task does not count as running"
  },
  {
   "property": "C69",
   "status": "partial",
   "theorems": [
    "C69_partial",
    "C69_iff",
    "C69_refuted"
   ],
   "note": "False for a table without rows, which raises ValueError (C69_refuted). Proved for all others whose rows have all keys; strings are byte sequences"
  },
  {
   "property": "C70",
   "status": "proved",
   "theorems": [
    "C70",
    "C70_complete",
    "C70_again",
    "C70_written"
   ],
   "note": "At every crash point, too"
  },
  {
   "property": "C74",
   "status": "partial",
   "theorems": [
    "C74_current_partial",
    "C74_new_partial",
    "C74_completes",
    "C74_schema",
    "C74_old",
    "C74_refuted"
   ],
   "note": "False: the version is asserted before the upgrade, so no earlier version is ever upgraded (C74_old), and an interrupted creation (version 0 with a queue table) is refused for ever (C74_refuted). Proved for current, missing, empty and foreign databases (C74_completes: all that lack a queue table); the columns of a new database are those that the statements name (C74_schema)"
  },
  {
   "property": "C75",
   "status": "partial",
   "theorems": [
    "C75",
    "C75_sends",
    "C75_order",
    "C75_refuses",
    "C75_raises",
    "C75_refuted"
   ],
   "note": "False for register when the driver has no port: it raises ZMQError (C75_refuted). Proved otherwise; C75 for tables that do not change while the command runs"
  },
  {
   "property": "C76",
   "status": "partial",
   "theorems": [
    "C76_partial",
    "C76_refuses",
    "C76_refuted"
   ],
   "note": "False: with another port a second daemon for the same database is spawned (C76_refuted). The first part is proved"
  },
  {
   "property": "C77",
   "status": "proved",
   "theorems": [
    "C77_records_complete"
   ],
   "note": "For every execution from complete records"
  },
  {
   "property": "C78",
   "status": "partial",
   "theorems": [
    "C78_completed_partial",
    "C78_again_partial",
    "C78_storage_partial",
    "C78_refuted",
    "C78_again_refuted"
   ],
   "note": "False: an iteration of the job manager that read the job as running overwrites 'c' with 'ce' when the process has ended (C78_refuted); a job started twice (see C29) is recorded as running after it has completed (C78_again_refuted). Proved for all executions, whatever is in progress: as long as no job is started twice, for instance while the storage is not changed, a completed job is never queued or running again (C78_again_partial, C78_storage_partial); and it is not recorded as crashed either if no iteration is in progress at some moment after it completed (C78_completed_partial)"
  },
  {
   "property": "C79",
   "status": "partial",
   "theorems": [
    "C79_reads_only",
    "C79_not_running",
    "C79_unknown_group",
    "C79_tomato",
    "C79_devices",
    "C79_drivers",
    "C79_pipelines_partial",
    "C79_components_partial",
    "C79_answered",
    "C79_refuted"
   ],
   "note": "False in general: components raises or blocks when a driver has no port or does not answer, pipelines raises after a reload that adds a pipeline, empty groups raise (C69_refuted). Proved when every pipeline has a record, every driver answers and the group is not empty; these conditions are also necessary (C79_answered); reading only is proved without condition"
  },
  {
   "property": "C80",
   "status": "proved",
   "theorems": [
    "C80_log_level",
    "C80_order_irrelevant"
   ],
   "note": "For all lines; abbreviated options, --option=value, clusters of short options, -- and words like -1.5 are outside the model of argparse"
  },
  {
   "property": "C81",
   "status": "partial",
   "theorems": [
    "C81_understood_partial",
    "C81_accounted",
    "C81_nothing_lost",
    "C81_refused",
    "C81_unread",
    "C81_refuted",
    "C81_misspelled_option_refuted"
   ],
   "note": "False: words after an option in between (ketchup cancel 1 -v 2), surplus arguments and misspelled options are dropped without a message (C81_refuted). Proved for every subcommand when the positional arguments stand together and all options are known (C81_understood_partial); and for every line whatever that leads to a call, every word is accounted for: the words are the path, options with their values, arguments in order, or ignored words, which are ignored only if they look like an unknown option or come after all arguments were given, and each argument of the call is what the last piece about it says or its default (C81_accounted, C81_nothing_lost). A line is refused only if it asks for help or the version, names no subcommand, or if after a properly read part of it an argument or the value of an option is missing or not a possible one (C81_refused); the model gives no answer only for lines with a word of unusual spelling (C81_unread)"
  },
  {
   "property": "C82",
   "status": "proved",
   "theorems": [
    "C82_arguments",
    "C82_daemon_first"
   ],
   "note": "For all lines within the model of argparse"
  },
  {
   "property": "C83",
   "status": "partial",
   "theorems": [
    "C83_of_use_partial",
    "C83_refuted"
   ],
   "note": "False: ketchup search --complete is accepted and used nowhere; tomato init ignores --port and --timeout. Proved for all others"
  },
  {
   "property": "C84",
   "status": "partial",
   "theorems": [
    "C84_refuted",
    "C84_newer_is_stricter",
    "C84_same_partial",
    "C84_accepted_exact",
    "C84_differ_iff"
   ],
   "note": "False: 2.0 accepts None for text, and options are not checked (C84_refuted). Proved: what 2.1 accepts 2.0 accepts; same results, exceptions included, without None and without options; 2.1 accepts exactly what 2.0 accepts in which no parameter is None and every parameter with options is one of them after conversion (C84_accepted_exact), hence exactly when they disagree (C84_differ_iff)"
  },
  {
   "property": "C85",
   "status": "partial",
   "theorems": [
    "C85_queued_partial",
    "C85_dies20",
    "C85_refuted",
    "C85_idle20_partial"
   ],
   "note": "False for 2.0: a valid task for a component whose thread was started before ends the driver (C85_dies20, C85_refuted). Proved for 2.1 in every state, and for 2.0 when the thread is unused"
  },
  {
   "property": "C86",
   "status": "proved",
   "theorems": [
    "C86_unique",
    "C86_teardown",
    "C86_refused_afterwards"
   ],
   "note": "For requests without do_run; with it a 2.1 driver ends (C86_ex_argument)"
  },
  {
   "property": "C87",
   "status": "partial",
   "theorems": [
    "C87_refuted",
    "C87_dead",
    "C87_dead_accepts",
    "C87_taken_partial",
    "C87_v20_stuck",
    "C87_v20_usable_partial"
   ],
   "note": "False: once the driver's code has raised, the 2.1 worker is gone, the component still says ready and accepts tasks that are never begun (C87_refuted, C87_dead); a failed one-off measurement blocks a 2.0 component for ever (C87_v20_stuck). Proved when the driver's code did not raise: from every state the worker can get to the first waiting item by its own steps"
  },
  {
   "property": "C88",
   "status": "partial",
   "theorems": [
    "C88_refuted",
    "C88_matching_exact",
    "C88_blocked",
    "C88_pass_exact",
    "C88_wait_exact",
    "C88_never_port",
    "C88_never_works"
   ],
   "note": "False: the job manager asks the drivers of every pipeline that has the roles of a queued job; one driver without port or answer makes the whole pass fail, for all jobs (C88_refuted, C88_blocked; exact condition in C88_matching_exact, C88_pass_exact). A job process waits until all recorded drivers have a port, also those it does not use (C88_wait_exact); if one driver can never be started, no job ever begins its work (C88_never_port for all executions, C88_never_works)"
  },
  {
   "property": "C89",
   "status": "partial",
   "theorems": [
    "C89_start",
    "C89_process",
    "C89_modules_partial",
    "C89_refuted"
   ],
   "note": "First part proved for all inputs (C89_start); the driver processes of the system model change the world in the same way (C89_process). Last part false: dashes become underscores, so my-driver and my_driver share a module (C89_refuted); proved for names without dashes"
  },
  {
   "property": "C90",
   "status": "partial",
   "theorems": [
    "C90_refuted",
    "C90_written",
    "C90_content_partial",
    "C90_content_refuted",
    "C90_path",
    "C90_failed"
   ],
   "note": "False: no crate and no message without the optional library, or for the repository 'default' when it is not configured (C90_refuted; exactly when in C90_written). Contents proved for users and samples with different names (C90_content_partial); with equal names the author is lost (C90_content_refuted). Paths: C90_path. A failure to write the crate leaves the job running and its pipeline reserved (C90_failed)"
  },
  {
   "property": "C91",
   "status": "partial",
   "theorems": [
    "C91_launch_refuted",
    "C91_order_refuted",
    "C91_dated_partial",
    "C91_order_partial",
    "C91_connected_partial",
    "C91_kept"
   ],
   "note": "Permanence proved for all executions (C91_kept); with a clock that is not set back all times lie between submission and now (C91_dated_partial). Launch before connection is false: the daemon reads the clock after it has started the process (C91_launch_refuted). Connection before completion is false for a job that is started twice (C91_order_refuted, see C29) and proved for all executions without a double start (C91_order_partial), in which connected_at is also written only once (C91_connected_partial)"
  },
  {
   "property": "C92",
   "status": "partial",
   "theorems": [
    "C92_job_refuted",
    "C92_pip_refuted",
    "C92_stays",
    "C92_busy",
    "C92_exact_partial",
    "C92_job_exact",
    "C92_pip_exact",
    "C92_drv_exact",
    "C92_at_once"
   ],
   "note": "False: cancelling a job between its connection and the recording of its paths ends the job manager (C92_job_refuted); a driver that does not answer stops the pipeline manager (C92_pip_refuted); see C46 and C88 for other causes. Proved for all executions: an ended manager is never replaced and its work is not done by anybody (C92_stays, C92_busy). Exact conditions under which an undisturbed pass succeeds: C92_exact_partial (looking after running jobs), C92_job_exact, C92_pip_exact, C92_drv_exact; sufficient conditions for passes that are interleaved with other threads: C104_lives; conversely, in every execution a manager whose next operation fails, or that looks up a driver that is not recorded, ends with that exception at once, except for the timed requests of the driver manager (C92_at_once). When folders of queued jobs exist: C34_exact, which matter only if their processes still live when the pass gets to them"
  },
  {
   "property": "C93",
   "status": "partial",
   "theorems": [
    "C93_order",
    "C93_stored_partial",
    "C93_account",
    "C93_lost",
    "C93_short_refuted",
    "C93_stop_refuted"
   ],
   "note": "Order and uniqueness proved for all executions (C93_order). After one failed request the worker stores nothing more and exits as crashed (C93_lost). Nothing is lost: proved for tasks without stop condition on a component used by this job only, with answered requests (C93_stored_partial); for all tasks, what is missing is exactly what the component dropped (C93_account). False in two cases: a task that is over before the job sees it run is never fetched and the job fails (C93_short_refuted); a task that is stopped while its component is about to measure loses that point (C93_stop_refuted)"
  },
  {
   "property": "C94",
   "status": "partial",
   "theorems": [
    "C94_partial",
    "C94_refuted"
   ],
   "note": "Exact condition for the answer proved for all executions (C94_partial): running means announced and not finished, which implies being executed; between taking a task from the queue and announcing it the answer is wrong (C94_refuted, and C56_refuted for a consequence)"
  },
  {
   "property": "C95",
   "status": "partial",
   "theorems": [
    "C95_partial",
    "C95_plain_bound",
    "C95_validate",
    "C95_refuted"
   ],
   "note": "False: a bound declared as a plain nonzero number for an attribute with a unit makes every value be refused with ValueError and ends the driver when a task is validated (C95_refuted, C95_plain_bound). Proved when the bounds have the attribute's dimension and quantities are declared with a unit (C95_partial); validation accepts exactly the tasks with a known technique and coercible parameters (C95_validate)"
  },
  {
   "property": "C96",
   "status": "proved",
   "theorems": [
    "C96_others",
    "C96_reads",
    "C96_answers",
    "C96_data_once",
    "C96_last_stays",
    "C96_measure",
    "C96_measure20",
    "C96_status",
    "C96_component_status",
    "C96_driver"
   ],
   "note": "For both versions; C96_measure and C96_measure20 for drivers that keep the class's own cmp_measure; starting and tearing down are C85 and C86, setting attributes C49"
  },
  {
   "property": "C97",
   "status": "partial",
   "theorems": [
    "C97_told_partial",
    "C97_exact",
    "C97_once",
    "C97_exit",
    "C97_only",
    "C97_for_good",
    "C97_hangs",
    "C97_silent_refuted",
    "C97_left_refuted",
    "C97_kill"
   ],
   "note": "False in two ways: a driver that has died keeps the driver manager waiting for ever, so that the drivers after it are not told and the daemon cannot exit (C97_silent_refuted, C97_hangs); a driver process that was started and has not announced itself is left alone (C97_left_refuted). Proved for all executions: when the manager comes to its end, every driver that had announced itself when it began to stop them was told (C97_told_partial); undisturbed it comes to its end exactly if all drivers that have a port answer, and tells each once (C97_exact, C97_once); exactly when the daemon exits: C97_exit; managers are told to stop and leave their loops only while the daemon is stopping (C97_only), and it does not go back to work (C97_for_good)"
  },
  {
   "property": "C98",
   "status": "partial",
   "theorems": [
    "C98_final",
    "C98_cancelled",
    "C98_refuted",
    "C90_failed",
    "C20_snapshot_writes_only_partial"
   ],
   "note": "Proved for jobs whose process comes to its end (C98_final) and for snapshots (C20_snapshot_writes_only_partial: as recorded, except for the path of the snapshot). False for cancelled jobs: the file is written before the row is updated and says 'rd' without a completion time for ever (C98_refuted; C98_cancelled: always so, and exactly the cancelled jobs with a live process get a file). A job whose crate cannot be written has a file that says completed while its row goes from 'r' to 'ce' (C90_failed)"
  },
  {
   "property": "C99",
   "status": "proved",
   "theorems": [
    "C99_pass",
    "C99_starts",
    "C99_order",
    "C99_process",
    "C99_life"
   ],
   "note": "C99_life is about executions of the whole system: the steps of the job manager and of the started process lead to the end of the job. When the conditions fail: C34, C88, C92."
  },
  {
   "property": "C100",
   "status": "partial",
   "theorems": [
    "C100_refuted",
    "C100_recorded_partial",
    "C100_spawned",
    "C100_never",
    "C100_jobs"
   ],
   "note": "False (finding): reload creates no record for a new driver; it is not started until the daemon is started again, and a queued job that has only roles of a pipeline with that driver ends the job manager. Proved: in every execution without reload every configured driver has a record; only recorded drivers are started; a driver without record stays so, and is not started, until a daemon is started; the job manager then fails for such jobs."
  },
  {
   "property": "C101",
   "status": "partial",
   "theorems": [
    "C101_refuted",
    "C101_serves_partial",
    "C101_value_dies",
    "C101_task_dies",
    "C101_missing_dies",
    "C101_v20_exact",
    "C101_v20_runs"
   ],
   "note": "False (finding): a list or an infinite number for a numeric attribute or task parameter raises TypeError or OverflowError, which log_errors turns into sys.exit (C101_refuted; every such value and every missing argument: C101_value_dies, C101_task_dies, C101_missing_dies). Proved for interface 2.1: with all other values, in and out of range, the driver answers every request for ever (C101_serves_partial). For the 2.0 interface, in which every exception ends the driver: exact conditions under which a request about a component is answered, and whole runs (C101_v20_exact, C101_v20_runs). Missing: lists given for quantities (pint may make arrays of them)."
  },
  {
   "property": "C102",
   "status": "partial",
   "theorems": [
    "C102_race_refuted",
    "C102_shared_refuted",
    "C102_left_alone_partial",
    "C102_fixed_partial",
    "C102_changing_partial"
   ],
   "note": "False as stated (findings): an iteration of the pipeline manager that overlaps one of the job manager resets the component of a job that was started meanwhile (C102_race_refuted), and a component that is part of two pipelines is reset while a job uses it through the other (C102_shared_refuted). Proved when iterations of the two managers do not overlap, components are part of one pipeline and under the other conditions of C31; if the files are not edited, the condition on components is one on the devices file alone (C102_fixed_partial); the devices file may change and be reloaded as long as no component moves from one pipeline to another (C102_changing_partial)."
  },
  {
   "property": "C103",
   "status": "partial",
   "theorems": [
    "C103_refuted",
    "C103_one_partial"
   ],
   "note": "False as stated (finding): nothing keeps two pipelines from having a common component, and jobs run on both. Proved for components that are part of one pipeline, under the conditions of C31."
  },
  {
   "property": "C104",
   "status": "proved",
   "theorems": [
    "C104_lives",
    "C104_file",
    "C104_vanish_refuted"
   ],
   "note": "For all interleavings. Loaded devices files whose pipelines have no apostrophe in their names are covered (C104_file). The condition on disappearing processes is needed (finding, C104_vanish_refuted): a job that completes regularly while a manager is between pid_exists and Process(pid).status() ends that manager for good"
  },
  {
   "property": "C105",
   "status": "partial",
   "theorems": [
    "C105_reset",
    "C105_off",
    "C105_refuted"
   ],
   "note": "The state after a reset is exactly as claimed (C105_reset), for both interfaces. False that tasks accepted afterwards are executed with the 2.1 interface (finding): the new worker threads are started with do_run=False and end at once, so that nothing is ever begun until the component itself is reset (C105_off, all interleavings)"
  },
  {
   "property": "C106",
   "status": "proved",
   "theorems": [
    "C106_not_early",
    "C106_due",
    "C106_on_time",
    "C106_none",
    "C106_failure",
    "C106_executions"
   ],
   "note": "For all sequences of answers to the main loop, which include those of all executions with workers (C106_executions). A late pass is followed by several snapshots, one per pass (C106_ex_burst); an interval shorter than the passes of the loop is not kept (C106_ex_short)"
  },
  {
   "property": "C107",
   "status": "partial",
   "theorems": [
    "C107_partial",
    "C107_exact",
    "C107_made",
    "C107_refuted"
   ],
   "note": "All interleavings. False that it always succeeds (finding): a data file is truncated before it is written, and the merge raises EOFError if it reads it in between (C107_refuted), which ends the main loop of the job (C106_failure). Proved: it fails if and only if it loads a file between the moment a worker opened it and the moment it was written (C107_exact, C107_made), and a snapshot that is made has the data of every role at some moment, at least all of what was complete in its file when the merge began. Roles are different and have no '/' in their names."
  },
  {
   "property": "C108",
   "status": "partial",
   "theorems": [
    "C108_recorded",
    "C108_gone",
    "C108_untouched",
    "C108_sends_on",
    "C108_refuted"
   ],
   "note": "What is recorded is exactly as claimed (C108_recorded, C108_gone). False that the job is stopped (finding): kill_tomato_job signals the children of the job process, which has none, so that the process goes on (C108_refuted) whatever commands, managers and drivers do (C108_untouched, all executions); its workers send the remaining tasks to the components that have just been reset (C108_sends_on)"
  },
  {
   "property": "C109",
   "status": "proved",
   "theorems": [
    "C109_only",
    "C109_complete"
   ],
   "note": "Composition of the component, the worker and the file operations for all roles of a job at once, with data_to_pickle operation by operation. The roles differ and have no '/' in their names; the folder has no data file at first. Without the conditions of C109_complete points can be missing (C93_short_refuted, C93_stop_refuted); a process killed while it writes is C66, a snapshot that fails is C107"
  },
  {
   "property": "C110",
   "status": "partial",
   "theorems": [
    "C110_partial",
    "C110_stop_partial",
    "C110_look",
    "C110_worker",
    "C110_traces",
    "C110_refuted"
   ],
   "note": "All executions. False as stated (finding): a worker publishes its task as current before it holds for the start trigger of that task and before the component is ready, so that a name counts as started while its task waits; two tasks that wait for each other both start (C110_refuted, C110_ex_cycle). Proved: a trigger fires only after the main thread has seen a worker at a task of that name and has told this worker (C110_partial, C110_stop_partial), which is exactly what a worker finds when it looks (C110_look); what it does with it is described event by event (C110_worker)"
  },
  {
   "property": "C111",
   "status": "partial",
   "theorems": [
    "C111_partial",
    "C111_goes_on",
    "C111_missed",
    "C111_unknown",
    "C111_refuted",
    "C111_dead",
    "C111_snapshot_refuted"
   ],
   "note": "A snapshot that fails ends the main loop, and no trigger fires any more while the workers go on (C111_dead, C111_snapshot_refuted). All executions. False as stated (findings): a task that begins and ends between two turns of the main loop is never seen, and a task that holds for it holds for ever, with the job (C111_refuted); so does one that holds for a name of no task (C111_unknown). Proved: a worker holds exactly as long as the name is not announced to it and goes on with the first look after that (C111_partial, C111_goes_on); when a trigger is missed for good (C111_missed)"
  },
  {
   "property": "C112",
   "status": "partial",
   "theorems": [
    "C112_order",
    "C112_account",
    "C112_partial",
    "C112_harmless",
    "C112_items",
    "C112_conservative",
    "C112_refuted",
    "C112_twice_refuted"
   ],
   "note": "All executions. False as stated (findings): the answer to task_data is late whenever measuring takes longer than a second, as the lock is held meanwhile, and its points are lost (C112_refuted); a late answer to task_start repeats the task, and the repetition drops data (C112_twice_refuted). Proved: never is a point stored twice or out of order (C112_order); in all executions without other users every point is in exactly one of six places, stop conditions, failures and repeated tasks included (C112_account); without late answers to task_start and without stop conditions what is lost is exactly what late answers held (C112_partial), nothing if they held nothing (C112_harmless); every late answer to task_start queues the task exactly once more (C112_items)."
  },
  {
   "property": "C113",
   "status": "proved",
   "theorems": [
    "C113",
    "C113_records",
    "C113_processes"
   ],
   "note": "All executions, by rely/guarantee reasoning: the origin of every record and of every started process. The processes are those ever started by the daemon, those starting and those at work."
  },
  {
   "property": "C114",
   "status": "proved",
   "theorems": [
    "C114_cancelled",
    "C114_begun",
    "C114_waits"
   ],
   "note": "All executions, by rely/guarantee reasoning with the commands of the execution as a parameter. That the job named is not always the one meant is C16."
  },
  {
   "property": "C115",
   "status": "proved",
   "theorems": [
    "C115_sample",
    "C115_ready",
    "C115_reserved",
    "C115_stays",
    "C115_names"
   ],
   "note": "Proved for every execution from every world without unstarted processes; names with quotes are read as the SQL statement reads them (C115_names: other names are the very ones of the commands)."
  },
  {
   "property": "C116",
   "status": "proved",
   "theorems": [
    "C116_contact",
    "C116_port",
    "C116_few"
   ],
   "note": "Proved for every execution from every world; C116_port for records that name no process at the start and names without quotes."
  },
  {
   "property": "C117",
   "status": "proved",
   "theorems": [
    "C117_read",
    "C117_closed",
    "C117_fixed"
   ],
   "note": "For all executions. The two files are read one after the other, so that settings and devices file may be of different versions (C117_ex_between)"
  },
  {
   "property": "C118",
   "status": "proved",
   "theorems": [
    "C118_proper",
    "C118_announced"
   ],
   "note": "For all executions. The announcement may be an earlier one: if another driver gets the port of a dead one, requests reach the wrong process (example C118_reused). Names of drivers with quotes are read as the SQL statement reads them (sql_lit). Requests of job processes (job_main_loop) and of the passata command are outside this log."
  },
  {
   "property": "C119",
   "status": "proved",
   "theorems": [
    "C119_jobs",
    "C119_pips",
    "C119_drvs",
    "C119_running",
    "C119_sample",
    "C119_queued"
   ],
   "note": "For every step of every execution. Names with quotes are read as the SQL statement reads them (sql_lit)."
  },
  {
   "property": "C120",
   "status": "proved",
   "theorems": [
    "C120_matching",
    "C120_accepted",
    "C120_redundant"
   ],
   "note": "WireModel joins the daemon's view of a driver with the model of the driver process; the processes are taken to be the same for the duration of one matching (questions change no component, C96_reads). Capabilities that change from call to call are excluded (steady)."
  },
  {
   "property": "C121",
   "status": "proved",
   "theorems": [
    "C121_idle",
    "C121_others"
   ],
   "note": "The requests of the pass are dealt with by the model of the driver process one after the other; other requests in between are not considered."
  },
  {
   "property": "C122",
   "status": "partial",
   "theorems": [
    "C122_stuck",
    "C122_registered_partial",
    "C122_refuted",
    "C122_reload_refuted"
   ],
   "note": "False as stated: the manager sends register only to drivers without any component, so once a driver has a component its set of components never changes (C122_stuck). Refuted by a component that could not be made at the first attempt, and by a component added by a reload. For a 2.1 driver without components the check registers exactly those it can make."
  },
  {
   "property": "C123",
   "status": "partial",
   "theorems": [
    "C123_running",
    "C123_others",
    "C123_reset",
    "C123_forced",
    "C123_set",
    "C123_refuted",
    "C123_messages"
   ],
   "note": "False as stated for a task that is accepted but not yet begun: cmp_status only reports 'running' (v_running), so reset without force drops a waiting task (C123_refuted). Everything else holds: C123_running (a running component is left alone), C123_others, C123_reset, C123_forced, C123_set."
  },
  {
   "property": "C124",
   "status": "partial",
   "theorems": [
    "C124_stop",
    "C124_exact",
    "C124_daemon",
    "C124_refuted"
   ],
   "note": "The last sentence is false: interface.quit() (driver.py:322) comes after the try block, so a driver that dies of a request leaves its components as they are (C124_refuted). Proved for all histories: C124_stop (stop leaves all components idle), C124_exact (exactly a request to stop leads there), C124_daemon (the daemon sends each driver that one message, if all answer; see C97 for when they do not)."
  },
  {
   "property": "C125",
   "status": "partial",
   "theorems": [
    "C125_kept",
    "C125_rounds",
    "C125_refuted"
   ],
   "note": "False as stated: a reload that changes the interval of a running driver not used by a running job succeeds, but nothing in tomato sends the driver the request 'settings' (C125_refuted). Proved: with any requests of tomato the process keeps the interval it was started with (C125_kept), and measures that far apart (C125_rounds, for drivers that do not override cmp_measure in interface version 2.1)."
  },
  {
   "property": "C126",
   "status": "partial",
   "theorems": [
    "C126_pass_partial",
    "C126_system_partial",
    "C126_refuted"
   ],
   "note": "False as stated: the drivers are asked anew for every queued job, so one that comes up in the middle of a pass is in time for a later job only, which then overtakes (C126_refuted). Proved for every interference: starts happen in the order of the job numbers, and a job found in this pass to match the pipeline is not overtaken (C126_pass_partial); the same for every pass in every execution of the whole system, also one cut off by the end of the daemon (C126_system_partial)."
  },
  {
   "property": "C127",
   "status": "partial",
   "theorems": [
    "C127_announced",
    "C127_inside",
    "C127_separate",
    "C127_spared_partial",
    "C127_hit",
    "C127_driver_partial",
    "C127_refuted"
   ],
   "note": "False as stated on Windows: with one more launcher between tomato-job.exe and the job process, as in a virtual environment, the job process itself is signalled; a driver below tomato-driver.exe is not signalled (C127_refuted). Proved: what is announced, that signals stay below the job and outside other jobs, and exactly when the job process (C127_spared_partial, C127_hit) and the driver process (C127_driver_partial) are signalled."
  }
 ]
}