{"id": "C01", "title": "Loaded device configuration is referentially closed", "statement": "Whenever a devices file is accepted, every role of every pipeline names a component of the same configuration; that component is stored under its own name, belongs to a configured device with the same driver and address, uses one of that device's channels, and its driver is in the driver table. The driver table contains exactly the drivers used by some component, each once.", "quantifier": "every devices file (any list of devices, any list of pipeline definitions, any wildcard use) that loads without an error", "why_tests_cant": "the space of devices files is infinite; a test only checks a handful of well-formed files", "anchors": ["src/tomato/models.py:DeviceFile.populate_attrs", "src/tomato/models.py:Component"]}
{"id": "C02", "title": "Pipeline expansion yields exactly the declared pipelines", "statement": "In an accepted devices file, a pipeline exists under a name iff some definition produces that name: a plain definition produces its own name, a definition whose name ends in '*' produces one pipeline per channel of its single device with every '*' replaced by the channel. The pipeline is stored under its own name and its role map is the one of the last definition producing that name.", "quantifier": "every accepted devices file and every pipeline name", "why_tests_cant": "needs all combinations of wildcard and plain definitions, including overlapping names", "anchors": ["src/tomato/models.py:DeviceFile.populate_attrs", "src/tomato/models.py:Pipeline"]}
{"id": "C03", "title": "Malformed devices files are rejected as a whole", "statement": "A devices file is accepted iff every pipeline definition is well formed: a plain definition refers only to declared devices and to channels of those devices; a wildcard definition has exactly one component, on a declared device, with channel 'each'; and all needed fields are present. Otherwise loading raises and no configuration is produced.", "quantifier": "every devices file", "why_tests_cant": "acceptance must be decided for every file, including every kind of malformed entry at any position", "anchors": ["src/tomato/models.py:DeviceFile.populate_attrs"]}
{"id": "C04", "title": "Different hardware channels never share a component name", "statement": "Two components of a configuration with different (driver, address, channel) have different names, so no hardware channel is silently dropped from the configuration.", "quantifier": "all drivers, addresses and channels", "why_tests_cant": "a collision needs adversarial strings; tests use tidy addresses", "anchors": ["src/tomato/models.py:DeviceFile.populate_attrs"]}
{"id": "C05", "title": "Driver settings come from the settings file", "statement": "After the configuration is loaded, each configured driver's settings are exactly the table given for it in the settings file (empty when there is none), and settings for drivers that are not configured have no effect.", "quantifier": "every settings file and every accepted devices file", "why_tests_cant": "ranges over all settings tables", "anchors": ["src/tomato/models.py:Daemon.device_settings"]}
{"id": "C06", "title": "Reload never changes what a running job uses", "statement": "If reload succeeds while the daemon is running, then for every pipeline that currently holds a job the new configuration contains that pipeline with the same roles and components, every such component with the same driver, address and channel, and every driver of such a component with the same settings.", "quantifier": "every running daemon state, every set of occupied pipelines and every new pair of configuration files", "why_tests_cant": "must hold for all old/new configuration pairs and all sets of running jobs", "anchors": ["src/tomato/daemon/cmd.py:reload"]}
{"id": "C07", "title": "Reload is all-or-nothing and rejects only for a reason", "statement": "A failed reload leaves the daemon's configuration, status and all tables unchanged; a successful one makes the configuration exactly the content of the new files and leaves the tables unchanged. If the new files parse and keep everything used by running jobs, reload succeeds.", "quantifier": "every running daemon state and every new pair of configuration files", "why_tests_cant": "both directions over all configuration pairs", "anchors": ["src/tomato/daemon/cmd.py:reload"]}
{"id": "C08", "title": "Every configured pipeline is usable after a reload", "statement": "After a successful reload every pipeline of the new configuration has a state record, so that a sample can be loaded into it.", "quantifier": "every running daemon state and every new pair of configuration files", "why_tests_cant": "depends on the difference between the old and the new configuration", "anchors": ["src/tomato/daemon/cmd.py:reload", "src/tomato/tomato/__init__.py:pipeline_load"]}
{"id": "C09", "title": "Starting the daemon keeps recorded state and completes it", "statement": "When the daemon starts, every configured driver and pipeline that has no record gets a fresh default one, every existing record (loaded sample, ready flag, assigned job) is kept as it was, no other record is added and the job queue is untouched.", "quantifier": "every database content and every configuration", "why_tests_cant": "restart can happen from any database state", "anchors": ["src/tomato/daemon/cmd.py:reload", "src/tomato/daemon/pipdb.py:insert_pip", "src/tomato/daemon/drvdb.py:insert_drv"]}
{"id": "C10", "title": "Submitting adds exactly one queued job", "statement": "A successful submit adds exactly one row to the queue, with an id larger than every id ever used, status 'q', the given job name, the normalised payload and no pid/paths/timestamps except the submission time; every other row, pipeline and driver record is unchanged.", "quantifier": "every payload, job name, queue content and time of submission", "why_tests_cant": "quantifies over all queue histories", "anchors": ["src/tomato/ketchup/__init__.py:submit", "src/tomato/daemon/jobdb.py:insert_job"]}
{"id": "C11", "title": "Submit reports the job it created", "statement": "The job id reported by a successful submit is the id of the job that this submit created.", "quantifier": "every queue content and submission time", "why_tests_cant": "fails only when two submissions share a timestamp, which a test does not produce", "anchors": ["src/tomato/daemon/jobdb.py:insert_job", "src/tomato/ketchup/__init__.py:submit"]}
{"id": "C12", "title": "Rejected submissions have no effect", "statement": "Submit fails iff the payload file is missing, has an unsupported suffix, cannot be parsed, or names a repository that is neither 'default' nor configured; in all those cases nothing in the database changes.", "quantifier": "every payload file, every settings file, every queue content", "why_tests_cant": "all combinations of repositories and files", "anchors": ["src/tomato/ketchup/__init__.py:submit"]}
{"id": "C13", "title": "Submit fills in missing output locations and nothing else", "statement": "The queued payload equals the submitted (upgraded) payload except that a missing output path and, if snapshots are requested, a missing snapshot path are set to the submitter's working directory; the upgrade never goes past payload version 2.2.", "quantifier": "every payload and every chain of payload versions", "why_tests_cant": "ranges over all payloads and version chains", "anchors": ["src/tomato/ketchup/__init__.py:submit"]}
{"id": "C14", "title": "Status reports exactly the requested jobs", "statement": "Status with a list of ids returns exactly the existing jobs among them, each once, in increasing id order, and with an empty list returns the whole queue; it fails iff nothing is found; each reported job is listed under its current status; nothing is modified.", "quantifier": "every queue content and every list of ids, with duplicates and unknown ids", "why_tests_cant": "all id lists over all queues", "anchors": ["src/tomato/ketchup/__init__.py:status", "src/tomato/daemon/jobdb.py:get_jobs_where"]}
{"id": "C15", "title": "Cancelling one job", "statement": "Cancelling a single id fails without effect if the job does not exist; otherwise it succeeds, turning a queued job ('q','qw') into 'cd', a running one ('r') into 'rd', leaving finished ones unchanged, and changing nothing else in the database.", "quantifier": "every queue content and every id whose job is not already being cancelled", "why_tests_cant": "all queue contents", "anchors": ["src/tomato/ketchup/__init__.py:cancel"]}
{"id": "C16", "title": "Cancelling several jobs cancels each of them", "statement": "Cancelling a list of existing ids has the same effect on every listed job as cancelling it alone, and does not change any other job.", "quantifier": "every queue content and every list of ids", "why_tests_cant": "needs lists with mixed statuses and orders", "anchors": ["src/tomato/ketchup/__init__.py:cancel"]}
{"id": "C17", "title": "Cancelling is idempotent and never fails on an existing job", "statement": "Repeating a cancel of an existing job returns a reply and has no further effect.", "quantifier": "every queue content, including jobs already marked for termination", "why_tests_cant": "requires all statuses, including the transient one 'rd'", "anchors": ["src/tomato/ketchup/__init__.py:cancel"]}
{"id": "C18", "title": "Search finds every job whose name contains the text", "statement": "Search for a text without quote characters returns every job whose name contains it, only jobs with a name, in id order, and fails iff nothing matches; nothing is modified.", "quantifier": "every queue content and every search text", "why_tests_cant": "all strings, including wildcard characters of the query language", "anchors": ["src/tomato/ketchup/__init__.py:search"]}
{"id": "C19", "title": "Search returns only jobs whose name contains the text", "statement": "Every job returned by search has a name containing the given text.", "quantifier": "every queue content and every search text", "why_tests_cant": "needs texts with wildcard characters or different case", "anchors": ["src/tomato/ketchup/__init__.py:search"]}
{"id": "C20", "title": "Snapshot only for jobs that have data, all or none", "statement": "Snapshot fails without writing anything if any requested job does not exist or is still queued; otherwise it writes exactly one archive per requested job, named after that job's id, and changes no job record.", "quantifier": "every queue content and every list of ids", "why_tests_cant": "mixed lists over all queue contents", "anchors": ["src/tomato/ketchup/__init__.py:snapshot"]}
{"id": "C21", "title": "Jobs are never lost, renumbered or altered", "statement": "Once submitted, a job stays in the queue forever with the same id, payload, name and submission time, and ids are never reused, whatever commands, managers, job processes and crashes follow, in any interleaving.", "quantifier": "all interleavings of any number of user commands, manager iterations, job processes and crash points", "why_tests_cant": "all concurrent histories", "anchors": ["src/tomato/daemon/jobdb.py", "src/tomato/ketchup/__init__.py", "src/tomato/daemon/job.py", "src/tomato/daemon/pip.py"]}
{"id": "C22", "title": "Loading a sample", "statement": "Loading a sample into a pipeline succeeds iff the daemon answers, the pipeline is configured and it holds no sample; on success (for a pipeline that has a record) it holds that sample, is not ready and keeps its job assignment; otherwise nothing changes. Other pipelines, jobs and drivers are never affected.", "quantifier": "every daemon and database state and every pipeline name without a quote character (a quote makes the SQL statement invalid)", "why_tests_cant": "all states", "anchors": ["src/tomato/tomato/__init__.py:pipeline_load"]}
{"id": "C23", "title": "Ejecting a sample", "statement": "Ejecting fails, without effect, on an unknown pipeline and on an occupied pipeline that runs a job; otherwise it succeeds and the pipeline is empty afterwards, not ready if a sample was removed, unchanged if there was none. Nothing else is affected.", "quantifier": "every daemon and database state and every pipeline with a record whose name has no quote character", "why_tests_cant": "all states", "anchors": ["src/tomato/tomato/__init__.py:pipeline_eject"]}
{"id": "C24", "title": "Marking a pipeline ready", "statement": "Marking ready fails, without effect, on an unknown pipeline and on a not-ready pipeline that runs a job; otherwise the pipeline is ready afterwards, with its sample and job kept, and nothing else changes.", "quantifier": "every daemon and database state and every pipeline with a record whose name has no quote character", "why_tests_cant": "all states", "anchors": ["src/tomato/tomato/__init__.py:pipeline_ready"]}
{"id": "C25", "title": "A running pipeline is not ready and keeps its sample", "statement": "As long as no command overlaps in time with an iteration of the job manager, a pipeline that holds a job is never ready and holds the sample the job asked for.", "quantifier": "all executions of the whole system in which commands and iterations of the job manager do not overlap; everything else runs at any time", "why_tests_cant": "all histories", "anchors": ["src/tomato/tomato/__init__.py", "src/tomato/daemon/job.py:action_queued", "src/tomato/daemon/pip.py:manager"]}
{"id": "C26", "title": "A job is matched with exactly the pipelines that can run it", "statement": "A pipeline is matched with a method iff it has a component for every role of the method, its components together offer every technique of the method, and the component in the task's role accepts the parameters of every task; matches are listed in configuration order.", "quantifier": "every configuration, driver table, driver answers and method for which matching comes to a result; it does whenever every driver is registered and answers", "why_tests_cant": "all configurations and methods", "anchors": ["src/tomato/daemon/job.py:find_matching_pipelines", "src/tomato/daemon/job.py:method_validate"]}
{"id": "C27", "title": "Queued jobs are marked as waiting exactly when they can run", "statement": "One queue check turns a job from 'q' into 'qw' iff at least one pipeline matches it, and changes nothing else; jobs in any other status are untouched.", "quantifier": "every queue, configuration and driver answers for which the check comes to an end; it does whenever every driver is registered and answers; an aborted check changes a subset of the rows", "why_tests_cant": "all queues", "anchors": ["src/tomato/daemon/job.py:check_queued"]}
{"id": "C28", "title": "Jobs only start on a free, ready, matched pipeline holding their sample", "statement": "In one scheduling pass a job is started on a pipeline only if that pipeline was free and ready, holds the job's sample and was matched with the job; the first such pipeline is taken; each pipeline and each job is used at most once per pass; lower job ids are served first; the pipeline is reserved (job id set, not ready) and every other pipeline is unchanged.", "quantifier": "every database state and every matching result over existing jobs and configured pipelines without quote characters in their names; the pass may end early at a job whose folder already exists (C34)", "why_tests_cant": "all combinations of jobs and pipelines", "anchors": ["src/tomato/daemon/job.py:action_queued"]}
{"id": "C29", "title": "A job is started at most once", "statement": "At most one job process is ever started for a job id.", "quantifier": "all interleavings of user commands, managers, job processes, daemon crashes and restarts", "why_tests_cant": "concurrent and crash histories", "anchors": ["src/tomato/daemon/job.py:action_queued"]}
{"id": "C30", "title": "A reservation never overwrites another one", "statement": "Whenever a job is assigned to a pipeline, that pipeline holds no job at that very moment.", "quantifier": "all interleavings of user commands, managers, job processes, daemon crashes and restarts", "why_tests_cant": "the scheduler works on a stale copy of the pipeline table, so all interleavings matter", "anchors": ["src/tomato/daemon/job.py:action_queued", "src/tomato/daemon/pip.py:manager", "src/tomato/daemon/job.py:tomato_job"]}
{"id": "C31", "title": "At most one live job process per pipeline", "statement": "Two live job processes never use the same pipeline.", "quantifier": "all interleavings of user commands, managers and job processes", "why_tests_cant": "needs specific interleavings of cancellation, reset and scheduling", "anchors": ["src/tomato/daemon/job.py:manage_running", "src/tomato/daemon/job.py:kill_tomato_job", "src/tomato/daemon/pip.py:manager"]}
{"id": "C32", "title": "A job cancelled while queued never runs", "statement": "After a successful cancel of a queued job, no job process is started for it and it never becomes running.", "quantifier": "all interleavings", "why_tests_cant": "race between cancel and the scheduler", "anchors": ["src/tomato/ketchup/__init__.py:cancel", "src/tomato/daemon/job.py:action_queued", "src/tomato/daemon/job.py:tomato_job"]}
{"id": "C33", "title": "Final job statuses are final", "statement": "A job in status 'c', 'cd' or 'ce' keeps that status.", "quantifier": "all interleavings", "why_tests_cant": "late writers exist only in particular interleavings", "anchors": ["src/tomato/daemon/job.py:tomato_job", "src/tomato/daemon/job.py:manage_running", "src/tomato/daemon/job.py:check_queued"]}
{"id": "C34", "title": "Scheduling survives any queue content", "statement": "A scheduling pass never aborts with an error, so later jobs are still served.", "quantifier": "every database and file-system state reachable by any history", "why_tests_cant": "needs the state left by a launch that has not connected yet, or by a crash", "anchors": ["src/tomato/daemon/job.py:action_queued"]}
{"id": "C35", "title": "Running jobs are reconciled with their processes", "statement": "One pass over the jobs with a recorded process sets a job marked for termination to 'cd' and a running job whose process is gone to 'ce', in both cases clearing the pid and recording the completion time, and leaves every other job unchanged.", "quantifier": "every queue content and every set of live processes; the pass completes if the cancelled jobs with a live process can be archived, and an aborted pass changes a subset of the rows", "why_tests_cant": "all queues and process tables", "anchors": ["src/tomato/daemon/job.py:manage_running"]}
{"id": "C36", "title": "Pipelines are freed exactly when their job is gone", "statement": "One pass of the pipeline manager frees a pipeline (clears the job, keeps the sample, not ready, after asking every one of its components to reset) iff it holds a job that is gone: its recorded process has ended, or it has connected earlier and has no recorded process any more, or it was launched more than ten days ago and never connected; all other pipelines and all jobs are unchanged.", "quantifier": "every database state, configuration and set of live processes; the pass completes if the jobs exist and the components of the pipelines to be freed answer", "why_tests_cant": "all states", "anchors": ["src/tomato/daemon/pip.py:manager"]}
{"id": "C37", "title": "A job that fails to connect is given up after ten seconds", "statement": "A pipeline whose job was launched more than MAX_JOB_NOPID (10) seconds ago and never connected is freed, and that job is marked as failed.", "quantifier": "every launch time", "why_tests_cant": "needs waiting and a job process that never connects", "anchors": ["src/tomato/daemon/pip.py:manager", "src/tomato/daemon/job.py:manage_running"]}
{"id": "C38", "title": "Stop refuses while jobs are running", "statement": "The stop command succeeds iff no pipeline holds a job; on failure the daemon keeps its status and the occupied pipelines are reported; on success only the status changes.", "quantifier": "every daemon and database state", "why_tests_cant": "all states", "anchors": ["src/tomato/daemon/cmd.py:stop"]}
{"id": "C39", "title": "No job is started after a successful stop", "statement": "After the daemon has accepted a stop command it does not start any further job.", "quantifier": "all interleavings of the stop command with the managers", "why_tests_cant": "race between the check and the scheduler", "anchors": ["src/tomato/daemon/cmd.py:stop", "src/tomato/daemon/job.py:manager"]}
{"id": "C40", "title": "Every request to the daemon gets its own reply", "statement": "Every request gets exactly one reply that depends only on that request and the daemon state: a request without a command or with an unknown one gets a failure, and the daemon keeps serving.", "quantifier": "all sequences of requests", "why_tests_cant": "all request sequences, including malformed ones", "anchors": ["src/tomato/daemon/__init__.py:tomato_daemon"]}
{"id": "C41", "title": "The daemon exits only after all managers have ended", "statement": "The daemon process ends only if a stop was accepted and all three manager threads have ended; it keeps answering until then.", "quantifier": "all sequences of requests and all manager behaviours", "why_tests_cant": "all schedules", "anchors": ["src/tomato/daemon/__init__.py:tomato_daemon"]}
{"id": "C42", "title": "Requests over the retrying channel terminate with a definite outcome", "statement": "With a retry count of at least one, a request is sent at most that many times, returns the first answer received in time, and otherwise returns a failure with the connection closed; the connection is left open iff an answer was returned.", "quantifier": "every retry count and every pattern of timeouts and answers", "why_tests_cant": "all timeout patterns and counts", "anchors": ["src/tomato/daemon/lpp.py:comm"]}
{"id": "C43", "title": "A request is executed at most once by the server", "statement": "One call of the retrying channel makes the server execute the request at most once.", "quantifier": "every pattern of slow answers", "why_tests_cant": "needs an answer slower than the timeout", "anchors": ["src/tomato/daemon/lpp.py:comm", "src/tomato/daemon/job.py:job_thread"]}
{"id": "C44", "title": "Driver processes are (re)started at most three times in a row and never too often", "statement": "Between two times a driver becomes available, at most three processes are started for it, and two consecutive starts are more than five seconds apart.", "quantifier": "all sequences of manager iterations, clock readings, driver starts and failures", "why_tests_cant": "all histories", "anchors": ["src/tomato/daemon/driver.py:manager"]}
{"id": "C45", "title": "A driver record has a port iff it has a pid", "statement": "In every reachable state a driver record has either both a port and a pid or neither.", "quantifier": "all histories of the driver manager, driver processes, restarts", "why_tests_cant": "all histories", "anchors": ["src/tomato/daemon/driver.py:manager", "src/tomato/daemon/driver.py:tomato_driver"]}
{"id": "C46", "title": "Drivers removed from the configuration are stopped and forgotten", "statement": "After a reload that removes a driver, one manager pass stops its process and deletes its record, and the manager keeps working.", "quantifier": "every driver table and configuration", "why_tests_cant": "requires a reload that removes a driver", "anchors": ["src/tomato/daemon/driver.py:manager", "src/tomato/daemon/drvdb.py:del_drv"]}
{"id": "C47", "title": "A dead driver is noticed and restarted", "statement": "A driver that no longer answers is noticed at the next check (at most the heartbeat interval later), its record is reset and a new process is started.", "quantifier": "every driver table and clock reading, including after a reboot", "why_tests_cant": "clock values across reboots are not tested", "anchors": ["src/tomato/daemon/driver.py:manager"]}
{"id": "C48", "title": "Registration is attempted at most three times automatically", "statement": "Automatic registration tries a component that is not registered at most three times, never touches a registered component, and a successful registration resets the count.", "quantifier": "all sequences of registration attempts and outcomes", "why_tests_cant": "all sequences", "anchors": ["src/tomato/daemon/driver.py:tomato_driver_bootstrap", "src/tomato/driverinterface_2_1/__init__.py:ModelInterface.cmp_register"]}
{"id": "C49", "title": "Only acceptable values reach a device attribute", "statement": "A value is passed to a device attribute only if the attribute exists and is writable, and the value passed has the declared type and unit, lies within the declared minimum and maximum, and is one of the declared options if there are any.", "quantifier": "every attribute declaration and every value", "why_tests_cant": "all values, including special floating-point values", "anchors": ["src/tomato/driverinterface_2_1/decorators.py:coerce_val", "src/tomato/driverinterface_2_1/__init__.py:ModelInterface.cmp_set_attr", "src/tomato/driverinterface_2_1/__init__.py:ModelInterface.task_validate"]}
{"id": "C50", "title": "A validated task can be applied", "statement": "If task validation succeeds for a component, the technique is one of its capabilities and setting each task parameter will be accepted by the same attribute.", "quantifier": "every component, task and parameter value", "why_tests_cant": "two separate pieces of code must agree on all values", "anchors": ["src/tomato/driverinterface_2_1/__init__.py:ModelInterface.task_validate", "src/tomato/driverinterface_2_1/decorators.py:coerce_val"]}
{"id": "C51", "title": "Requests for unknown components are refused without effect", "statement": "Any component request whose (address, channel) is not registered gets a failure reply and changes nothing.", "quantifier": "every driver state and request", "why_tests_cant": "all states and requests", "anchors": ["src/tomato/driverinterface_2_1/decorators.py:in_devmap", "src/tomato/driverinterface_2_0/__init__.py:in_devmap"]}
{"id": "C52", "title": "Tasks run one at a time in submission order", "statement": "On a component, tasks are executed one at a time, in the order in which they were accepted, each at most once, until a reset discards the waiting ones.", "quantifier": "all interleavings of requests with the component's worker thread", "why_tests_cant": "all schedules", "anchors": ["src/tomato/driverinterface_2_1/__init__.py:ModelDevice", "src/tomato/driverinterface_2_1/__init__.py:ModelInterface.task_start"]}
{"id": "C53", "title": "No measured data point is duplicated or reordered", "statement": "The data returned by successive data requests for a component, together with the data dropped at the start of a task or by a reset and the data still waiting, is exactly the sequence of points measured by its tasks, each once and in order.", "quantifier": "all interleavings of data requests, task starts, resets and the worker thread", "why_tests_cant": "all schedules", "anchors": ["src/tomato/driverinterface_2_1/__init__.py:ModelDevice.get_data", "src/tomato/driverinterface_2_1/__init__.py:ModelDevice.do_task", "src/tomato/driverinterface_2_1/__init__.py:ModelDevice.task_runner"]}
{"id": "C54", "title": "Task data is sampled at the requested rate and for the requested time", "statement": "While a task runs, the n-th measurement never happens before n sampling intervals have passed, and once more than the maximum duration has passed no further measurement is made and the task ends.", "quantifier": "every sampling interval, duration and sequence of clock readings", "why_tests_cant": "all timings", "anchors": ["src/tomato/driverinterface_2_1/__init__.py:ModelDevice.task_runner"]}
{"id": "C55", "title": "Stopping a task stops it", "statement": "After a successful stop request the running task makes at most the measurement already in progress, and then ends.", "quantifier": "all interleavings; both interface versions", "why_tests_cant": "all schedules", "anchors": ["src/tomato/driverinterface_2_1/__init__.py:ModelInterface.task_stop", "src/tomato/driverinterface_2_0/__init__.py:ModelDevice"]}
{"id": "C56", "title": "One-off measurements do not disturb tasks", "statement": "A one-off measurement is accepted only when no task is running or waiting, and it never adds to or removes from the data of a task.", "quantifier": "all interleavings", "why_tests_cant": "all schedules", "anchors": ["src/tomato/driverinterface_2_1/__init__.py:ModelInterface.cmp_measure"]}
{"id": "C57", "title": "Resetting a component leaves it idle and empty", "statement": "After a successful reset the component has no running task, no waiting task and no stored data, and accepts new tasks.", "quantifier": "every component state", "why_tests_cant": "all states including a dead worker thread", "anchors": ["src/tomato/driverinterface_2_1/__init__.py:ModelInterface.cmp_reset"]}
{"id": "C58", "title": "Tasks are distributed to roles without loss or reordering", "statement": "The tasks given to the worker of a role are exactly the tasks of the method with that role, in method order, and every role of the method that exists on the pipeline gets one worker.", "quantifier": "every method and pipeline", "why_tests_cant": "all methods", "anchors": ["src/tomato/daemon/job.py:job_main_loop"]}
{"id": "C59", "title": "A job reported complete has run all its tasks", "statement": "If a job ends with status 'c', every task of its method was sent to its component, in order per role.", "quantifier": "every method and every sequence of driver answers", "why_tests_cant": "needs methods with several tasks per role", "anchors": ["src/tomato/daemon/job.py:job_thread", "src/tomato/daemon/job.py:job_main_loop", "src/tomato/daemon/job.py:tomato_job"]}
{"id": "C60", "title": "Tasks of a role are sent one after the other", "statement": "A task is sent to its component only after the previous task of the same role was seen to end (or was stopped), after the component reported that it accepts tasks, and, if it waits for another task, only after that task's name was announced; each task is sent by the worker at most once.", "quantifier": "every task list and every sequence of driver answers, clock readings and announcements", "why_tests_cant": "all answer sequences", "anchors": ["src/tomato/daemon/job.py:job_thread"]}
{"id": "C61", "title": "All data received for a role is stored, in order", "statement": "The stored data of a role is the concatenation of all data received from its component for that job, in order, nothing else.", "quantifier": "every sequence of driver answers, including the early end of the worker", "why_tests_cant": "all answer sequences", "anchors": ["src/tomato/daemon/job.py:job_thread", "src/tomato/daemon/io.py:data_to_pickle"]}
{"id": "C62", "title": "The component is reset at the end of a job", "statement": "A worker that has processed all its tasks asks its component to reset.", "quantifier": "every task list and sequence of driver answers", "why_tests_cant": "needs several tasks per role", "anchors": ["src/tomato/daemon/job.py:job_thread"]}
{"id": "C63", "title": "A worker gives up on a silent or unresponsive component", "statement": "If the component stops answering, or does not start the task within ten seconds, the worker ends and the job ends with status 'ce'.", "quantifier": "every sequence of driver answers and clock readings", "why_tests_cant": "all answer sequences", "anchors": ["src/tomato/daemon/job.py:job_thread", "src/tomato/daemon/job.py:job_main_loop"]}
{"id": "C64", "title": "A finished job records its outcome and frees its pipeline", "statement": "When the job process ends normally, the job has status 'c' iff no worker failed and 'ce' otherwise, with a completion time, and its pipeline is freed and is ready iff the payload asked to unlock it.", "quantifier": "every job, pipeline and outcome of the workers", "why_tests_cant": "all outcomes and states", "anchors": ["src/tomato/daemon/job.py:tomato_job"]}
{"id": "C65", "title": "The result file contains the data of every role", "statement": "The merged archive of a job contains, for each role that has stored data, exactly that data, and nothing else.", "quantifier": "every set of stored role data", "why_tests_cant": "all contents", "anchors": ["src/tomato/daemon/io.py:merge_netcdfs"]}
{"id": "C66", "title": "Stored data survives a crash", "statement": "If the job process is killed at any moment, the data of a role stored before that moment is still readable.", "quantifier": "every crash point", "why_tests_cant": "all crash points", "anchors": ["src/tomato/daemon/io.py:data_to_pickle"]}
{"id": "C67", "title": "Jobs never overwrite each other's results", "statement": "Two different jobs write their results to different files.", "quantifier": "every pair of jobs and payloads", "why_tests_cant": "all payload pairs", "anchors": ["src/tomato/daemon/job.py:tomato_job"]}
{"id": "C68", "title": "Manual device actions never disturb a running task", "statement": "Setting attributes or resetting a component through passata without --force is refused when the component reports a running task; with --force it is passed on.", "quantifier": "every daemon, driver table and driver answers", "why_tests_cant": "all answers", "anchors": ["src/tomato/passata/__init__.py"]}
{"id": "C69", "title": "Status tables are aligned", "statement": "Every line of a printed status table has the same length and every cell appears in its row in column order, for all cell contents.", "quantifier": "every table", "why_tests_cant": "all contents", "anchors": ["src/tomato/tomato/__init__.py:make_padded_lines"]}
{"id": "C70", "title": "Init never destroys an existing configuration", "statement": "tomato init writes the settings file and the devices file only if they do not exist yet; existing files, including an existing database, are not modified.", "quantifier": "every file-system state", "why_tests_cant": "all states", "anchors": ["src/tomato/tomato/__init__.py:init", "src/tomato/daemon/db.py:setup_db"]}
{"id": "C71", "title": "Idle measurements respect the configured interval", "statement": "Consecutive idle measurement rounds of a driver are at least the configured interval apart, and none happen when no interval is configured.", "quantifier": "every interval and sequence of clock readings", "why_tests_cant": "all timings", "anchors": ["src/tomato/daemon/driver.py:perform_idle_measurements"]}
{"id": "C72", "title": "The driver process survives bad requests", "statement": "A request with an unknown command, without a command, or whose handling raises a value or attribute error gets a failure reply and the driver keeps serving.", "quantifier": "all requests", "why_tests_cant": "all requests", "anchors": ["src/tomato/daemon/driver.py:tomato_driver"]}
{"id": "C73", "title": "A reload request is always answered", "statement": "A reload request sent to a running daemon is answered and never ends the daemon.", "quantifier": "every running daemon state and every new pair of configuration files", "why_tests_cant": "all states and files, including states left by a crash", "anchors": ["src/tomato/daemon/cmd.py:reload"]}
{"id": "C74", "title": "The job database is set up or brought up to date", "statement": "Setting up the database succeeds for a missing database, a current one, one of an earlier version, and one whose creation was interrupted; it then has all tables and the current version, and no stored job is lost.", "quantifier": "every file-system state and database state", "why_tests_cant": "old database versions and crashes between statements", "anchors": ["src/tomato/daemon/db.py:setup_db"]}
{"id": "C75", "title": "Passata commands address the named component only", "statement": "Every request a passata command sends goes to the port of the driver of the named component and names its address and channel; if the daemon is not running, or does not know the component, or its driver has no port, nothing is sent and a failure is returned; attributes are read in the given order up to the first failure.", "quantifier": "every daemon, driver table, driver answers and commands", "why_tests_cant": "all tables and answers", "anchors": ["src/tomato/passata/__init__.py"]}
{"id": "C76", "title": "At most one daemon is started for a database", "statement": "tomato start spawns a daemon only if the port is free, the settings exist and the database could be set up; and never a second one for the same database.", "quantifier": "every file-system state, port usage and settings", "why_tests_cant": "all states and orders of commands", "anchors": ["src/tomato/tomato/__init__.py:start"]}
{"id": "C77", "title": "Job records are complete", "statement": "In every reachable state: a job record with a pid has connected_at; a job with status 'r' has a pid; a job with status 'c' or 'ce' has connected_at and completed_at; a job with status 'c' has jobpath, respath and snappath.", "quantifier": "every execution: all interleavings of commands, managers, job processes, crashes and restarts", "why_tests_cant": "unbounded interleavings", "anchors": ["src/tomato/daemon/job.py:tomato_job", "src/tomato/daemon/job.py:manage_running"]}
{"id": "C78", "title": "A completed job is not reported as crashed", "statement": "Once a job is recorded as completed ('c') it is never recorded as crashed ('ce'), running or queued afterwards.", "quantifier": "every execution: all interleavings of commands, managers and job processes", "why_tests_cant": "races between the job manager and the end of a job process", "anchors": ["src/tomato/daemon/job.py:manage_running", "src/tomato/daemon/job.py:tomato_job"]}
{"id": "C79", "title": "Status groups report what is configured and recorded", "statement": "tomato status GROUP never changes anything; the only requests it sends ask the driver of a configured component for that component's capabilities. Without a daemon it reports failure; with a daemon it reports success and: devices, drivers, components, pipelines list exactly the configured devices, the rows of the driver table, the configured components with the capabilities answered by their own driver, the configured pipelines with their records.", "quantifier": "every daemon, configuration, database content and driver answers, both output formats", "why_tests_cant": "all tables and answers; drivers that do not answer", "anchors": ["src/tomato/tomato/__init__.py:status"]}
{"id": "C80", "title": "Log level is determined by how often -v and -q are given", "statement": "Whatever a tomato, ketchup or passata command line contains besides, if a command is run its log level is INFO, lowered by one level per -v/--verbose and raised by one per -q/--quiet anywhere in the line (before or after the subcommand, between its arguments), limited to DEBUG..CRITICAL; the order of the words does not matter.", "quantifier": "all command lines of the three programs (lists of words), all subcommands", "why_tests_cant": "unbounded lines, any mixture of options and arguments", "anchors": ["src/tomato/__init__.py:parse_args"]}
{"id": "C81", "title": "No word of a command line is silently ignored", "statement": "If a command runs, every word of the line was used: each positional argument is given to the function, each option sets its value (the last one counts), and a word that cannot be understood is refused.", "quantifier": "all command lines of the three programs, all subcommands, options and values", "why_tests_cant": "unbounded lines; order and repetition of options", "anchors": ["src/tomato/__init__.py:parse_args", "src/tomato/__init__.py:run_ketchup"]}
{"id": "C82", "title": "Functions behind the subcommands get well-typed arguments, after the daemon was found", "statement": "Whenever a command line runs a function, the function gets every argument it requires with the type it expects (ports, timeouts and job ids are integers). ketchup and passata call it only after tomato.status succeeded at the port and timeout of that line, and at most once.", "quantifier": "all command lines of the three programs, all answers of the status request", "why_tests_cant": "unbounded lines", "anchors": ["src/tomato/__init__.py:parse_args", "src/tomato/__init__.py:run_tomato", "src/tomato/__init__.py:run_ketchup", "src/tomato/__init__.py:run_passata"]}
{"id": "C83", "title": "Every option that a subcommand accepts is of use", "statement": "For every subcommand and every option it accepts, the option's value is a parameter of the function called or is used by parse_args.", "quantifier": "all subcommands and options", "why_tests_cant": "an accepted option without effect gives no error", "anchors": ["src/tomato/__init__.py:run_ketchup", "src/tomato/ketchup/__init__.py:search"]}
{"id": "C84", "title": "Both versions of the driver interface validate the same tasks", "statement": "A task whose technique is a capability and whose parameters are given for declared attributes is accepted by the 2.0 interface if and only if the 2.1 interface accepts it.", "quantifier": "all declarations of attributes, all values (numbers, text, None), all tasks", "why_tests_cant": "all combinations of types, bounds, units and values", "anchors": ["src/tomato/driverinterface_2_1/__init__.py:task_validate", "src/tomato/driverinterface_2_0/__init__.py:task_validate"]}
{"id": "C85", "title": "Submitting a task to a busy component does not end the driver", "statement": "Whatever a component is doing, a request to start a valid task is answered by its driver, which keeps serving, and the other components of the driver are unchanged.", "quantifier": "all driver states, components, tasks and worker activity, both interface versions", "why_tests_cant": "depends on what the thread of the component is doing", "anchors": ["src/tomato/driverinterface_2_1/__init__.py:task_start", "src/tomato/driverinterface_2_0/__init__.py:task_start"]}
{"id": "C86", "title": "Tearing down a component removes that component only", "statement": "In every run of a driver no component is listed twice. A request (without arguments for reset) to tear down a registered component succeeds, whatever the component is doing, removes it and changes no other component; the 2.1 interface refuses later requests for it.", "quantifier": "all runs of a driver process, all components, worker activity, both interface versions (the last part 2.1)", "why_tests_cant": "unbounded runs of requests and worker activity", "anchors": ["src/tomato/driverinterface_2_1/__init__.py:cmp_teardown", "src/tomato/driverinterface_2_0/__init__.py:cmp_teardown"]}
{"id": "C87", "title": "A task accepted by a component that reports itself ready is executed", "statement": "If a component answers that it is ready and accepts a task, and it is not reset, then its worker gets to the task after the earlier ones, whatever happened before.", "quantifier": "all schedules of requests and worker steps, all clock readings, failures of driver code at any point; both interface versions", "why_tests_cant": "failures at any step of a thread, unbounded histories", "anchors": ["src/tomato/driverinterface_2_1/__init__.py:task_runner", "src/tomato/driverinterface_2_0/__init__.py:meas_runner"]}
{"id": "C88", "title": "A driver that is not available only affects the jobs that use it", "statement": "If the process of a driver cannot be started or does not answer, jobs are still matched with, started on and executed on pipelines whose drivers answer.", "quantifier": "all configurations, queues, driver answers and executions; all sequences of states seen by a waiting job process", "why_tests_cant": "a missing driver among any number of pipelines and jobs, waits without bound", "anchors": ["src/tomato/daemon/job.py:find_matching_pipelines", "src/tomato/daemon/job.py:check_queued", "src/tomato/daemon/job.py:job_main_loop"]}
{"id": "C89", "title": "Each configured driver is served by its own module", "statement": "A driver process records its port, version and process number in the row of its driver, and serves requests, if and only if the module of that driver can be imported and its interface can be created with the settings of this driver; otherwise it changes nothing. Different drivers are served by different modules.", "quantifier": "all driver names, module outcomes, settings and database contents", "why_tests_cant": "any installed modules and names", "anchors": ["src/tomato/drivers.py:driver_to_interface", "src/tomato/daemon/driver.py:tomato_driver"]}
{"id": "C90", "title": "The results of a job that names a repository are packed into a crate", "statement": "A job that names an output repository and completes has a crate next to its result, with the result, its author and its sample; crates never replace each other or a result.", "quantifier": "all settings, payloads, users, samples, result paths; library installed or not; failures of writing", "why_tests_cant": "all names and paths, optional library", "anchors": ["src/tomato/daemon/crates.py:to_rocrate", "src/tomato/daemon/job.py:tomato_job"]}
{"id": "C91", "title": "The times recorded for a job are permanent and in order", "statement": "The time of submission of a job never changes, and a time of launch, connection or completion that was recorded is never removed. While the clock of the machine is not set back, all of them lie between the submission and now, a job is launched before it is connected, and connected before it is completed.", "quantifier": "all executions of the system, all interleavings of daemon, commands and job processes, all clocks", "why_tests_cant": "orders that depend on the interleaving of processes", "anchors": ["src/tomato/daemon/job.py:action_queued", "src/tomato/daemon/job.py:tomato_job", "src/tomato/daemon/job.py:manage_running", "src/tomato/ketchup/__init__.py:submit"]}
{"id": "C92", "title": "The managers of the daemon go on until the daemon is told to stop", "statement": "Once started, the threads of the daemon that look after jobs, pipelines and drivers go on working until the daemon is told to stop: whatever jobs, commands and drivers do, cancelled jobs are ended, jobs that can run are started, pipelines whose job has ended are freed and drivers are started.", "quantifier": "all executions of the system, all interleavings of daemon, commands and job processes, all answers of drivers", "why_tests_cant": "short time windows between two writes of a job process, and drivers that stop answering", "anchors": ["src/tomato/daemon/job.py:manage_running", "src/tomato/daemon/job.py:manager", "src/tomato/daemon/pip.py:manager", "src/tomato/daemon/driver.py:manager", "src/tomato/daemon/io.py:merge_netcdfs"]}
{"id": "C93", "title": "Everything a component measures for a job is stored", "statement": "What a job stores for a role is the sequence of points the component measured for its tasks: no point is stored twice or out of order, none is lost, and a task that was executed to its end is not taken for one that did not start.", "quantifier": "all executions of a worker of a job together with a component of a 2.1 driver: all task lists, times, polling rates, interleavings, failures of the driver's code, requests of others and failing requests", "why_tests_cant": "a point may be measured between any two steps of the job, the requests of the job race with the thread of the component, and the loss of a point depends on delays of less than a second", "anchors": ["src/tomato/daemon/job.py:job_thread", "src/tomato/driverinterface_2_1/__init__.py:task_runner", "src/tomato/driverinterface_2_1/__init__.py:task_data", "src/tomato/driverinterface_2_1/__init__.py:task_stop"]}
{"id": "C94", "title": "The status of a component tells whether it is executing something", "statement": "A status request is answered with running exactly while the component is executing a task or a measurement.", "quantifier": "all executions of a component: all requests, schedules, times and failures of the driver's code", "why_tests_cant": "the worker thread announces a task some steps after taking it from the queue", "anchors": ["src/tomato/driverinterface_2_1/__init__.py:task_status", "src/tomato/driverinterface_2_1/__init__.py:task_runner"]}
{"id": "C95", "title": "Acceptable attribute values are accepted", "statement": "A value of the attribute's type, within its bounds, in its dimension and among its options is passed on to the driver unchanged; a task whose technique is a capability and whose parameters are all acceptable passes validation.", "quantifier": "all attribute tables, bounds, units, options, values and tasks", "why_tests_cant": "whether a value is refused depends on how minimum, maximum and units were declared, which tests choose consistently", "anchors": ["src/tomato/driverinterface_2_1/decorators.py:coerce_val", "src/tomato/driverinterface_2_1/__init__.py:ModelInterface.task_validate"]}
{"id": "C96", "title": "Requests about a component do what they announce, to that component only", "statement": "A request about one component changes no other component; requests that only ask change nothing; fetching, stopping, resetting, measuring and status requests leave and answer exactly what they announce, in both versions of the interface.", "quantifier": "all driver states, components, requests and parameters, all driver code", "why_tests_cant": "interference between components shows only for particular states of several components at once", "anchors": ["src/tomato/driverinterface_2_1/__init__.py:ModelInterface", "src/tomato/driverinterface_2_0/__init__.py:ModelInterface", "src/tomato/driverinterface_2_1/decorators.py:in_devmap"]}
{"id": "C97", "title": "Stopping the daemon stops its drivers", "statement": "After an accepted stop command every driver the daemon has started is told to stop, once, and then the daemon exits.", "quantifier": "all reachable states and executions, all driver answers, any number of drivers", "why_tests_cant": "needs drivers that die or start while the daemon is being stopped", "anchors": ["src/tomato/daemon/driver.py:manager", "src/tomato/daemon/driver.py:stop_tomato_driver", "src/tomato/daemon/__init__.py:tomato_daemon"]}
{"id": "C98", "title": "Result files describe their job as it is recorded", "statement": "The description of the job that is stored in a results file (attribute tomato_Job) is the record of the job after it has ended: same status, times and paths; that in a snapshot is the record at that time.", "quantifier": "all job records, processes, clocks and outcomes", "why_tests_cant": "the file has to be compared with the database after the job has ended in every possible way", "anchors": ["src/tomato/daemon/io.py:merge_netcdfs", "src/tomato/daemon/job.py:manage_running", "src/tomato/daemon/job.py:tomato_job"]}
{"id": "C99", "title": "A queued job that can run is run", "statement": "Consider a pass of the job manager that nothing brings to an end: the drivers of the pipelines that queued jobs could use answer, cancelled jobs can be archived, and the folders of the queued jobs do not exist. Then every queued job for which a pipeline is free, ready, holds its sample and has components that can execute its method is started in this pass, unless an older job is started on that pipeline; a younger job never gets a pipeline that an older, unstarted job could use. The process of a started job comes to its end exactly if its record exists, its output folder can be used, its main loop ends, and its data can be archived and packed; the job is then complete (or failed, if a task failed), and its pipeline is free again, holds the same sample, and is ready if the payload says so.", "quantifier": "all states of database, drivers and daemon; all queues of any length", "why_tests_cant": "Tests wait for one or two jobs on one or two pipelines with a timeout; they cannot show that no queue content starves a job.", "anchors": ["src/tomato/daemon/job.py:manager", "src/tomato/daemon/job.py:check_queued", "src/tomato/daemon/job.py:action_queued", "src/tomato/daemon/job.py:tomato_job"]}
{"id": "C100", "title": "Every configured driver is started", "statement": "While the daemon runs, every driver named by the configuration in force has a record, which is what makes the driver manager start it; this includes drivers added to the configuration by a reload.", "quantifier": "every content of database and configuration files at the start, every execution with any commands, process ends and failures", "why_tests_cant": "needs a reload that adds a driver, followed by a job; the tests reload without new drivers and only check the reply", "anchors": ["src/tomato/daemon/cmd.py:reload", "src/tomato/daemon/driver.py:manager"]}
{"id": "C101", "title": "No request about a component ends its driver", "statement": "A driver answers every request about its components and goes on serving, whether or not the component, attribute or technique exists and whatever value is given for an attribute or task parameter; a request it cannot carry out is answered with a failure.", "quantifier": "every driver whose own code raises at most the expected exceptions, every sequence of requests with any values and any arguments missing, every behaviour of the worker threads", "why_tests_cant": "the tests send a handful of bad values (out of range, wrong unit); a value that makes the conversion raise another exception ends a process that serves other jobs, after the test's request", "anchors": ["src/tomato/driverinterface_2_1/decorators.py:log_errors", "src/tomato/driverinterface_2_1/decorators.py:coerce_val", "src/tomato/driverinterface_2_1/__init__.py:task_validate", "src/tomato/daemon/driver.py:tomato_driver"]}
{"id": "C102", "title": "The equipment of a running job is not reset", "statement": "While the process of a job exists and uses its pipeline, the pipeline manager does not reset any component of that pipeline.", "quantifier": "every execution of the whole system: any commands, jobs, processes starting, ending and being killed, and every interleaving of the threads", "why_tests_cant": "a wrong reset needs an iteration of the pipeline manager that is slow enough (one driver answering late) for a job to end and the next one to start meanwhile, or two pipelines with a common component; the tests have one pipeline and fast drivers", "anchors": ["src/tomato/daemon/pip.py:manager", "src/tomato/daemon/job.py:manager"]}
{"id": "C103", "title": "A component is used by one job at a time", "statement": "Two job processes that exist at the same time do not use the same component of a device.", "quantifier": "every devices file and every execution of the whole system", "why_tests_cant": "the devices files of the tests put every component into one pipeline; a file that does not is accepted without a warning", "anchors": ["src/tomato/models.py:DeviceFile.populate_attrs", "src/tomato/daemon/job.py:manager"]}
{"id": "C104", "title": "Managers go on while their surroundings work", "statement": "While the devices file stays the same, none of the three manager threads of the daemon ends with an exception or waits for ever, provided that whenever one of them asks for it: drivers that are looked up are registered and answer, recorded drivers belong to the file and report their components, a job to be started has no folder yet, archives can be written and a job marked for termination has recorded its paths, and no process disappears between the two look-ups of one check.", "quantifier": "all executions of the whole system: all interleavings of the managers, commands, drivers and job processes, operation by operation, all devices files", "why_tests_cant": "the managers, commands and jobs interleave in arbitrarily many ways, and one exception in one of them stops a part of the daemon for good", "anchors": ["src/tomato/daemon/job.py:manager", "src/tomato/daemon/pip.py:manager", "src/tomato/daemon/driver.py:manager"]}
{"id": "C105", "title": "Resetting a driver leaves its components idle and usable", "statement": "A request to reset a driver (or to quit) succeeds; all components stay registered and are idle, without waiting tasks and without data, and a task that a component accepts afterwards is executed.", "quantifier": "every interface state, number of components and what they were doing; every interleaving of the worker thread with later requests", "why_tests_cant": "the tests never send reset or quit to a driver that goes on serving, and a task that is accepted but never begun raises no error", "anchors": ["src/tomato/driverinterface_2_1/__init__.py:ModelInterface.reset", "src/tomato/driverinterface_2_0/__init__.py:ModelInterface.reset"]}
{"id": "C106", "title": "Snapshots of a running job follow the requested interval", "statement": "If a job's payload asks for snapshots, the k-th one is made at the first pass of the job's main loop by which more than k intervals have passed since the start of the workers and k-1 snapshots have been made, never earlier; if the loop's passes are at most g apart, g not longer than the interval, it is at most g late; a job that does not ask for snapshots makes none; a snapshot that fails ends the main loop with its exception.", "quantifier": "every interval, number of workers, sequence of clock readings, length of the run and interleaving with the workers", "why_tests_cant": "the tests check that some snapshot file exists at the end, with one interval; they do not count or time the snapshots, nor let one fail", "anchors": ["src/tomato/daemon/job.py:job_main_loop"]}
{"id": "C107", "title": "A snapshot of a running job succeeds and contains the data stored so far", "statement": "Merging the data files of a job while its workers store data succeeds, and the file written has, for every role, the data of that role at some moment during the merge, and at least all data stored before the merge began.", "quantifier": "every number of workers, sequence of batches per worker, contents of the folder and interleaving of the operations on files", "why_tests_cant": "the window between truncating a data file and having written it is microseconds in the tests; hitting it needs control of the interleaving", "anchors": ["src/tomato/daemon/io.py:merge_netcdfs", "src/tomato/daemon/io.py:data_to_pickle", "src/tomato/daemon/job.py:job_main_loop"]}
{"id": "C108", "title": "A running job that is cancelled is stopped", "statement": "When a running job has been cancelled, the next pass of the job manager ends its process and records it as cancelled, and the next pass of the pipeline manager frees its pipeline, leaves the sample on it and resets its components; a running job whose process is gone is recorded as failed and its pipeline freed in the same way.", "quantifier": "every queue, set of pipelines and configuration in which a pass of the managers is possible; for the process, every execution of the system", "why_tests_cant": "the tests cancel one job of one short task and look at the recorded status; they do not look at the process or at later tasks of the job", "anchors": ["src/tomato/daemon/job.py:kill_tomato_job", "src/tomato/daemon/job.py:manage_running", "src/tomato/daemon/pip.py:manager", "src/tomato/ketchup/__init__.py:cancel"]}
{"id": "C109", "title": "The results of a job hold what its components measured, role by role", "statement": "Whatever order the workers of a job, their components, the single operations on the data files and snapshots happen in: once all workers have ended, writing the results succeeds, the group of a role holds only points measured by the component of that role, each at most once and in order, and there are no other groups. If moreover no task has a stop condition, no component is used by anybody else, every request is answered and every worker came to the end of its tasks, each component has measured since the start of the job exactly the points in the group of its role.", "quantifier": "all numbers of workers, tasks, polling rates, components, folders without data files, and all interleavings of workers, components, operations on files, snapshots, requests of others and failures", "why_tests_cant": "The points pass through the cache of the component, a request, the memory of the worker and three or four operations on a file per batch, at the same time for every role; no test can try all interleavings of these for all numbers of roles and points.", "anchors": ["src/tomato/daemon/job.py:job_thread", "src/tomato/daemon/io.py:data_to_pickle", "src/tomato/daemon/io.py:merge_netcdfs", "src/tomato/driverinterface_2_1/__init__.py:ModelDevice.task_runner"]}
{"id": "C110", "title": "Start and stop triggers fire only after the task they name has begun", "statement": "A task with start_with_task_name is sent to its component only after a task of that name has been sent to its component, and a task with stop_with_task_name is stopped by its trigger only after that; a worker stops a task for no other reason.", "quantifier": "all jobs, numbers of roles and tasks, names, and all interleavings of the workers, the main thread and the answers of the components", "why_tests_cant": "the tests have one pair of tasks with a trigger and look at the amount of data; whether a trigger fires early depends on the interleaving of at least three threads", "anchors": ["src/tomato/daemon/job.py:job_thread", "src/tomato/daemon/job.py:job_main_loop"]}
{"id": "C111", "title": "A start trigger is not missed", "statement": "A task that holds for its start trigger sends nothing until the trigger fires, and is sent once a task of that name has begun, so that a job whose components work ends.", "quantifier": "all jobs, numbers of roles and tasks, names, and all interleavings of the workers, the main thread and the answers of the components", "why_tests_cant": "whether the main thread sees a task depends on how long it runs relative to the one-second loop; a missed trigger shows only as a job that never ends", "anchors": ["src/tomato/daemon/job.py:job_thread", "src/tomato/daemon/job.py:job_main_loop"]}
{"id": "C112", "title": "A late answer loses no data and repeats no task", "statement": "When an answer of a driver comes later than the worker of a job waits for it, and the request is sent again, every point measured is still stored exactly once and in order, and every task of the job is executed once.", "quantifier": "all task lists, all interleavings of worker, driver and component, any number of late answers to any requests, other users of the component, failing requests and driver code", "why_tests_cant": "an answer is late only when the driver happens to measure for longer than a second at the moment of the request; the lost point or repeated task raises no error and shows only in the data", "anchors": ["src/tomato/daemon/lpp.py:comm", "src/tomato/daemon/job.py:job_thread", "src/tomato/driverinterface_2_1/__init__.py:ModelDevice.get_data", "src/tomato/driverinterface_2_1/__init__.py:ModelInterface.task_start"]}
{"id": "C113", "title": "Nothing is executed that was not submitted", "statement": "Every record of the queue holds the payload and name of a job submitted by a user (in the last supported version, with missing locations filled in), unless it was there before; and every job process that is ever started executes the payload recorded under its job id, on behalf of which it archives only in repositories named in this payload.", "quantifier": "all executions: any commands by any users, any interleaving of commands, managers, job processes and drivers, crashes and restarts of the daemon, any content of the queue at the start", "why_tests_cant": "a payload of one job given to the process of another would need two jobs handled by a pass at the right moment, and shows only in the results of the experiment", "anchors": ["src/tomato/ketchup/__init__.py:submit", "src/tomato/daemon/job.py:action_queued", "src/tomato/daemon/jobdb.py:insert_job", "src/tomato/daemon/job.py:tomato_job"]}
{"id": "C114", "title": "The status of a job is accounted for", "statement": "A job is marked for termination or recorded as cancelled only if a user's cancel command names it; it is recorded with a process, as running, complete or failed only if the daemon has started a process for it. A job for which neither happened is queued.", "quantifier": "all executions: any commands, any interleaving of commands, managers, job processes and drivers, crashes and restarts of the daemon, any content of the queue at the start", "why_tests_cant": "the statuses are written by commands, by the job manager and by job processes on the basis of rows read earlier; that none of them ever writes to the record of another job shows only under all interleavings", "anchors": ["src/tomato/ketchup/__init__.py:cancel", "src/tomato/daemon/job.py:manage_running", "src/tomato/daemon/job.py:check_queued", "src/tomato/daemon/job.py:tomato_job", "src/tomato/daemon/jobdb.py:update_job_id"]}
{"id": "C115", "title": "The state of a pipeline is accounted for", "statement": "At every moment, the sample recorded in a pipeline was there at the start or comes from a user's 'pipeline load' command for that pipeline; the pipeline is marked ready only if it was so at the start, a user asked for it with 'pipeline ready', or a job whose payload sets unlock_when_done was started on it; the job id in its record was there at the start or is that of a job in the queue. A pipeline that no load or eject command names keeps its record and its sample, whatever is submitted, executed, cancelled or reloaded.", "quantifier": "all worlds without unstarted processes, all executions of all processes and commands (any interleaving, any length)", "why_tests_cant": "three kinds of program write to the pipeline table concurrently; tests look at the record after single commands", "anchors": ["src/tomato/tomato/__init__.py:pipeline_load", "src/tomato/tomato/__init__.py:pipeline_eject", "src/tomato/tomato/__init__.py:pipeline_ready", "src/tomato/daemon/job.py:action_queued", "src/tomato/daemon/job.py:tomato_job", "src/tomato/daemon/pip.py:manager"]}
{"id": "C116", "title": "What is recorded about a driver is what its process announced", "statement": "At every moment, the record of a driver either names no process at all, or has the port, process id and version it had at the start, or all three are those that one and the same driver process, of that name and with an interface that could be created, announced; so requests for a driver are never sent to the port of another one. The number of counted starts stays between zero and three.", "quantifier": "all worlds, all executions of all processes and commands (any interleaving, any length)", "why_tests_cant": "records are written by driver processes and by the driver manager at the same time; tests see single drivers that are started once", "anchors": ["src/tomato/daemon/driver.py:tomato_driver", "src/tomato/daemon/driver.py:manager", "src/tomato/daemon/cmd.py:reload"]}
{"id": "C117", "title": "The configuration in force was read from the configuration files", "statement": "Whenever a daemon is running, its settings are those of some version of settings.toml (the one at the beginning or one it was changed to), and its pipelines, devices, components and drivers are the valid contents of some version of the devices file these settings name, with the driver settings merged in; it is closed under references. If the files are never edited, every daemon has exactly the configuration they give. The daemon listens on the port of a start command and is stopping only if a stop was asked for.", "quantifier": "all initial worlds and all executions: interleavings of commands, managers, processes, edits of the files, crashes and restarts", "why_tests_cant": "A reload reads two files one after the other while they may be edited, and may be refused half way; tests load one fixed file.", "anchors": ["src/tomato/daemon/cmd.py:reload", "src/tomato/models.py:Daemon", "src/tomato/tomato/__init__.py:reload"]}
{"id": "C118", "title": "Requests about a component go to a port announced by its driver", "statement": "In every interleaved execution of the daemon, commands, jobs and drivers, every request the daemon sends is one of these: a question for capabilities, a validation or a reset of a component that a configuration read from the files lists in one of its pipelines, sent to a port which a process announced under the name of that component's driver; or a status, register or stop request to a port announced by some driver. A validation is about a task of a recorded job, and about a component which plays the role of that task.", "quantifier": "all initial states, all finite sequences of steps (commands, manager passes, driver starts, edits of files, kills, reloads), all driver answers", "why_tests_cant": "needs all interleavings of configuration edits, reloads and driver restarts with passes of the three managers", "anchors": ["src/tomato/daemon/job.py:method_validate", "src/tomato/daemon/job.py:find_matching_pipelines", "src/tomato/daemon/pip.py:manager", "src/tomato/daemon/driver.py:manager", "src/tomato/daemon/driver.py:stop_tomato_driver"]}
{"id": "C119", "title": "Every change of a record is made by the part of tomato in charge of it", "statement": "In every step of every interleaved execution, a record of a job, pipeline or driver that appears or changes does so in a way reserved for the part of tomato that makes the step: commands add queued jobs, fresh pipelines and drivers, mark jobs as cancelled and change samples and readiness; the job manager marks jobs as waiting, launched, crashed or cancelled and reserves pipelines; the pipeline manager frees them; a job process records its own connection, paths and outcome and frees its own pipeline; the driver manager resets driver records and counts starts; a driver process announces itself. In particular a job becomes running only by its own process, samples are changed by commands only, and a job that left status q is never q again.", "quantifier": "all initial states with a well-formed queue, all finite sequences of steps and the step after them", "why_tests_cant": "quantifies over all steps of all interleavings; tests see final states only", "anchors": ["src/tomato/daemon/job.py:tomato_job", "src/tomato/daemon/job.py:manager", "src/tomato/daemon/pip.py:manager", "src/tomato/daemon/driver.py:manager", "src/tomato/daemon/driver.py:tomato_driver", "src/tomato/ketchup/__init__.py:cancel", "src/tomato/ketchup/__init__.py:submit", "src/tomato/tomato/__init__.py:pipeline_load"]}
{"id": "C120", "title": "A method is matched with the pipelines whose equipment suits it", "statement": "When the drivers that answer the daemon are driver processes with an interface object, find_matching_pipelines returns the names of exactly those pipelines of the devices file that have, for every task of the method, a component in the role of the task which is registered with the process of its driver, lists the technique among its capabilities, and whose attributes take every parameter of the task (interface 2.0: in the sense of its own task_validate). The answer to cmp_capabilities is redundant. A component found this way accepts the task when the job process asks for task_start, and puts it at the end of its queue (interface 2.0: unless its thread was started before).", "quantifier": "for all states of the daemon, all sets of driver processes of both interface versions with any code of their own whose capabilities do not depend on when they are asked, all methods", "why_tests_cant": "The daemon, the drivers and the devices have to be put together in a particular state; a test sees one devices file and one kind of driver.", "anchors": ["src/tomato/daemon/job.py:find_matching_pipelines", "src/tomato/daemon/job.py:method_validate", "src/tomato/driverinterface_2_1/__init__.py:ModelInterface.task_validate", "src/tomato/driverinterface_2_1/__init__.py:ModelInterface.cmp_capabilities", "src/tomato/driverinterface_2_1/__init__.py:ModelInterface.task_start"]}
{"id": "C121", "title": "The equipment of a freed pipeline is idle", "statement": "If a pipeline holds a job before a pass of the pipeline manager and none after it, then every component of the pipeline that is registered with its driver runs nothing, has nothing waiting and holds no data of the previous job once the driver has dealt with the requests of the pass. A component that is changed by the pass belongs to a pipeline whose job is over; no component is registered or forgotten.", "quantifier": "for all states of the database, all devices files, all driver processes of both interface versions in any state", "why_tests_cant": "Needs a job that dies while its components are busy, and the view into the driver processes afterwards.", "anchors": ["src/tomato/daemon/pip.py:manager", "src/tomato/driverinterface_2_1/__init__.py:ModelInterface.cmp_reset", "src/tomato/driverinterface_2_0/__init__.py:ModelInterface.cmp_reset"]}
{"id": "C122", "title": "Every configured component is registered with its driver", "statement": "A component of the devices file whose driver is running, is looked after by the driver manager and is able to make the component, is registered with the driver process: at the first check of the driver by the manager, and, if it could not be made then or was added to the configuration later, at a later check.", "quantifier": "for all driver processes, all sequences of passes of the driver manager, all devices files, anything else happening in between that registers and removes no component", "why_tests_cant": "Needs a driver with several components one of which fails at first, or a reload while the driver is in use, and waiting for checks that do nothing.", "anchors": ["src/tomato/daemon/driver.py:manager", "src/tomato/daemon/driver.py:tomato_driver_bootstrap", "src/tomato/driverinterface_2_1/__init__.py:ModelInterface.status", "src/tomato/driverinterface_2_1/__init__.py:ModelInterface.cmp_register"]}
{"id": "C123", "title": "Commands by hand do not disturb work in progress", "statement": "A passata command changes nothing but the component it is about; without force, reset and set_attr are refused for a component with a task and leave it as it is; a reset reported as a success leaves the component idle, a set_attr reported as a success hands exactly one value, coerced by the attribute's declaration, to the driver's code and leaves the component's task, queue and data alone; with force, a registered component is always reset.", "quantifier": "every set of driver processes and registered components (interfaces 2.0 and 2.1), every behaviour of the driver's own code, every command, component, attribute and value", "why_tests_cant": "the tests run passata against one freshly started example driver, never while every kind of work is queued, running or just finished", "anchors": ["src/tomato/passata/__init__.py:_running_or_force", "src/tomato/passata/__init__.py:reset", "src/tomato/passata/__init__.py:set_attr", "src/tomato/driverinterface_2_1/__init__.py:ModelInterface.cmp_reset", "src/tomato/driverinterface_2_1/__init__.py:ModelInterface.cmp_status"]}
{"id": "C124", "title": "A driver that ends leaves its components at rest", "statement": "However it was used before, a driver process that is told to stop answers, leaves its main loop, and its clean-up succeeds and leaves every registered component without a running task, without waiting tasks and without data; nothing but a request to stop makes it leave the loop; when the daemon stops, every driver with a port is sent exactly that one message. However a driver process ends, its components are left at rest.", "quantifier": "all histories of a driver process (interfaces 2.0 and 2.1, all requests, all behaviour of the driver's code, all interference of worker threads), all tables of drivers", "why_tests_cant": "the tests stop drivers that are idle; what is left running depends on what was queued and running at that moment", "anchors": ["src/tomato/daemon/driver.py:tomato_driver", "src/tomato/daemon/driver.py:manager", "src/tomato/driverinterface_2_1/__init__.py:ModelInterface.quit", "src/tomato/driverinterface_2_1/__init__.py:ModelInterface.reset"]}
{"id": "C125", "title": "Drivers work with the settings in force", "statement": "The interval between idle measurements that a running driver process uses is the one given for that driver in the settings the daemon has in force, also after a successful reload that changes it.", "quantifier": "all drivers and driver code, all settings, all sequences of requests by the daemon's managers, job processes and passata, all clock readings", "why_tests_cant": "needs a reload that changes a driver's settings while its process runs, and then timing of its measurements", "anchors": ["src/tomato/daemon/driver.py:tomato_driver_bootstrap", "src/tomato/daemon/driver.py:tomato_driver", "src/tomato/daemon/cmd.py:reload"]}
{"id": "C126", "title": "Queued jobs are started in the order of submission", "statement": "When the job manager starts a job on a pipeline, every job submitted earlier that is in the queue, suits that pipeline and wants the sample in it is started in the same pass, and before it.", "quantifier": "all worlds, all passes of the job manager, every change of the world by the rest of the system between any two operations of the pass", "why_tests_cant": "needs several queued jobs competing for a pipeline and changes by other processes at chosen points of a pass", "anchors": ["src/tomato/daemon/job.py:check_queued", "src/tomato/daemon/job.py:action_queued", "src/tomato/daemon/job.py:manager"]}
{"id": "C127", "title": "Signals reach the processes they are meant for", "statement": "The process number a job or a driver announces is its own or that of the launcher it was started with. Cancelling a running job sends a signal to what the job process has started, never to the job process itself, which is to end by itself, and never to a process of another job. Killing a driver sends a signal to the process that runs the driver.", "quantifier": "all tables of processes (unique numbers, no process its own ancestor), both kinds of platform, all processes", "why_tests_cant": "process trees differ between platforms and installations; the tests run on one of them", "anchors": ["src/tomato/utils.py:get_pid", "src/tomato/daemon/job.py:tomato_job", "src/tomato/daemon/job.py:kill_tomato_job", "src/tomato/daemon/driver.py:kill_tomato_driver"]}
