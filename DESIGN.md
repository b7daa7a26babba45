# Formal model of dgbowl/tomato: design

Sources: `/repo/src/tomato` at the pinned commit, read as text, never built or run.
Properties: `properties.jsonl` (C01 ... ). Claims: `MANIFEST.json`. Coq sources: `rocq/theories`.

## 1. Architecture of the model

All models are small total Gallina functions that follow the Python functions
branch by branch; Python exceptions are values (`exn`). Only Coq's standard
library is used.

* **Base layer** (`Base`, `PyStr`): Python values used everywhere: insertion-ordered
  dictionaries (association lists), strings (`replace`, `endswith`, SQL `LIKE`,
  decimal rendering), results with exceptions.
* **Data layer** (`Types`): the pydantic models of `models.py` and the parts of the
  `dgbowl-schemas` payload that the code reads.
* **Configuration** (`ConfigModel`): `DeviceFile.populate_attrs`, `Daemon.device_settings`.
* **Effects** (`Prog`): one *world* (three SQLite tables, daemon state, configuration
  files, job directories, processes, driver answers, clock, an event log) and one
  type of *atomic operations* (a committed SQL transaction, a file-system operation,
  a request to the daemon or to a driver, a process start, a clock reading). Python
  functions that touch the world are modelled as *programs* (`prog`): trees of atomic
  operations. The same program is
  * run to completion without interference (`run`) for the sequential properties,
  * interleaved with any number of other programs at atomic-operation granularity,
    with crashes at any point, for the concurrent properties (`System`).
* **Commands** (`CmdModel`: `daemon/cmd.py`; `KetchupModel`: `ketchup`; `TomatoModel`:
  the commands of `tomato/__init__.py` on pipelines, stop and reload; `TableModel`: its
  tables; `SetupModel`: init, start and `daemon/db.py:setup_db`; `PassataModel`: `passata`).
* **Command lines** (`CliModel`: `src/tomato/__init__.py` and the part of argparse it relies on).
* **Managers and job process** (`JobModel`: `daemon/job.py` down to `tomato_job`;
  `PipModel`: `daemon/pip.py`; `DrvModel`: the manager part of `daemon/driver.py`).
* **Job and component together** (`RunModel`): `job_thread` (job.py:500-713) composed with a
  component of a 2.1 driver, its requests being answered by the component's state; who else
  sends requests, which requests fail and what the clocks show is left to the scheduler.
  `RetryModel` adds that a request is sent again when its answer is late (`daemon/lpp.py`).
* **System** (`SysOps`, `SysModel`): all programs above, interleaved; `SysPlay`: scripts
  of concrete executions.
* **Daemon loop** (`DaemonModel`: `daemon/__init__.py`).
* **Messaging** (`LppModel`: `daemon/lpp.py`).
* **Job worker** (`JobThreadModel`: `job_thread`, `job_main_loop`), as programs over
  their own operations (request to the component, clock reading, reading announced
  names, storing data). All answer sequences are allowed; workers and main loop are
  interleaved.
* **Driver process and interface** (`IfaceModel`: `tomato_driver` with the interfaces 2.1
  and 2.0, request by request, with the bodies of both versions; between two turns the worker
  threads may change components arbitrarily; `AttrModel`: values, units, `coerce_val`, `task_validate`;
  `DeviceModel`: a 2.1 `ModelDevice` with its worker thread as a transition system;
  `Device20Model`: the same for 2.0).
* **Daemon and driver processes** (`WireModel`): the message each request of a manager is sent
  as, the reply as the manager sees it, and a process that deals with requests one after the
  other; it turns the oracle `w_driver` of the world into the processes of `IfaceModel`.
* **The end of a driver process** (`LifeModel`: the main loop and the clean-up behind it).
* **passata and driver processes** (`ByHandModel`): the requests of one passata command are answered
  by the processes at the ports they are sent to, and change them; a process that dies of a
  request or cannot pickle its reply leaves the command with a timeout and is gone.
* **Storage** (`IoModel`: `daemon/io.py`, with crash points; `CrateModel`: `daemon/crates.py`;
  `SnapModel`: the operations on files of a merge and of the workers of a job interleaved;
  `WholeModel`: the workers of all roles with their components and the operations on files).
* **Process trees** (`ProcModel`: `get_pid`, `kill_tomato_job`, `kill_tomato_driver` on Windows and
  elsewhere, over tables of processes). The other models follow POSIX, where a process announces
  itself and a job process, having only threads, has no children to signal.
* **Starting drivers** (`StartModel`: `drivers.py`, `tomato_driver` before its loop, the wait for all
  drivers at the start of `job_main_loop`).

Model files contain definitions only. Each property has a theorem in a `P_*.v` file
that contains only theorem statements closed by a lemma, `Print Assumptions`, and
`Example`s that exhibit a concrete non-trivial instance of the hypotheses. The
specification vocabulary used in the statements is in `Spec*.v` and does not use the
model's helper functions where a direct formulation exists.

## 2. Method

* input/output properties: full functional characterisation by case analysis or
  induction over the input lists;
* histories (commands to completion): invariants by induction over the list of steps;
* interleavings: a small rely/guarantee argument over programs: each program's atomic
  operations are shown to satisfy a guarantee, and facts known by a program between
  its operations are shown stable under everybody else's guarantee;
* job worker and driver interface: invariants over all traces / all schedules.

Where the property a user would expect is false of the faithful model, a theorem
`..._refuted` exhibits a concrete execution of the model, and the strongest true
variant is proved beside it. These are findings about the code (section 5).

## 3. Plan per property

| id | modelled by | proof |
|----|-------------|-------|
| C01-C03 | `ConfigModel` | induction over definitions, invariant of the accumulated dictionaries |
| C04 | `ConfigModel` | refuted by a comma in an address; proved when addresses and channels contain no comma |
| C05 | `ConfigModel` | induction over the settings table |
| C06, C07, C08, C09 | `CmdModel` | case analysis; induction over occupied pipelines; C08 refuted |
| C10-C20 | `KetchupModel` over `Prog` | run-to-completion characterisations; C11, C16, C17, C19 refuted in general, conditional versions proved |
| C21 | `SysModel` | guarantee of every program (`SysProofs*`) |
| C22-C24 | `TomatoModel` | run-to-completion characterisation |
| C25 | `SysModel`, scheduling passes and commands not overlapping | invariant |
| C26-C28, C35-C37 | `JobModel`, `PipModel` | run-to-completion characterisation, induction over lists; C37 refuted |
| C29, C30 | `SysModel` | rely/guarantee |
| C31 | `SysModel` | refuted by two executions; `SysProofs7-9`: rely/guarantee per thread (`RGY`) for executions in which iterations of the job and the pipeline manager do not overlap, no running job is marked for termination, processes connect within ten days and the clock is `steady` |
| C32-C34, C39 | `SysModel` | refuted by executions; conditional versions |
| C38, C40, C41 | `CmdModel`, `DaemonModel` | case analysis / induction over requests; C40 refuted for unknown commands |
| C42, C43 | `LppModel` | induction over the retry count; C43 refuted |
| C44-C47 | `DrvModel`, `SysModel` | invariants over histories; C44, C46, C47 refuted |
| C84-C86 | `AttrModel`, `IfaceModel` | comparison of the two validations; case analysis of requests; invariants over runs; C84, C85 refuted |
| C48, C51, C71, C72 | `IfaceModel` | invariants over request sequences; refuted in general |
| C49, C50 | `AttrModel` | case analysis; C49 refuted |
| C87 | `DeviceModel`, `Device20Model` | invariant of dead workers; reachability from every state; refuted |
| C88, C89 | `StartModel`, `JobModel`, `SysModel` | exact condition for matching and for a pass; invariant over executions; refuted |
| C90 | `CrateModel`, `JobModel` | case analysis; refuted |
| C52-C57 | `DeviceModel`, `Device20Model` | invariants over schedules |
| C58-C63 | `JobThreadModel` | induction over traces and schedules; C59, C60, C62, C63 refuted |
| C64 | `JobModel` | run-to-completion characterisation |
| C61, C65-C67 | `IoModel` | invariant of the folder; C66, C67 refuted |
| C68, C75 | `PassataModel` | case analysis over all answers |
| C69 | `TableModel` | induction over rows and keys; refuted for empty tables |
| C70, C74, C76 | `SetupModel` | invariant at every crash point; C74, C76 refuted |
| C73 | `CmdModel` | refuted; conditional version |
| C79 | `StatusModel`, `TableModel` | run-to-completion characterisation; refuted by reachable states |
| C80-C83 | `CliModel` | induction over the words: conservation of switches, typed namespaces, reading of regular lines; computation over the subcommand tables; refuted by lines |
| C77 | `SysModel` | rely/guarantee: rows only gain connection time and paths (`SysProofs10`) |
| C78 | `SysModel` | refuted by an execution; conditional version by rely/guarantee (`SysProofs11`) |
| C91 | `SysModel` | refuted by executions; rely/guarantee with a clock that goes forward (`SysProofs12`) and with at most one process per job (`SysProofs13`) |
| C92 | `SysModel` | refuted by executions; induction over the execution with at most one thread per manager (`SysProofs14`); exact conditions for one pass of each manager by induction over the rows (`PassProofs3`); failing operations end a manager at once: all programs of managers pass exceptions on (`SysProofs20`) |
| C93 | `RunModel` | ledger of points over all steps of worker and component, with the phases of a task (`RunProofs`, `RunProofs2`); two refutations by executions |
| C94 | `DeviceModel` | invariant over all executions (`RunProofs3`); refuted by an execution |
| C95 | `AttrModel` | case analysis of `coerce_val` (`AttrProofs2`); refuted by a plain number as maximum |
| C96 | `IfaceModel` | frame relations for all requests and calculation of the answers (`IfaceProofs5`) |
| C98 | `JobModel`, `KetchupModel`, events of `World` | exact list of the archives written by each program (`SuperProofs`); refuted for cancelled jobs |
| C99 | `JobModel`, `SysModel` | the specifications of the three parts of a pass composed (`PassProofs`), a process calculated exactly, threads run alone (`PassProofs2`) |
| C100 (and C08) | `CmdModel`, `DrvModel`, `SysModel` | rely/guarantee: what is bound is recorded, records never disappear (`SysProofs17`); refuted for reload |
| C101 | `IfaceModel`, `AttrModel` | which exceptions each conversion and each request can raise, then induction over the turns (`IfaceProofs6`; exact conditions for 2.0 by weakest preconditions, `IfaceProofs9`); refuted for values that cannot be converted |
| C102 | `SysModel`, `PipModel` | refuted by two executions; what the pipeline manager knows when it sends a reset, from the invariant of C31 (`SysProofs8-9`) |
| C103 | `SysModel`, `ConfigModel` | refuted by an execution; from C31 for components of one pipeline |
| C104 | `SysModel` | invariant: each manager's remaining program cannot fail as long as it is served, whatever happens in between (`AliveProofs`) |
| C105 | `IfaceModel`, `DeviceModel` | the loop over all components computed exactly (`IfaceProofs7`); invariant of a component reset for good (`DeviceProofs5`) |
| C106 | `JobThreadModel` | the clock readings and snapshots of the loop computed by induction (`SnapProofs2`), all answers |
| C107 | `SnapModel` | invariant of the files and of the merge over all interleavings (`SnapProofs`); exactly when it fails (`SnapProofs3`); refuted: the merge meets a truncated file |
| C108 | `KetchupModel`, `JobModel`, `PipModel`, `SysModel`, `JobThreadModel` | the three programs composed (`CancelProofs`); invariant of a process over all executions |
| C109 | `WholeModel` | every part of an execution is an execution of `RunModel` (C93), and its file holds what its worker stored, over all interleavings (`WholeProofs`) |
| C110, C111 | `JobThreadModel` | executions with their traces (`TrigProofs`): the names of a worker are those announced to it, over all interleavings; the events of a worker follow the automaton `trig` (`TrigProofs2`); holding is an invariant until the announcement (`TrigProofs3`) |
| C112 | `RetryModel` | the ledger of C93 with the points of late answers, by a correspondence with states of `RunModel` (`RetryProofs`); all executions, by the points returned (`RetryProofs2`); two refutations by executions |
| C113 | `SysModel`, `KetchupModel`, `JobModel` | rely/guarantee invariant of all executions about the origin of records and processes (`SysProofs21`) |
| C114 | `SysModel`, `KetchupModel`, `JobModel` | rely/guarantee invariant of all executions relating statuses to commands and starts (`SysProofs22`) |
| C115 | `SysModel`, `TomatoModel`, `JobModel`, `PipModel` | rely/guarantee invariant of all executions relating pipeline records to commands, starts and the queue (`SysProofs23`) |
| C116 | `SysModel`, `DrvModel`, `CmdModel` | rely/guarantee invariant of all executions about the rows of the driver table (`SysProofs24`) |
| C117 | `SysModel`, `CmdModel`, `ConfigModel` | invariant over all executions: files are versions of the run, operations on the daemon's state carry what was read (`SysProofs25`) |
| C118 | `SysModel`, `JobModel`, `PipModel`, `DrvModel` | invariant of the log of requests, relying on those of C116 and C117 (`SysProofs26`) |
| C119 | `SysModel` and all it runs | case analysis of the operations each kind of thread may execute (`SysProofs27`) |
| C120 | `JobModel`, `IfaceModel`, `WireModel` | the answers of the driver processes in closed form, put into C26 (`WireProofs`, `P_Wire`) |
| C121 | `PipModel`, `IfaceModel`, `WireModel` | induction over the requests of a pass, with C36 and C96 (`WireProofs`, `P_Wire`) |
| C122 | `DrvModel`, `IfaceModel`, `WireModel` | what a pass sends, as a property of programs; induction over passes; induction over the configured components (`TendProofs`); refuted twice |
| C123 | `PassataModel`, `IfaceModel`, `ByHandModel` | the execution of a command against driver processes; the answer to the status question and the effect of each request on its process, with C96 (`ByHandProofs`, `P_ByHand`); refuted for waiting tasks |
| C124 | `IfaceModel`, `LifeModel`, `DrvModel`, `WireModel` | induction over the turns of the main loop, with C86, C97 and C105 (`P_Life`); refuted for drivers that die |
| C125 | `IfaceModel`, `WireModel`, `ByHandModel`, `TomatoModel` | induction over the turns of a driver process; the requests tomato sends listed in `SpecSettings`; reload by computation |
| C126 | `JobModel`, `World`, `SysModel` | traces of a pass under arbitrary interference between operations (`SpecOrder.among`), induction over the loops; a thread of the whole system is such a trace (`covered`) |
| C127 | `ProcModel` | process tables as finite trees; induction over the ancestors, with the number of older processes as a bound |
| C97 | `SysModel`, `DrvModel` | the manager's own steps followed through the execution (`SysProofs15`); an invariant of all executions for when managers stop (`SysProofs16`); calculation for undisturbed runs; refuted by executions |

## 4. Trusted base

* Coq 8.16.1 kernel (with `vm_compute` for the closed computations of `Example`s and
  `_refuted` witnesses).
* `Print Assumptions` of each theorem: recorded in section 6.
* The correspondence between the Python text and the Gallina definitions, cited at
  each definition.
* The statements: `Spec*.v` and the `P_*.v` files. Each theorem has been tried against
  wrong programs (`seeded/LOG.jsonl`).
* Not modelled: see section 7.

## 5. Findings

Statements that are false of the code; the theorem named exhibits an execution of the model.

Configuration and commands
* Addresses or channels with commas give two hardware channels one component name (`C04_refuted`).
* Reload creates no state record for a new pipeline; loading a sample into it reports success
  without effect (`C08_refuted`); eject and ready then raise (`C23_C24_no_record`).
* The same branch of `cmd.reload` (cmd.py:77-156) inserts no record for a new driver: the driver manager never
  starts it, and the next queued job that has only roles of a pipeline with that driver ends the job manager with an
  AssertionError (`C100_refuted`, `C100_jobs`). Only starting the daemon again helps (`C100_never`).
* Reload raises KeyError and ends the daemon if an occupied pipeline is not configured (`C73_refuted`).
* Two submits at the same clock reading report the same job (`C11_refuted`).
* Cancelling several jobs records every outcome under the last id (`C16_refuted`); cancelling a
  running job twice raises UnboundLocalError (`C17_refuted`).
* search treats `_` and `%` as wildcards, ignores case, and fails on quotes (`C19_refuted`).
* snapshot of a job cancelled while queued raises, possibly after writing others (`C20_refuted`).
* A quote in a pipeline or driver name breaks SQL statements (`C22_quote`).
* `tomato status` of an empty group raises ValueError; "with no ..." is unreachable (`C69_refuted`).
* `tomato status components` raises while a driver has not registered and waits for ever for a driver
  that does not answer; `tomato status pipelines` raises after a reload that adds a pipeline (`C79_refuted`).
* Command lines: words after an option between arguments, surplus arguments and misspelled options
  are ignored without a message: `ketchup cancel 1 -v 2` cancels job 1 only (`C81_refuted`,
  `C81_misspelled_option_refuted`; where every word of every accepted line goes: `C81_accounted`,
  `C81_nothing_lost`; why a line is refused: `C81_refused`); `ketchup search --complete` has no effect (`C83_refuted`).
* The database version is asserted before the upgrade: earlier versions are never upgraded
  (`C74_old`); creation interrupted before the version is set makes every later start fail (`C74_refuted`).
* Two daemons with different ports can be started on one database (`C76_refuted`).
* `passata register` raises if the driver has no port (`C75_refuted`); the running check of
  set_attr and reset is not atomic with the change (`C68_race`).

Jobs and pipelines
* The ten seconds for a job to connect are passed to `timedelta` as days in `pip.py` (lines 21, 58),
  and the job is never marked (`C37_refuted`).  `job.py` (line 41) has a constant of the same name
  that really is ten seconds, but the branch using it (line 170) is never reached: the loop only
  sees jobs with a recorded process.
* A reload that changes the storage lets a started job be started again (`C29_refuted`).
* Cancelling a running job frees its pipeline but does not end its process: two jobs run on one
  pipeline (`C31_refuted`), and the process later overwrites 'cd' with 'c' (`C33_refuted`).
* An iteration of the pipeline manager reads the rows of the pipelines once (pip.py:47) and then, per
  pipeline, the job named in that copy. If meanwhile this job ended and the next one was started on the
  pipeline, the manager resets the components the new job uses (`C102_race_refuted`) and clears the
  row, so that a third job is started beside it (`C31_race_refuted`). Nobody cancels anything.
* Two pipelines of the devices file may have a component in common: jobs run on both at the same time
  (`C103_refuted`), and the end of one resets the component of the other (`C102_shared_refuted`).
* A pass in progress starts a job that has just been cancelled (`C32_refuted`), and a process that was
  started before the cancel and connects after it records the job as running (`C32_connect_refuted`).
* A cancel of several jobs replaces the final status of the job that it names last (`C33_list_refuted`).
* A job started but not yet connected is started again on another ready pipeline: makedirs fails
  and the job manager ends (`C34_refuted`).
* A job marked for termination without recorded process is never resolved (`C35_no_process`).
* An iteration of the job manager that read a job as running replaces 'c' by 'ce' when the process
  has completed and ended meanwhile (`C78_refuted`); a cancel in progress replaces it by 'rd', then
  'cd' (`C78_case`).
* launched_at can be later than connected_at: the clock is read after the process was started
  (`C91_launch_refuted`).  A job that is started twice can have completed_at before connected_at
  (`C91_order_refuted`).
* Cancelling a job after its process has connected and before it has recorded its paths ends the
  job manager with AssertionError (job.py:193, io.py:26): the job stays 'rd' and no job is started
  any more until the daemon is restarted (`C92_job_refuted`, `C92_stays`).  The pipeline manager
  waits for ever for a driver that does not answer (`C92_pip_refuted`; the same for every operation that fails: `C92_at_once`).
* A short task makes its job fail (C93): after sending a task, the job asks for the status every
  0.1 s until it *sees* the task running (job.py:582-619).  If the task is over before the first
  of these requests (or between two), it is taken for one that was never started; after ten
  seconds the job gives up, ends with `ce`, and the measured data stays in the component until
  the next task drops it (`C93_short_refuted`).
* A task that is stopped by another one can lose its last point (C93): `task_stop` clears the
  flag and fetches the data, but a thread that has already decided to measure goes on to do so;
  the job's final `task_data` may come before that, and the next task or the reset discards the
  point (`C93_stop_refuted`).
* A minimum or maximum given as a plain number (not 0) for an attribute with a unit (C95): comparing
  it with a quantity raises, so every value is refused, and validating a task with such a parameter
  raises ValueError, which ends the driver process (`C95_plain_bound`, `C95_refuted`).
* After an accepted stop, the pass in progress goes on starting jobs (`C39_refuted`).
* An eject that overlaps a pass leaves a pipeline with a job and without sample (`C25_overlap`).
* A role's worker dies of AttributeError after its second task (`completed_tasks.append` returns
  None): the third task is never sent (`C59_refuted`), the component is never reset (`C62_never`),
  and the job still ends as 'c'.
* A driver that the driver manager finds silent loses its port in the database.  If this happens
  between the job's check that all drivers have ports and its reading of the driver's row, the role's
  worker dies while connecting (port None), nothing is sent, and the job ends as 'c'
  (`C59_no_port`, `C59_port_refuted`).
* A refused status request ends the wait for a task (`C60_refuted`); a crash of a worker between
  the two readings of the main loop is reported as 'c' (`C63_refuted`); an exception of the main
  thread leaves the started workers running (`C58_broken`).
* A crash between truncating and writing a role's file loses its data and makes the data of all
  roles unmergeable (`C66_refuted`, `C66_lost`); so does a snapshot at that moment (`C66_snapshot`).
* Result files of different jobs collide through prefixes (`C67_refuted`).

Daemon, messaging, drivers
* An unknown command is answered with the previous reply, or ends the daemon (`C40_refuted`).
* A slow server executes a request once per retry (`C43_refuted`); zero retries never end (`C42_unbounded`).
* A driver dying after registration is restarted after less than five seconds (`C44_refuted`);
  `del_drv` always raises and ends the driver manager (`C46_refuted`); contact times are
  perf_counter readings that survive reboots (`C47_refuted`).
* A registration on request at count three re-opens automatic registration (`C48_refuted`); a
  failing `capabilities()` leaves a half-registered component (`C48_half_registered`).
* NaN passes all bounds, compatible units are not converted, options are checked before the unit
  is added (`C49_refuted`, `C49_unit_refuted`, `C49_options_refuted`).
* A quantity attribute declared without units makes every validation of it raise what
  `pint.Quantity(None)` raises (TypeError), which ends the driver (`C50_ex_no_units`).
* The 2.0 refusal for unknown components cannot be pickled and ends the driver (`C51_refuted`);
  "register" always ends a 2.0 driver (`C72_register20`); a failing registration request ends a
  2.1 driver (`C72_refuted`); an overridden `cmp_measure` that raises is repeated at once (`C71_refuted`).
* Registering a busy component again starts a second worker (`C52_refuted`); one measurement is made
  past the maximum duration (`C54_refuted`); a stop during preparation is lost, in 2.0 every stop
  (`C55_refuted`, `C55_v20_refuted`); `cmp_measure` races with the worker (`C56_refuted`); the 2.0
  reset does not end the old thread (`C57_v20_refuted`).
* The 2.0 interface accepts None for text attributes, which 2.1 refuses (`C84_refuted`), and ends
  with TypeError on None for numbers (`C84_ex_none`); `cmp_set_attr` of 2.0 checks nothing
  (`C49_v20_unchecked`).
* A valid task submitted to a 2.0 component whose thread was started before ends the driver without
  reply (`C85_refuted`, `C85_dies20`); a teardown request with do_run ends a 2.1 driver (`C86_ex_argument`).
* When `prepare_task` or `do_measure` of a 2.1 driver raises, the worker thread is gone: the component
  goes on reporting "ready" and accepting tasks, none of which is ever begun (`C87_refuted`, `C87_dead`).
  A job then sees an idle component and completes without data. In 2.0 a failed one-off measurement
  leaves "running" set for ever: measurements are refused and every task ends the driver (`C87_v20_stuck`).
* 2.0: a one-off measurement requested right after a task was started runs beside the task and then
  reports the component ready (`C56_v20_refuted`); a preparation that fails after a reset stops the
  next task instead of its own (`C57_v20_ex`).
* The job manager asks the drivers of every pipeline that has the roles of a queued job. One driver
  that has no port, or does not answer, stops the scheduling of all jobs, including those for
  pipelines that do not need it (`C88_refuted`, `C88_blocked`). Every job process first waits until all
  recorded drivers have a port; a driver that cannot be started (say, its package is not installed)
  keeps every job from beginning (`C88_never_works`). Rows of drivers that left the configuration
  stay recorded (see C47), so this also happens after a driver was removed.
* `driver_to_interface` replaces dashes by underscores: drivers `my-driver` and `my_driver` get the
  same module (`C89_refuted`). A ModuleNotFoundError of a package that the driver itself imports is
  reported as a missing driver (`IMissing` in `StartModel`).
* No crate is written, without any message, when rocrate is not installed, and for the repository
  `default` when it is not in the settings (`tomato init` writes it as a comment); both jobs end in
  status 'c' (`C90_refuted`). When the crate cannot be written, the job stays 'r' although its result
  is complete, and is later reported as crashed (`C90_failed`, `C90_failed_case`). If user and sample
  have the same identifier, the author is lost (`C90_content_refuted`).
* Stopping the daemon while a recorded driver is dead (drivers are looked at every five seconds only):
  the stop command is accepted, the driver manager waits for an answer that never comes, the drivers
  after the dead one are not told and the daemon never exits; it can only be killed
  (`C97_silent_refuted`, `C97_hangs`). A driver process that was started but has not announced itself
  is left alone and waits for the daemon for ever (`C97_left_refuted`). `kill_tomato_driver` raises
  whatever it is given (`C97_kill`). The driver table keeps the ports of stopped drivers (`C97_once`).
* Result files of cancelled jobs (C98): `manage_running` merges the data before it updates the row: the
  attribute `tomato_Job` of the results file says status 'rd' and no completion time for ever, while the
  database says 'cd' (`C98_refuted`, always: `C98_cancelled`). Crashed jobs get no results file at all
  (`C98_cancelled`). Only jobs that end by themselves are described correctly (`C98_final`).
* A list or an infinite number given for a numeric attribute, in `cmp_set_attr` or as a task parameter of a payload,
  raises TypeError or OverflowError, which `coerce_val` and `task_validate` do not expect; `log_errors` turns it into
  `sys.exit`: the driver process, which serves all other jobs of its components, ends without an answer
  (`C101_refuted`, `C101_value_dies`, `C101_task_dies`). The same happens when an argument is missing
  (`C101_missing_dies`). A 2.0 driver also ends when the component of a request is not registered and when a second
  task is accepted (`C101_v20_exact`).
* `psutil.pid_exists(pid)` followed by `psutil.Process(pid).status()` (job.py:181-183, pip.py:60-63): a process that
  disappears in between raises NoSuchProcess and ends the manager for good, even if the job completed regularly
  (`C104_vanish_refuted`, `C104_case_job`). Children of the daemon usually stay as zombies, which is harmless
  (`C104_case_zombie`), but they disappear when the daemon starts another process, and processes of jobs that were
  started by a previous daemon disappear at once.
* Resetting a driver (C105): with the 2.1 interface the request "reset" (or "quit") starts the new worker
  threads with `do_run=False`. The components stay registered, say that they are ready and accept tasks, but
  nothing is executed until each of them is reset with `cmp_reset` (`C105_refuted`, `C105_off`).
* Requests about the driver itself that end it (`C72_fatal`): "settings" or "cmp_register" without parameters,
  "status", "reset" or "quit" with parameters, "DeviceFactory" in any form (what it returns cannot be sent), and
  the name of any attribute that is no function, such as "version" or "devmap".
* Requests about a component that end its driver (`C72_fatal_component`), and with it all other components of the driver:
  getting or setting an attribute without name or value, starting or validating a task without task, a status request with an
  entry "attr", a 2.1 teardown with "do_run". The TypeError becomes `sys.exit`, which the main loop does not catch.
* Snapshots of a running job (C106, C107): `data_to_pickle` opens the data file for writing, which empties it, before
  the data is dumped; a `merge_netcdfs` of the main thread (or of `ketchup snapshot`) that reads it in between raises
  EOFError (`C107_refuted`; in no other case: `C107_exact`). In the main thread this ends `job_main_loop` while the workers go on (`C106_failure`).
  After a slow pass of the loop, missed snapshots are made up one per pass (`C106_ex_burst`).
* Cancelling a running job does not stop it (C108): `kill_tomato_job` signals the child processes of the job process,
  which has threads only. The job is recorded as cancelled and its pipeline is freed and reset, but the process goes
  on (`C108_refuted`, `C108_untouched`), sends its remaining tasks to the components (`C108_sends_on`), and replaces the
  status when it ends (`C33_refuted`).
* **Triggers fire early** (`C110_refuted`): `job_thread` sets `current_task` (job.py:541) before it holds for
  the start trigger and for the component; `job_main_loop` takes every current task for a started one
  (801-805). Two tasks that wait for each other both start.
* **Triggers are missed** (`C111_refuted`): the main loop looks once per second at the current tasks only
  (801-805, 823). A task that begins and ends in between is never in `started_task_names`; a task with
  that start trigger, and the job with it, waits for ever. So does one whose start trigger is the name of
  no task (`C111_unknown`); nothing in tomato itself checks that. A snapshot that fails (798, see C107) ends
  the main loop; the workers, which are not daemon threads (780), go on, and no trigger fires any more
  (`C111_dead`, `C111_snapshot_refuted`).
* **A late answer loses data** (`C112_refuted`): `lpp.comm` gives up on an answer after one second and sends the
  request again (lpp.py:41-60). `task_data` waits for `datalock` (driverinterface_2_1:636), which is held while a
  driver measures (542, 589), so that the answer is late whenever measuring takes longer than a second; the first
  request has cleared the cache (638), and the points in its answer are gone, without any error. What is lost is
  exactly what late answers held (`C112_partial`).
* **A late answer repeats a task** (`C112_twice_refuted`, `C112_items`): `task_start` is sent again likewise; the
  task is queued and executed once more, and its second execution drops what the first one left to be fetched (538).
* C61: when writing the data of a task raises (folder deleted, disk full), the worker thread dies from
  the exception without setting its crash flag; the data it had fetched is gone and the main loop
  reports the job complete (`C61_refuted`).
* C78: when a reload has changed the storage between the start and the connection of a job, the job is started twice;
  its second process records it as running after the first has completed it (`C78_again_refuted`).
* The driver manager asks a driver to register components only while it has none
  (`daemon/driver.py:378`). A component that could not be made at the first attempt
  (`C122_refuted`) or was added by a reload to a driver in use (`C122_reload_refuted`) is never
  registered by the daemon; only `passata register` helps.

* **passata: a waiting task is dropped without --force** (`passata/__init__.py:55-75`,
  `driverinterface_2_1/__init__.py:196-210`).  `_running_or_force` asks for `cmp_status` and looks
  at its entry "running", which is false between the acceptance of a task (`task_start` puts it
  into the queue) and the moment the worker thread takes it.  `reset` without force is let through
  in that time and removes the task (`C123_refuted`); while something runs it is refused and
  changes nothing (`C123_running`).

* **A driver that dies does not clean up** (`daemon/driver.py:317-322`).  `interface.quit()` follows
  the `try` block, so it is reached after a request to stop only.  A driver that dies of a request
  (C72, C101) leaves its components as they are, with whatever they were last set to
  (`C124_refuted`); a driver that is told to stop leaves all of them idle (`C124_stop`).
* **Changed driver settings do not reach a running driver** (C125). A driver process takes its settings from the
  daemon once, when it is started (driver.py:218-223). `tomato reload` puts new settings into force and reports success,
  but nobody sends the request "settings" that the driver would understand (driver.py:277): the process goes on with the
  old ones until it is started again.
* **A later job can overtake an earlier one** (C126). `check_queued` asks the drivers again for every queued job; if a
  driver comes up (or is registered) in the middle of the pass, a later job matches a pipeline that the same pass has
  found unsuitable for an earlier job with the same payload, and is started on it.
* **On Windows, signals can reach the wrong process** (C127). `kill_tomato_job` takes the
  grandchildren of `tomato-job.exe` for the tasks of the job. If `python.exe` is a launcher itself
  (as in a virtual environment), the grandchild is the job process, which is ended without
  finishing its job. `kill_tomato_driver` signals `tomato-driver.exe` only, not the Python process
  below it; the list of children is built but not used.
* **The handler for RuntimeError in the main loop of a driver is never used** (C71). `log_errors` turns a RuntimeError of
  an idle measurement into `sys.exit` before it gets there (driver.py:315): it ends the driver (`C71_endings`).

## 6. Assumptions

Every theorem of MANIFEST.json is followed by `Print Assumptions` in its `P_*.v` file; all print
"Closed under the global context": no axiom, of the standard library or other, is used. (`coqchk`
lists the seven opaque constants of `Coq.ssr.ssrunder`, which the standard library loads; no
theorem depends on them.)

## 7. Not modelled

* The text of log and reply messages (kept as kinds), YAML/TOML/JSON parsing, pickling (except
  where it fails), `utils.py` except `get_pid`; of argparse: abbreviations, `--option=value`, clusters of
  short options, `--`, words like `-1.5` (`CliModel` says so explicitly: `PUnmodelled`).
* The library rocrate beyond what the head of `CrateModel` says (identifiers, `add`, `add_file`).
* SQLite: every committed transaction is atomic and durable; locking errors are not modelled.
* Sockets: a request gets an answer, a timeout, or none; ports are not reused; `LppModel` treats
  the retrying channel on its own, the other models treat a request as one operation.
* Process identity: a process number is not reused while a record refers to it.
* Clocks: integers; local clock changes are modelled only where a property is about them (C47).
* Threads: Python threads interleave at the granularity of the listed operations; the granularity
  is stated at the head of each model.
* The drivers themselves: their device methods are arbitrary functions that return or raise.
* pint: parsing of text, `Quantity(True)` and `Quantity(None)` are oracles (`AttrModel.parser`).
* xarray: a dataset is the list of its data points.
