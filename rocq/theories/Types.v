(** * Types: the data exchanged between the parts of tomato

    Definitions only.  Records follow the pydantic models of
    /repo/src/tomato/models.py and the attributes of the [Payload] and [Task]
    classes of dgbowl-schemas that the code in /repo/src/tomato reads.

    Simplifications that apply to the whole file:
    - time stamps ([str(datetime.now(timezone.utc))]) and clock readings
      ([time.perf_counter()]) are integers (microseconds); the code only compares
      them and computes differences;
    - file-system paths are strings. *)
From Coq Require Import List String ZArith QArith Bool.
From Verif Require Import Base.
Import ListNotations.
Open Scope Z_scope.

(** ** Values of task parameters and device attributes
    (driverinterface_2_1/types.py:6: [Val = str | int | float | pint.Quantity]).
    Floating-point numbers are exact rationals plus the three special values;
    rounding is not modelled. *)
Inductive pyfloat : Type :=
| FNan | FPosInf | FNegInf | FFin (q : Q).

(** A unit of the pint registry: its dimension (an opaque number, 0 means
    dimensionless) and its conversion factor to the base unit of that dimension.
    Simplification: offset units (degC) are treated as multiplicative. *)
Record punit : Type := mkUnit { u_dim : Z; u_scale : Q }.

(** [pint.Quantity]: magnitude and unit. *)
Record quantity : Type := mkQty { q_mag : pyfloat; q_unit : punit }.

Inductive pyval : Type :=
| VNone
| VBool (b : bool)
| VInt (z : Z)
| VFloat (f : pyfloat)
| VStr (s : string)
| VQty (q : quantity)
| VList (l : list Z).  (* any other object, e.g. a list; only its being "other" matters *)

(** ** Payload (dgbowl_schemas.tomato.payload, attributes read by the code) *)

(** [Task]: component_role, technique_name, task_params, task_name,
    start_with_task_name, stop_with_task_name, sampling_interval, max_duration
    (read in daemon/job.py:64-116,536-668,755-758 and
    driverinterface_2_1/__init__.py:363-413,528-545). *)
Record task : Type := mkTask {
  t_role : string;
  t_technique : string;
  t_params : option (dict pyval);
  t_name : option string;
  t_start_with : option string;
  t_stop_with : option string;
  t_interval : Z;
  t_duration : Z
}.

(** [payload.settings.snapshot]: interval and path (ketchup/__init__.py:102-105,
    daemon/job.py:789-799). *)
Record snapshot_cfg : Type := mkSnap { sn_interval : Z; sn_path : option string }.

(** [Payload]: sample.identifier, method, settings.output.{path, prefix,
    repositories}, settings.snapshot, settings.unlock_when_done, user.identifier,
    sample.sample_is_parent. *)
Record payload : Type := mkPayload {
  pl_sample : string;
  pl_method : list task;
  pl_outpath : option string;
  pl_prefix : option string;
  pl_repos : list string;
  pl_snapshot : option snapshot_cfg;
  pl_unlock : bool;
  pl_user : string;
  pl_is_parent : bool
}.

(** ** Rows of the SQLite tables (models.py:37-66, daemon/db.py:74-112) *)

(** models.py:59 *)
Inductive jstatus : Type := Sq | Sqw | Sr | Srd | Sc | Scd | Sce.

Definition jstatus_eqb (a b : jstatus) : bool :=
  match a, b with
  | Sq, Sq | Sqw, Sqw | Sr, Sr | Srd, Srd | Sc, Sc | Scd, Scd | Sce, Sce => true
  | _, _ => false
  end.

(** models.py:54-66 ([Job]) *)
Record job : Type := mkJob {
  j_id : Z;
  j_payload : payload;
  j_jobname : option string;
  j_pid : option Z;
  j_status : jstatus;
  j_submitted : Z;
  j_launched : option Z;
  j_connected : option Z;
  j_completed : option Z;
  j_jobpath : option string;
  j_respath : option string;
  j_snappath : option string
}.

(** models.py:37-41 ([PipState]) *)
Record pipstate : Type := mkPip {
  p_name : string;
  p_ready : bool;
  p_jobid : option Z;
  p_sample : option string
}.

(** models.py:44-51 ([DrvState]) *)
Record drvstate : Type := mkDrv {
  dv_name : string;
  dv_port : option Z;
  dv_pid : option Z;
  dv_version : option string;
  dv_spawn_time : Z;
  dv_spawn_count : Z;
  dv_heartbeat : Z
}.

(** [DrvState(name=n)] and [PipState(name=n)]: default values, models.py:37-51. *)
Definition drv_default (n : string) : drvstate := mkDrv n None None None 0 0 0.
Definition pip_default (n : string) : pipstate := mkPip n false None None.

(** ** Configuration (models.py:120-152) *)
Record pipeline : Type := mkPipeline { pp_name : string; pp_components : dict string }.

(** [channel] is optional in models.py:131 but always set by [populate_attrs]. *)
Record component : Type := mkComponent {
  c_name : string;
  c_device : string;
  c_driver : string;
  c_address : string;
  c_channel : string
}.

Record device : Type := mkDevice {
  d_name : string;
  d_driver : string;
  d_address : string;
  d_channels : list string;
  d_pollrate : Z
}.

(** Values found in the [drivers] tables of settings.toml.
    Simplification: compared structurally (Python also has [1 == 1.0 == True]). *)
Inductive sval : Type := SvInt (z : Z) | SvStr (s : string) | SvBool (b : bool).

Definition sval_eqb (a b : sval) : bool :=
  match a, b with
  | SvInt x, SvInt y => Z.eqb x y
  | SvStr x, SvStr y => String.eqb x y
  | SvBool x, SvBool y => Bool.eqb x y
  | _, _ => false
  end.

Record driver : Type := mkDriver { dr_name : string; dr_settings : dict sval }.

Record devicefile : Type := mkDF {
  df_components : dict component;
  df_devices : dict device;
  df_drivers : dict driver;
  df_pipelines : dict pipeline
}.

(** The keys of settings.toml the modelled code reads: settings["jobs"]["storage"],
    settings["devices"]["config"], settings["repositories"], settings["drivers"]
    (models.py:93,108; ketchup/__init__.py:108; daemon/job.py:270,276).
    [None] for [st_drivers] means the key is missing (KeyError).
    Simplification: settings["jobs"]["dbpath"] is not represented, i.e. the
    database file is the same before and after a reload. *)
Record settings : Type := mkSettings {
  st_storage : string;
  st_devcfg : string;
  st_repos : dict string;
  st_drivers : option (dict (dict sval))
}.

(** models.py:79 *)
Inductive dstatus : Type := Dbootstrap | Drunning | Dstop.

Definition dstatus_eqb (a b : dstatus) : bool :=
  match a, b with
  | Dbootstrap, Dbootstrap | Drunning, Drunning | Dstop, Dstop => true
  | _, _ => false
  end.

(** models.py:78-84 ([Daemon]); verbosity and appdir only feed log files and the
    location of settings.toml and are not represented. *)
Record daemon : Type := mkDaemon {
  dm_status : dstatus;
  dm_port : Z;
  dm_settings : settings;
  dm_df : devicefile
}.
