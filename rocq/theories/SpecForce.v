(** * SpecForce: where the configuration of the daemon comes from (C117) *)
From Coq Require Import List String ZArith.
From Verif Require Import Base PyStr Types ConfigModel World Replies CmdModel KetchupModel TomatoModel SysModel SpecSys.
Import ListNotations.

(** The configuration files as they were at some time: at the beginning, or after they were edited. *)
Definition version (w : world) (ls : list label) (f : cfgfiles) : Prop := f = w_files w \/ In (LFiles f) ls.

(** [st] and [df] are the settings in one version of the settings file, and the valid contents of one
    version of the devices file that these settings name, with the settings of its drivers. *)
Definition read_from (w : world) (ls : list label) (st : settings) (df : devicefile) : Prop :=
  exists f1 f2 rf df0, version w ls f1 /\ version w ls f2 /\ cf_settings f1 = Some st /\
    cf_devices f2 (st_devcfg st) = Some rf /\ load_devicefile rf = Ok df0 /\ device_settings st df0 = Ok df.

(** The state of a daemon process: its configuration was read from the files, it was started for its
    port, and it is stopping only if this was asked for. *)
Definition from_files (w : world) (ls : list label) (d : daemon) : Prop :=
  read_from w ls (dm_settings d) (dm_df d) /\ In (LCmd (CmdStart (dm_port d))) ls /\
  (dm_status d = Drunning \/ (dm_status d = Dstop /\ exists port, In (LCmd (CmdStop port)) ls)).
