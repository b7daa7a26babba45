(** * SpecBoot: vocabulary for records of configured drivers and pipelines (C08, C100) *)
From Coq Require Import List String ZArith Bool.
From Verif Require Import Base Types ConfigModel Prog World SysModel.
Import ListNotations.

Definition drv_recorded (w : world) (n : string) : Prop := In n (map dv_name (w_drvs w)).
Definition pip_recorded (w : world) (n : string) : Prop := In n (map p_name (w_pips w)).

(** Every driver and every pipeline of the configuration in force has a record. *)
Definition drvs_recorded (w : world) : Prop :=
  forall d, w_daemon w = Some d -> forall n, In n (dkeys (df_drivers (dm_df d))) -> drv_recorded w n.
Definition pips_recorded (w : world) : Prop :=
  forall d, w_daemon w = Some d -> forall n, In n (dkeys (df_pipelines (dm_df d))) -> pip_recorded w n.

(** Nobody issues a reload; nobody starts a daemon. *)
Definition no_reload (l : label) : Prop := forall p, l <> LCmd (CmdReload p).
Definition no_start (l : label) : Prop := forall p, l <> LCmd (CmdStart p).

(** No command is being executed (managers, jobs and drivers may be). *)
Definition no_command (s : sys) : Prop :=
  forall t, In t (s_threads s) -> t_kind t = KCmd -> ended t = true.
