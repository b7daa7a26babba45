(** * SpecStuck: vocabulary for managers that have ended (C92) *)
From Coq Require Import List String ZArith Bool.
From Verif Require Import Base Types Prog World SysModel SpecSys.
Import ListNotations.

(** The manager thread [k] has ended with exception [e]; for [e = Blocked] it waits
    for ever for an answer. *)
Definition stuck (k : kind) (e : exn) (s : sys) : Prop :=
  is_mgr k = true /\ exists t, In t (s_threads s) /\ t_kind t = k /\ t_pgm t = Raise e.

(** The daemon process goes on. *)
Definition daemon_stays (l : label) : Prop := l <> LCrash /\ l <> LExit.

(** The recorded process of every job in [w] that has one is recorded in [w'], or
    another one. *)
Definition pids_kept (w w' : world) : Prop :=
  forall i j, get_job (w_jobs w) i = Some j -> j_pid j <> None ->
  exists j', get_job (w_jobs w') i = Some j' /\ j_pid j' <> None.
