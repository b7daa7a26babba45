(** * SpecQuit: vocabulary for stopping the daemon (C97) *)
From Coq Require Import List String ZArith Bool.
From Verif Require Import Base Types Prog World SysModel SpecSys SpecStuck.
Import ListNotations.
Open Scope list_scope.

(** The requests to stop that drivers with these rows should get. *)
Definition stops (l : list drvstate) : list event :=
  flat_map (fun d => match dv_port d with Some p => [EvRequest p CStop] | None => [] end) l.
(** All drivers that have a port answer when they are told to stop. *)
Definition drivers_answer (w : world) : Prop :=
  forall d p, In d (w_drvs w) -> dv_port d = Some p -> w_driver w p CStop <> None.
(** Thread [n] is the driver manager and has not left its loop. *)
Definition manages_drivers (n : nat) (s : sys) : Prop :=
  exists t, nth_error (s_threads s) n = Some t /\ t_kind t = KDrvMgr /\ t_done t = false.
(** Thread [n] has left its loop and come to its end. *)
Definition left_loop (n : nat) (s : sys) : Prop :=
  exists t r, nth_error (s_threads s) n = Some t /\ t_pgm t = Ret r /\ t_done t = true.
(** The daemon listens and has accepted a request to stop. *)
Definition stopping (s : sys) : Prop :=
  exists d, w_daemon (s_world s) = Some d /\ dm_status d = Dstop.
