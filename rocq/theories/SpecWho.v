(** * SpecWho: why a job has the status it has (C114) *)
From Coq Require Import List String ZArith.
From Verif Require Import Base Types World Replies CmdModel KetchupModel SysModel SpecQueue SpecSys.
Import ListNotations.

(** One of the steps is a user's command `ketchup cancel` that names job [i]. *)
Definition cancel_asked (ls : list label) (i : Z) : Prop :=
  exists port ids, In (LCmd (CmdCancel port ids)) ls /\ In i ids.
(** A process was started for job [i]. *)
Definition was_started (i : Z) (w : world) : Prop := In i (map ja_jobid (starts w)).

(** The record says that the job is to be or has been terminated; that it has or had a process. *)
Definition says_cancelled (j : job) : Prop := j_status j = Srd \/ j_status j = Scd.
Definition says_begun (j : job) : Prop :=
  j_pid j <> None \/ j_status j = Sr \/ j_status j = Sc \/ j_status j = Sce.
(** The table of [w] had a record with this id of which [P] held. *)
Definition before (w : world) (i : Z) (P : job -> Prop) : Prop :=
  exists j0, In j0 (w_jobs w) /\ j_id j0 = i /\ P j0.
