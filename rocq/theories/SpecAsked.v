(** * SpecAsked: where the records and the processes of jobs come from (C113) *)
From Coq Require Import List String ZArith.
From Verif Require Import Base Types World Replies CmdModel KetchupModel SysModel SpecQueue SpecSys.
Import ListNotations.

(** One of the steps is a user's command `ketchup submit` with a payload file whose contents, in the
    last supported version and with missing locations filled in, are [p], and with job name [name]. *)
Definition asked (ls : list label) (p : payload) (name : option string) : Prop :=
  exists port v v' cwd, In (LCmd (CmdSubmit port (PfOk v) cwd name)) ls /\
    upgraded v v' /\ located cwd (vp_payload v') p.

(** The record [j] was there before, or is that of a submitted payload. *)
Definition comes_from (w : world) (ls : list label) (j : job) : Prop :=
  (exists j0, In j0 (w_jobs w) /\ same_job j0 j) \/ asked ls (j_payload j) (j_jobname j).

(** The process with arguments [a] executes the payload recorded for its job, and
    archives in repositories named by this payload only. *)
Definition recorded (a : jobargs) (w : world) : Prop :=
  exists j, In j (w_jobs w) /\ j_id j = ja_jobid a /\ j_payload j = ja_payload a /\
    forall r, In r (ja_repos a) -> In r (pl_repos (j_payload j)).

(** The processes of jobs: those ever started by the daemon, and those at work. *)
Definition process_of (s : sys) (a : jobargs) : Prop :=
  In a (starts (s_world s)) \/ In a (w_spawned (s_world s)) \/
  exists t pid, In t (s_threads s) /\ t_kind t = KJob pid a.
