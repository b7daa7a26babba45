(** * SpecCancel: what a cancel command for several jobs does (C16) *)
From Coq Require Import List ZArith Bool.
From Verif Require Import Base Types World SpecQueue.
Import ListNotations.

Definition finishedb (s : jstatus) : bool := match s with Sc | Scd | Sce => true | _ => false end.
(** The listed jobs that are not finished, in the order of the queue. *)
Definition open_jobs (ids : list Z) (l : list job) : list job :=
  filter (fun j => memZ (j_id j) ids && negb (finishedb (j_status j))) l.
(** Those that are not being terminated already. *)
Definition to_cancel (l : list job) : list job := filter (fun j => negb (jstatus_eqb (j_status j) Srd)) l.
(** The queue [l] with the status of job [i] replaced. *)
Definition with_status (i : Z) (s : jstatus) (l : list job) : list job :=
  map (fun j => if Z.eqb (j_id j) i then with_jstatus j s else j) l.
