(** * SpecSnap2: when a snapshot of a running job fails (C107) *)
From Coq Require Import List String.
From Verif Require Import Base Prog IoModel SnapModel.
Import ListNotations.

(** The merge loads a data file that a worker has opened for writing and not yet written:
    the step from [a] to [b]. *)
Definition caught (a b : cjob) : Prop :=
  exists n k w v k', c_merge a = Op (FLoad n) k /\ In w (c_workers a) /\ w = Op (FDump n v) k' /\
    dget (f_folder (c_fs a)) n = Some PBroken /\ b = mkCjob (c_fs a) (k (Err EOFError)) (c_workers a).
(** This happens between [c1] and [c2]. *)
Definition was_caught (c1 c2 : cjob) : Prop := exists a b, csteps c1 a /\ cstep a b /\ csteps b c2 /\ caught a b.
(** The merge has ended. *)
Definition merged (c : cjob) : Prop := fstep (c_merge c) (c_fs c) = None.
