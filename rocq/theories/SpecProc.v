(** * SpecProc: vocabulary for process trees (C127) *)
From Coq Require Import List String ZArith.
From Verif Require Import ProcModel.
Import ListNotations.

(** [q] is a child of [p]. *)
Definition child (t : list pinfo) (p q : Z) : Prop :=
  exists i, In i t /\ pi_pid i = q /\ pi_parent i = Some p.
(** [q] is a descendant of [p]. *)
Inductive below (t : list pinfo) (p : Z) : Z -> Prop :=
| below_child : forall q, child t p q -> below t p q
| below_more : forall q r, below t p q -> child t q r -> below t p r.
(** [p] is a process with name [n]. *)
Definition named (t : list pinfo) (p : Z) (n : string) : Prop :=
  exists i, In i t /\ pi_pid i = p /\ pi_name i = n.
Definition present (t : list pinfo) (p : Z) : Prop := In p (map pi_pid t).

(** A table of processes: numbers are unique, and nobody is their own ancestor (a process is
    younger than its parent). *)
Definition proc_table (t : list pinfo) : Prop :=
  NoDup (map pi_pid t) /\
  exists age : Z -> nat, forall i p, In i t -> pi_parent i = Some p -> (age p < age (pi_pid i))%nat.
