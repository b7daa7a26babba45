(** * SpecRetry: vocabulary for requests that are sent again (C112) *)
From Coq Require Import List ZArith Bool.
From Verif Require Import Base Types Prog JobThreadModel DeviceModel RunModel SpecRun RetryModel.
Import ListNotations.

(** The component is used by this job only, and every request is answered in the end. *)
Definition patient (l : ylabel) : Prop := match l with YStep l => undisturbed l | YLate => True end.

(** The component is used by this job only. *)
Definition alone (l : ylabel) : Prop := match l with YStep (RAsk _) => False | _ => True end.

(** The tasks that the driver accepted, as far as the worker knows. *)
Fixpoint accepted_sends (h : list jev) : nat :=
  match h with
  | [] => 0
  | Ev (JSend _) (Ok (BAnswer true)) :: r => S (accepted_sends r)
  | _ :: r => accepted_sends r
  end.
