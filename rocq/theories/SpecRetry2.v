(** * SpecRetry2: vocabulary for where measured points are (C112) *)
From Coq Require Import List.
From Verif Require Import DeviceModel.
Import ListNotations.

(** The points dropped at the start of a task or by a reset, in order. *)
Fixpoint dropped (l : list dev_event) : list nat :=
  match l with
  | [] => []
  | LDrop d :: r | LLost d :: r => dropped r ++ d
  | _ :: r => dropped r
  end.
