(** * SpecDevice20: vocabulary for components of the 2.0 interface *)
From Coq Require Import List ZArith Bool.
From Verif Require Import Device20Model.
Import ListNotations.

(** Number of points measured by thread [i]. *)
Fixpoint measured_by (i : nat) (l : list (nat * nat)) : nat :=
  match l with
  | [] => 0
  | (j, _) :: r => if Nat.eqb j i then S (measured_by i r) else measured_by i r
  end.

(** The thread has been started and has not ended. *)
Definition active (th : xthread) : Prop :=
  match xt_pc th with XNew | XEnd => False | _ => True end.
Definition idle_now (s : xdev) : Prop := forall j th, nth_error (x_threads s) j = Some th -> ~ active th.

(** Resets and one-off measurements are requested only when no thread is active. *)
Fixpoint polite (l : list xmove) (s : xdev) : Prop :=
  match l with
  | [] => True
  | m :: r => (m = XMeas \/ m = XReset -> idle_now s) /\ (forall s', xstep m s = Some s' -> polite r s')
  end.
