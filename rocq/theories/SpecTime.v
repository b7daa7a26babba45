(** * SpecTime: vocabulary for the times in job records (C91) *)
From Coq Require Import List ZArith Bool.
From Verif Require Import Base Types World SysModel.
Import ListNotations.
Open Scope Z_scope.

(** The times recorded for a job besides that of its submission. *)
Definition stamps (j : job) : list Z :=
  (match j_launched j with Some t => [t] | None => [] end ++
   match j_connected j with Some t => [t] | None => [] end ++
   match j_completed j with Some t => [t] | None => [] end)%list.

(** All of them lie between the submission and now. *)
Definition dated (now : Z) (j : job) : Prop :=
  j_submitted j <= now /\ forall t, In t (stamps j) -> j_submitted j <= t <= now.

(** The clock is not set back. *)
Definition forward (l : label) (s : sys) : Prop :=
  match l with LTime now _ => w_now (s_world s) <= now | _ => True end.

(** What is recorded stays recorded, perhaps with another time. *)
Definition still_stamped (j j' : job) : Prop :=
  (j_launched j <> None -> j_launched j' <> None) /\
  (j_connected j <> None -> j_connected j' <> None) /\
  (j_completed j <> None -> j_completed j' <> None).
