(** * P_Snap2: exactly when a snapshot of a running job fails (C107) *)
From Coq Require Import List String Ascii ZArith Bool.
From Verif Require Import Base Prog PyStr IoModel SnapModel SpecSnap SpecSnap2 SnapProofs3 P_Snap.
Import ListNotations.
Open Scope string_scope.

(** C107: for all interleavings, the merge fails if and only if it loads a data file between the
    moment a worker opened it and the moment it was written. *)
Theorem C107_exact ws held out s c1 c2 :
  NoDup (map fst ws) -> Forall (fun rb => has_char "/"%char (fst rb) = false) ws ->
  holds held s -> csteps (c_start s out ws) c1 -> c_merge c1 = merge out -> csteps c1 c2 ->
  ((exists e, c_merge c2 = Raise e) <-> was_caught c1 c2).
Proof. intros N F. exact (exact_lemma ws held out N F s c1 c2). Qed.
Print Assumptions C107_exact.
(** So a merge that has ended has written its file if and only if that did not happen. *)
Theorem C107_made ws held out s c1 c2 :
  NoDup (map fst ws) -> Forall (fun rb => has_char "/"%char (fst rb) = false) ws ->
  holds held s -> csteps (c_start s out ws) c1 -> c_merge c1 = merge out -> csteps c1 c2 -> merged c2 ->
  (c_merge c2 = Ret tt <-> ~ was_caught c1 c2).
Proof. intros N F. exact (ended_lemma ws held out N F s c1 c2). Qed.
Print Assumptions C107_made.

(** In [hit] the second worker was caught, in [miss] none was although it wrote meanwhile. *)
Example C107_exact_ex :
  was_caught (c_start empty_fs "out" two_roles) hit /\ ~ was_caught (c_start empty_fs "out" two_roles) miss /\
  merged miss.
Proof.
  assert (N : NoDup (map fst two_roles)) by (repeat constructor; cbn; intuition discriminate).
  assert (F : Forall (fun rb => has_char "/"%char (fst rb) = false) two_roles) by (repeat constructor).
  split.
  - apply (C107_exact two_roles (fun _ => None) "out" empty_fs _ _ N F empty_holds (cs_refl _) eq_refl (cplay_ok _ _)).
    exists EOFError. vm_compute. reflexivity.
  - assert (M : merged miss) by (vm_compute; reflexivity). split; [|exact M].
    apply (C107_made two_roles (fun _ => None) "out" empty_fs _ _ N F empty_holds (cs_refl _) eq_refl (cplay_ok _ _) M).
    vm_compute. reflexivity.
Qed.
