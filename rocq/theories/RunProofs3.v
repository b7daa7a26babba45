(** * RunProofs3: status answers of a component (C94) *)
From Coq Require Import List ZArith Bool Lia.
From Verif Require Import DeviceModel SpecDevice DeviceProofs.
Import ListNotations.

Lemma announced_reach s : can_reach s -> announced (d_log s) = d_running s.
Proof.
  revert s. apply (reach_ind2 (fun s => announced (d_log s) = d_running s)); [reflexivity|].
  intros m s s' R I H. pose proof (I_shown _ (Ictl_reach _ R)) as IS. pose proof (I_reset _ (Ictl_reach _ R)) as IR.
  step_cases; devc; cbn [announced]; try exact I; try reflexivity;
    repeat match goal with E : d_worker s = _ |- _ => progress rewrite E in *
                  | E : d_main s = _ |- _ => progress rewrite E in * end; devc; try congruence.
  all: try (rewrite IR in IS by reflexivity; cbn in IS; congruence).
Qed.
Lemma told_reach s : can_reach s -> told (d_log s).
Proof.
  revert s. apply (reach_ind2 (fun s => told (d_log s))); [exact I|].
  intros m s s' R T H. pose proof (announced_reach s R) as A.
  step_cases; devc; cbn [told]; try exact T; (split; [|exact T]); rewrite A.
  all: split; intros X; try reflexivity; try discriminate; eauto. destruct X; discriminate.
Qed.
Lemma announced_busy s it : can_reach s -> announced (d_log s) = Some it -> busy (d_log s) = Some (Some it).
Proof.
  intros R A. rewrite (announced_reach s R) in A. destruct (Ictl_reach _ R) as [IB IS _ _ _].
  rewrite IB, <- A, IS. unfold executing, shown in *. destruct (d_worker s); cbn in *; congruence.
Qed.
