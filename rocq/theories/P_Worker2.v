(** * P_Worker2: storing that fails (C61) *)
From Coq Require Import List String ZArith Bool Lia.
From Verif Require Import Base Types Prog JobThreadModel SpecWorker JobThreadProofs JobThreadProofs2 JobThreadProofs3 P_Worker.
Import ListNotations.
Open Scope string_scope.
Open Scope Z_scope.

(** The data of the only task cannot be written: it is lost, the worker ends without setting
    its crash flag, and the job is reported complete. *)
Definition unwritten : list mv := (firstn 10 (one 0) ++ [W 0 AFail] ++ turn1)%list.
Theorem C61_refuted :
  exists s', jsteps (job_start 5 None 0 [wk1]) s' /\ s_main s' = Ret false /\
  Forall (fun k => k_crashed k = false /\ alive k = false /\
    received (views (k_events k)) = [1%nat; 2%nat] /\ stored (views (k_events k)) = []) (s_wk s') /\
  List.length (s_wk s') = 1%nat.
Proof.
  eexists. split; [apply (moves_steps unwritten); vm_compute; reflexivity|].
  split; [reflexivity|]. split; [|reflexivity].
  constructor; [|constructor]. repeat split; reflexivity.
Qed.
Print Assumptions C61_refuted.
