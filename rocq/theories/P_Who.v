(** * P_Who: why a job has the status it has (C114) *)
From Coq Require Import List String ZArith Bool.
From Verif Require Import Base PyStr Types ConfigModel Prog World Replies CmdModel KetchupModel
  TomatoModel JobModel PipModel DrvModel SysModel SpecQueue SpecSys SpecWho SysProofs22 SysPlay ExWorld.
Import ListNotations.
Open Scope string_scope.
Open Scope Z_scope.

(** ** C114: nobody but a user cancels a job, and only jobs that were started are reported as begun *)

(** In every execution, a job that is marked for termination or cancelled was so before, or is named by
    a cancel command. *)
Theorem C114_cancelled : forall w ls s,
  wf_queue w -> w_spawned w = [] -> runs ls (start_sys w) = Some s ->
  forall j, In j (w_jobs (s_world s)) -> says_cancelled j ->
  before w (j_id j) says_cancelled \/ cancel_asked ls (j_id j).
Proof. intros w ls s H1 H2 H3 j Hj. apply (C114_lemma w ls s H1 H2 H3 j Hj). Qed.
Print Assumptions C114_cancelled.

(** In every execution, a job that is recorded with a process, as running, complete or failed was so
    before, or the daemon has started a process for it. *)
Theorem C114_begun : forall w ls s,
  wf_queue w -> w_spawned w = [] -> runs ls (start_sys w) = Some s ->
  forall j, In j (w_jobs (s_world s)) -> says_begun j ->
  before w (j_id j) says_begun \/ was_started (j_id j) (s_world s).
Proof. intros w ls s H1 H2 H3 j Hj. apply (C114_lemma w ls s H1 H2 H3 j Hj). Qed.
Print Assumptions C114_begun.

(** Hence, from an empty queue, a job that no cancel command names and for which no process was started
    is queued. *)
Theorem C114_waits : forall w ls s,
  wf_queue w -> w_jobs w = [] -> w_spawned w = [] -> runs ls (start_sys w) = Some s ->
  forall j, In j (w_jobs (s_world s)) ->
  ~ cancel_asked ls (j_id j) -> ~ was_started (j_id j) (s_world s) ->
  (j_status j = Sq \/ j_status j = Sqw) /\ j_pid j = None.
Proof.
  intros w ls s H1 H0 H2 H3 j Hj Nc Ns.
  assert (N : forall P, ~ before w (j_id j) P) by (intros P (j0 & H & _); rewrite H0 in H; destruct H).
  assert (A : ~ says_cancelled j).
  { intros X. destruct (C114_cancelled w ls s H1 H2 H3 j Hj X) as [Y|Y]; [elim (N _ Y)|auto]. }
  assert (B : ~ says_begun j).
  { intros X. destruct (C114_begun w ls s H1 H2 H3 j Hj X) as [Y|Y]; [elim (N _ Y)|auto]. }
  unfold says_cancelled, says_begun in *. split.
  - destruct (j_status j); auto; exfalso; auto 6.
  - destruct (j_pid j); [|reflexivity]. exfalso. apply B. left. discriminate.
Qed.
Print Assumptions C114_waits.

(** Job 1 was started and runs; a second one is cancelled while it waits; a third one waits. *)
Definition c114_script : list cue :=
  (exs_running 3 ++ exs_submit 10 ++ exs_submit 11 ++ exs_cmd 12 (CmdCancel 1234 [2]) ++ exs_pass 3)%list.
Example C114_ex :
  let s := played c114_script exw_init in
  plays c114_script exw_init = true /\
  map (fun j => (j_id j, j_status j)) (w_jobs (s_world s)) = [(1, Sr); (2, Scd); (3, Sqw)] /\
  map ja_jobid (starts (s_world s)) = [1] /\
  cancel_asked (fst (play c114_script (start_sys exw_init))) 2.
Proof.
  cbv zeta. split; [vm_compute; reflexivity|]. split; [vm_compute; reflexivity|]. split; [vm_compute; reflexivity|].
  exists 1234, [2]. split; [|now left].
  assert (X : existsb (fun l => match l with LCmd (CmdCancel 1234 [2]) => true | _ => false end)
    (fst (play c114_script (start_sys exw_init))) = true) by (vm_compute; reflexivity).
  apply existsb_exists in X. destruct X as (l & Hl & X).
  replace (LCmd (CmdCancel 1234 [2])) with l; [exact Hl|]. revert X. clear.
  destruct l as [c| | | | | | | | | | | | | | | ]; try discriminate. destruct c; try discriminate.
  repeat match goal with |- (match ?x with _ => _ end) = true -> _ => is_var x; destruct x; try discriminate end.
  reflexivity.
Qed.
