(** * P_Asked: what job processes execute was submitted by a user (C113) *)
From Coq Require Import List String ZArith Bool.
From Verif Require Import Base PyStr Types ConfigModel Prog World Replies CmdModel KetchupModel
  TomatoModel JobModel PipModel DrvModel SysModel SpecQueue SpecSys SpecAsked KetchupProofs SysProofs21 SysPlay ExWorld.
Import ListNotations.
Open Scope string_scope.
Open Scope Z_scope.

(** ** C113: nothing is executed that was not submitted *)

(** In every execution, every record of a job was there before or holds the payload and the name of a
    submitted job. *)
Theorem C113_records : forall w ls s,
  wf_queue w -> starts w = [] -> w_spawned w = [] -> runs ls (start_sys w) = Some s ->
  forall j, In j (w_jobs (s_world s)) -> comes_from w ls j.
Proof. intros w ls s H1 H2 H3 H4. apply (C113_records_lemma w ls s H1 H2 H3 H4). Qed.
Print Assumptions C113_records.

(** Every process that was ever started for a job executes the payload recorded under the id of
    this job, and archives in repositories named by this payload only. *)
Theorem C113_processes : forall w ls s,
  wf_queue w -> starts w = [] -> w_spawned w = [] -> runs ls (start_sys w) = Some s ->
  forall a, process_of s a -> recorded a (s_world s).
Proof. intros w ls s H1 H2 H3 H4. apply (C113_records_lemma w ls s H1 H2 H3 H4). Qed.
Print Assumptions C113_processes.

(** Hence, from an empty queue, a process only ever executes a payload that a user submitted. *)
Theorem C113 : forall w ls s,
  wf_queue w -> w_jobs w = [] -> starts w = [] -> w_spawned w = [] -> runs ls (start_sys w) = Some s ->
  forall a, process_of s a ->
  exists j, In j (w_jobs (s_world s)) /\ j_id j = ja_jobid a /\ asked ls (ja_payload a) (j_jobname j).
Proof.
  intros w ls s H1 H0 H2 H3 H4 a Ha.
  destruct (C113_processes w ls s H1 H2 H3 H4 a Ha) as (j & Hj & E1 & E2 & _).
  exists j. split; [exact Hj|]. split; [exact E1|].
  destruct (C113_records w ls s H1 H2 H3 H4 j Hj) as [(j0 & H & _)|H].
  - rewrite H0 in H. destruct H.
  - rewrite <- E2. exact H.
Qed.
Print Assumptions C113.

(** A job is submitted, started as process 100 and executes three operations. *)
Example C113_ex :
  let s := played (exs_running 3) exw_init in
  plays (exs_running 3) exw_init = true /\
  map (fun a => (ja_jobid a, ja_pipeline a, pl_sample (ja_payload a), pl_outpath (ja_payload a))) (starts (s_world s))
    = [(1, "pip-1", "sample-1", Some "/out")] /\
  existsb (fun t => match t_kind t with KJob 100 _ => true | _ => false end) (s_threads s) = true /\
  map (fun j => (j_id j, j_jobname j, pl_sample (j_payload j))) (w_jobs (s_world s)) = [(1, Some "run", "sample-1")].
Proof. vm_compute. repeat split. Qed.
