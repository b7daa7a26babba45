(** * P_Time: theorems about the times in job records (C91) *)
From Coq Require Import List String ZArith Bool Lia.
From Verif Require Import Base PyStr Types ConfigModel Prog World Replies CmdModel KetchupModel
  TomatoModel JobModel PipModel DrvModel SysModel SpecQueue SpecSys SpecSys2 SpecTime ExWorld SysPlay P_Sys
  SysProofs12 SysProofs13.
Import ListNotations.
Open Scope string_scope.
Open Scope Z_scope.

(** Checking by computation that the clock is never set back. *)
Fixpoint forwardb (ls : list label) (s : sys) : bool :=
  match ls with
  | [] => true
  | l :: r => (match l with LTime now _ => Z.leb (w_now (s_world s)) now | _ => true end) &&
      match step l s with Some s' => forwardb r s' | None => true end
  end.
Lemma forwardb_ok ls : forall s, forwardb ls s = true -> each_step forward ls s.
Proof.
  induction ls as [|l ls IH]; intros s H; cbn -[step] in *; auto. apply andb_prop in H. destruct H as [H1 H2].
  split; [destruct l; cbn; auto; apply Z.leb_le; exact H1|]. destruct (step l s); auto.
Qed.
Definition times_of (s : sys) :=
  map (fun j => (j_status j, j_submitted j, j_launched j, j_connected j, j_completed j)) (w_jobs (s_world s)).

(** ** C91 *)

(** Two orders one might expect do not hold, even with a perfect clock.  The daemon
    reads the clock for launched_at after it has started the process, which can
    connect in between. *)
Definition c91_early : list cue :=
  (exs_base ++ repeat (At (LStep 3)) 27 ++ [At (LJobStart 0 100)] ++ repeat (At (LStep 9)) 3 ++
   [At (LTime 2000 60); Finish 3])%list.
Theorem C91_launch_refuted :
  exists ls s j l c, runs ls (start_sys exw_init) = Some s /\ each_step forward ls (start_sys exw_init) /\
    In j (w_jobs (s_world s)) /\ j_launched j = Some l /\ j_connected j = Some c /\ c < l.
Proof.
  exists (fst (play c91_early (start_sys exw_init))), (played c91_early exw_init). do 3 eexists.
  split; [apply plays_runs; vm_compute; reflexivity|].
  split; [apply forwardb_ok; vm_compute; reflexivity|].
  split; [vm_compute; left; reflexivity|]. split; [reflexivity|]. split; [reflexivity|]. vm_compute. reflexivity.
Qed.
Print Assumptions C91_launch_refuted.

(** A job that is started twice (C29) can be recorded as completed before it was
    connected. *)
Definition c91_twice : list cue :=
  (c29_script ++ [At (LTime 2000 60); At (LJobStart 0 100); Finish 12; At (LTime 3000 70);
   At (LJobStart 0 101)] ++ repeat (At (LStep 13)) 3)%list.
Theorem C91_order_refuted :
  exists ls s j c d, runs ls (start_sys exw_init) = Some s /\ each_step forward ls (start_sys exw_init) /\
    In j (w_jobs (s_world s)) /\ j_connected j = Some c /\ j_completed j = Some d /\ d < c.
Proof.
  exists (fst (play c91_twice (start_sys exw_init))), (played c91_twice exw_init). do 3 eexists.
  split; [apply plays_runs; vm_compute; reflexivity|].
  split; [apply forwardb_ok; vm_compute; reflexivity|].
  split; [vm_compute; left; reflexivity|]. split; [reflexivity|]. split; [reflexivity|]. vm_compute. reflexivity.
Qed.
Print Assumptions C91_order_refuted.

(** When the clock is never set back, every recorded time lies between the
    submission of the job and now. *)
Theorem C91_dated_partial :
  forall w ls s, wf_queue w -> w_spawned w = [] -> (forall j, In j (w_jobs w) -> dated (w_now w) j) ->
  each_step forward ls (start_sys w) -> runs ls (start_sys w) = Some s ->
  forall j, In j (w_jobs (s_world s)) -> dated (w_now (s_world s)) j.
Proof. exact C91_lemma. Qed.
Print Assumptions C91_dated_partial.

(** When moreover no job was started twice, a job that has completed_at has
    connected_at, and it is not later. *)
Theorem C91_order_partial :
  forall w ls s, w_jobs w = [] -> 0 <= w_seq w -> w_spawned w = [] ->
  each_step forward ls (start_sys w) -> runs ls (start_sys w) = Some s ->
  NoDup (map ja_jobid (starts (s_world s))) ->
  forall j d, In j (w_jobs (s_world s)) -> j_completed j = Some d ->
  exists c, j_connected j = Some c /\ c <= d.
Proof. exact C91_order_lemma. Qed.
Print Assumptions C91_order_partial.

(** And connected_at is written only once. *)
Theorem C91_connected_partial :
  forall w ls s l s' i j, w_jobs w = [] -> 0 <= w_seq w -> w_spawned w = [] ->
  each_step forward ls (start_sys w) -> runs ls (start_sys w) = Some s ->
  NoDup (map ja_jobid (starts (s_world s))) -> step l s = Some s' ->
  get_job (w_jobs (s_world s)) i = Some j -> j_connected j <> None ->
  exists j', get_job (w_jobs (s_world s')) i = Some j' /\ j_connected j' = j_connected j.
Proof. exact C91_conn_lemma. Qed.
Print Assumptions C91_connected_partial.

(** Whatever the clock does: the time of submission never changes, and a time that
    is recorded is never removed. *)
Theorem C91_kept :
  forall w ls0 s ls s' i j, runs ls0 (start_sys w) = Some s -> runs ls s = Some s' ->
  get_job (w_jobs (s_world s)) i = Some j ->
  exists j', get_job (w_jobs (s_world s')) i = Some j' /\ j_submitted j' = j_submitted j /\ still_stamped j j'.
Proof. exact C91_stays_lemma. Qed.
Print Assumptions C91_kept.

(** A job launched at 1100, connected at 1200 and completed at 1300. *)
Definition c91_script : list cue :=
  (exs_base ++ [At (LTime 1100 60)] ++ exs_pass 3 ++ [At (LTime 1200 70); At (LJobStart 0 100)] ++
   repeat (At (LStep 9)) 4 ++ [At (LTime 1300 80); Finish 9; At (LTime 1400 90)])%list.
Example C91_case :
  w_jobs exw_init = [] /\ 0 <= w_seq exw_init /\ w_spawned exw_init = [] /\
  plays c91_script exw_init = true /\ each_step forward (fst (play c91_script (start_sys exw_init))) (start_sys exw_init) /\
  map ja_jobid (starts (s_world (played c91_script exw_init))) = [1] /\
  times_of (played c91_script exw_init) = [(Sc, 1000, Some 1100, Some 1200, Some 1300)].
Proof.
  split; [reflexivity|]. split; [vm_compute; discriminate|]. split; [reflexivity|].
  split; [vm_compute; reflexivity|]. split; [apply forwardb_ok; vm_compute; reflexivity|].
  split; vm_compute; reflexivity.
Qed.
(** The same for a job that is cancelled while it runs. *)
Definition c91_cancel : list cue :=
  (exs_base ++ [At (LTime 1100 60)] ++ exs_pass 3 ++ [At (LTime 1200 70); At (LJobStart 0 100)] ++
   repeat (At (LStep 9)) 6 ++ exs_cmd 10 (CmdCancel 1234 [1]) ++ [At (LTime 1300 80)] ++ exs_pass 3)%list.
Example C91_case_cancel :
  plays c91_cancel exw_init = true /\
  times_of (played c91_cancel exw_init) = [(Scd, 1000, Some 1100, Some 1200, Some 1300)].
Proof. split; vm_compute; reflexivity. Qed.
(** With a clock that is set back the recorded times need not be in order. *)
Definition c91_back : list cue := (exs_base ++ [At (LTime 500 60)] ++ exs_pass 3)%list.
Example C91_case_back :
  plays c91_back exw_init = true /\ times_of (played c91_back exw_init) = [(Sqw, 1000, Some 500, None, None)].
Proof. split; vm_compute; reflexivity. Qed.
