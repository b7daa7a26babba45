(** * P_Hold: why a pipeline is in the state it is in (C115) *)
From Coq Require Import List String Ascii ZArith Bool.
From Verif Require Import Base PyStr Types ConfigModel Prog World Replies CmdModel KetchupModel
  TomatoModel JobModel PipModel DrvModel SysModel SpecQueue SpecSys SpecHold SysProofs2 SysProofs23 SysPlay ExWorld.
Import ListNotations.
Open Scope string_scope.
Open Scope Z_scope.

(** ** C115: samples are placed and removed by users only *)

(** In every execution, the sample in a pipeline was there before or is the one of a load command for
    that pipeline. *)
Theorem C115_sample : forall w ls s,
  w_spawned w = [] -> runs ls (start_sys w) = Some s ->
  forall p x, In p (w_pips (s_world s)) -> p_sample p = Some x ->
  held w (p_name p) (fun p0 => p_sample p0 = Some x) \/ load_asked ls (p_name p) x.
Proof. intros w ls s H1 H2 p x Hp. apply (C115_lemma w ls s H1 H2). exact Hp. Qed.
Print Assumptions C115_sample.

(** In every execution, a pipeline is ready only if it was so before, a user marked it as ready, or a
    job with [unlock_when_done] was started on it. *)
Theorem C115_ready : forall w ls s,
  w_spawned w = [] -> runs ls (start_sys w) = Some s ->
  forall p, In p (w_pips (s_world s)) -> p_ready p = true ->
  held w (p_name p) (fun p0 => p_ready p0 = true) \/ ready_asked ls (p_name p) \/
  unlocking (p_name p) (s_world s).
Proof. intros w ls s H1 H2 p Hp. apply (C115_lemma w ls s H1 H2). exact Hp. Qed.
Print Assumptions C115_ready.

(** In every execution, the job that a pipeline is reserved for was so before or is in the queue. *)
Theorem C115_reserved : forall w ls s,
  w_spawned w = [] -> runs ls (start_sys w) = Some s ->
  forall p i, In p (w_pips (s_world s)) -> p_jobid p = Some i ->
  held w (p_name p) (fun p0 => p_jobid p0 = Some i) \/ exists j, In j (w_jobs (s_world s)) /\ j_id j = i.
Proof. intros w ls s H1 H2 p i Hp. apply (C115_lemma w ls s H1 H2). exact Hp. Qed.
Print Assumptions C115_reserved.

(** In every execution, a pipeline for which there is no load and no eject command still has its record
    and the sample it had, however many jobs are executed on it and whatever is reloaded. *)
Theorem C115_stays : forall w ls s,
  w_spawned w = [] -> runs ls (start_sys w) = Some s ->
  forall p0, In p0 (w_pips w) ->
  (forall x, ~ load_asked ls (p_name p0) x) -> ~ eject_asked ls (p_name p0) ->
  exists p, In p (w_pips (s_world s)) /\ p_name p = p_name p0 /\ p_sample p = p_sample p0.
Proof.
  intros w ls s H1 H2 p0 H0 Nl Ne. destruct (proj2 (C115_lemma w ls s H1 H2) p0 H0) as (p & Hp & En & [E|[[x X]|X]]).
  - eauto.
  - elim (Nl x X).
  - elim (Ne X).
Qed.
Print Assumptions C115_stays.

(** For names without quotes, the commands are the ones that have that name. *)
Theorem C115_names : forall ls m, has_char "'" m = false ->
  (forall x, load_asked ls m x -> exists port, In (LCmd (CmdLoad port m x)) ls) /\
  (ready_asked ls m -> exists port, In (LCmd (CmdReady port m)) ls) /\
  (eject_asked ls m -> exists port, In (LCmd (CmdEject port m)) ls) /\
  (forall w, unlocking m w -> exists a, In a (starts w) /\ ja_pipeline a = m).
Proof.
  intros ls m Hm. split; [|split; [|split]].
  - intros x (port & n & Hin & E). apply sql_lit_plain in E; [|exact Hm]. subst. eauto.
  - intros (port & n & Hin & E). apply sql_lit_plain in E; [|exact Hm]. subst. eauto.
  - intros (port & n & Hin & E). apply sql_lit_plain in E; [|exact Hm]. subst. eauto.
  - intros w (a & j & Hin & E & _). apply sql_lit_plain in E; [|exact Hm]. subst. eauto.
Qed.
Print Assumptions C115_names.

(** Job 1 ran on pip-1 and unlocked it; job 2 is about to start there; nothing happened to pip-2. *)
Definition c115_ran : list cue := (exs_base ++ exs_pass 3 ++ [At (LJobStart 0 100); Finish 9])%list.
Definition c115_script : list cue := (c115_ran ++ exs_submit 10 ++ exs_pass 3)%list.
Definition c115_show (s : sys) : list (string * option string * bool * option Z) :=
  map (fun p => (p_name p, p_sample p, p_ready p, p_jobid p)) (w_pips (s_world s)).
Example C115_ex :
  let s := played c115_ran exw_init in
  let s' := played c115_script exw_init in
  plays c115_script exw_init = true /\ w_spawned exw_init = [] /\ w_pips exw_init = [] /\
  In ("pip-1", Some "sample-1", true, None) (c115_show s) /\
  In ("pip-2", None, false, None) (c115_show s) /\
  map (fun a => (ja_jobid a, ja_pipeline a)) (starts (s_world s)) = [(1, "pip-1")] /\
  In ("pip-1", Some "sample-1", false, Some 2) (c115_show s') /\
  map j_id (w_jobs (s_world s')) = [1; 2].
Proof. vm_compute. intuition. Qed.
