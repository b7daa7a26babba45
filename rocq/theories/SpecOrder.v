(** * SpecOrder: the order in which queued jobs are started (C126) *)
From Coq Require Import List String ZArith Bool.
From Verif Require Import Base Types Prog World SysModel.
Import ListNotations.
Open Scope Z_scope.

(** A program among others: before its [n]-th operation the rest of the system (other managers,
    commands, drivers, users editing files, the clock) changes the world in any way, [env n].
    The trace has every operation with the world in which it is executed. *)
Fixpoint among {A : Type} (env : nat -> world -> world) (p : pgm A) (n : nat) (w : world)
    : list (op * world) * res A * (nat * world) :=
  match p with
  | Ret a => ([], Ok a, (n, w))
  | Raise e => ([], Err e, (n, w))
  | Op o k =>
      let w1 := env n w in
      let '(tr, r, s) := among env (k (fst (exec o w1))) (S n) (snd (exec o w1)) in
      ((o, w1) :: tr, r, s)
  end.

(** The processes started: job and pipeline, in the order of starting. *)
Definition starts (tr : list (op * world)) : list (Z * string) :=
  flat_map (fun x => match fst x with OSpawnJob a => [(ja_jobid a, ja_pipeline a)] | _ => [] end) tr.

(** Whenever the record of job [i] is read, it asks for sample [s]. *)
Definition wants (tr : list (op * world)) (i : Z) (s : string) : Prop :=
  forall w j, In (OJobGet i, w) tr -> get_job (w_jobs w) i = Some j -> pl_sample (j_payload j) = s.
(** Pipeline [pn] holds sample [s]. *)
Definition holds_sample (w : world) (pn s : string) : Prop :=
  exists p, get_pip (w_pips w) pn = Some p /\ p_sample p = Some s.
(** Jobs in the queue (daemon/job.py:219-222). *)
Definition in_queue (j : job) : Prop := j_status j = Sq \/ j_status j = Sqw.

(** In this trace, job [j] was found to match the pipelines [l] (job.py:224): the trace contains
    a search for [j]'s method with this result. *)
Definition found {A : Type} (env : nat -> world -> world) (search : pgm A) (l : A) (tr : list (op * world)) : Prop :=
  exists n u before part after s, tr = (before ++ part ++ after)%list /\ among env search n u = (part, Ok l, s).

(** In an execution of the whole system, the operations thread [n] executes, with the world at
    that moment, until it comes to the end of its program or the daemon process ends. *)
Fixpoint pass_ops (n : nat) (ls : list label) (s : sys) : list (op * world) :=
  match ls with
  | [] => []
  | l :: r =>
      match step l s, l with
      | None, _ | _, LCrash | _, LExit => []
      | Some s', LStep m =>
          if Nat.eqb m n then
            match nth_error (s_threads s) n with
            | Some t => match t_pgm t with Op o _ => (o, s_world s) :: pass_ops n r s' | _ => [] end
            | None => []
            end
          else pass_ops n r s'
      | Some s', _ => pass_ops n r s'
      end
  end.
