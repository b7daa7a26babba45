(** * P_Dead2: managers do not survive an operation that fails (C92) *)
From Coq Require Import List String Ascii ZArith Bool Lia.
From Verif Require Import Base PyStr Types ConfigModel Prog World Replies CmdModel KetchupModel
  TomatoModel JobModel PipModel DrvModel SysModel SpecQueue SpecSys SpecSys2 SpecStuck ExWorld SysPlay SysProofs20.
Import ListNotations.
Open Scope string_scope.
Open Scope Z_scope.

(** C92, the converse of C104: in every execution, whatever the other threads have done, a manager whose
    next operation fails (a driver that does not answer, a folder that exists, an archive that cannot be
    written, a process that has just vanished, a database error) ends with that very exception, for [Blocked] it waits
    for ever.  Only failures of the driver manager's requests with a time limit are dealt with.
    The other managers also end when they look up a driver that is not recorded. *)
Theorem C92_at_once : forall w ls s n t o c, runs ls (start_sys w) = Some s ->
  nth_error (s_threads s) n = Some t -> is_mgr (t_kind t) = true -> t_pgm t = Op o c ->
  exists s', step (LStep n) s = Some s' /\
    (forall e, (forall p r, o <> ODriverT p r) -> fst (exec o (s_world s)) = Err e -> stuck (t_kind t) e s') /\
    (forall d, t_kind t <> KDrvMgr -> o = ODrvGet d -> get_drv (w_drvs (s_world s)) d = None ->
       stuck (t_kind t) AssertionError s').
Proof.
  intros w ls s n t o c H En M Ep. destruct (at_once_lemma w ls s n t o c H En M Ep) as (s' & S & A & B).
  exists s'. split; [exact S|]. split; [|exact B]. intros e N. apply A. destruct o; try reflexivity. elim (N _ _ eq_refl).
Qed.
Print Assumptions C92_at_once.

(** The pipeline manager about to reset the component of a job whose process was killed. *)
Definition c92_before : list cue :=
  (exs_running 6 ++ [At (LKill 9); At (LProcEnd 100 false); At (LAnswers (fun _ _ => None))] ++ repeat (At (LStep 4)) 6)%list.
Definition next_is (n : nat) (s : sys) : option (kind * option Z * dcmd * bool) :=
  match nth_error (s_threads s) n with
  | Some t => match t_pgm t with
              | Op (ODriver p r) _ => Some (t_kind t, p, r, match fst (exec (ODriver p r) (s_world s)) with Err Blocked => true | _ => false end)
              | _ => None
              end
  | None => None
  end.
Example C92_at_once_ex : exists ls s s', runs ls (start_sys exw_init) = Some s /\
  next_is 4 s = Some (KPipMgr, Some 7001, CReset "addr1" "1", true) /\ step (LStep 4) s = Some s' /\ stuck KPipMgr Blocked s'.
Proof.
  exists (fst (play c92_before (start_sys exw_init))), (played c92_before exw_init).
  assert (R : runs (fst (play c92_before (start_sys exw_init))) (start_sys exw_init) = Some (played c92_before exw_init))
    by (apply plays_runs; vm_compute; reflexivity).
  assert (X : next_is 4 (played c92_before exw_init) = Some (KPipMgr, Some 7001, CReset "addr1" "1", true)) by (vm_compute; reflexivity).
  revert R X. generalize (played c92_before exw_init) as s. generalize (fst (play c92_before (start_sys exw_init))) as ls.
  intros ls s R X. pose proof X as X0. unfold next_is in X. destruct (nth_error (s_threads s) 4) as [t|] eqn:En; [|discriminate].
  destruct (t_pgm t) as [a|e|o c] eqn:Ep; try discriminate. destruct o; try discriminate.
  injection X as Ek -> -> Eb. destruct (C92_at_once _ _ _ _ _ _ _ R En ltac:(rewrite Ek; reflexivity) Ep) as (s' & S & A & _).
  exists s'. split; [exact R|]. split; [exact X0|]. split; [exact S|]. rewrite <- Ek. apply A; [discriminate|].
  change (fst (ask (s_world s) (Some 7001) (CReset "addr1" "1") (Err Blocked)) = Err Blocked).
  destruct (fst (ask (s_world s) (Some 7001) (CReset "addr1" "1") (Err Blocked))) as [r|[]]; try discriminate Eb. reflexivity.
Qed.
