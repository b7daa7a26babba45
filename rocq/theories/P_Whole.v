(** * P_Whole: theorems about the data of a whole job (C109) *)
From Coq Require Import List String Ascii ZArith Bool Lia.
From Verif Require Import Base BaseFacts PyStr Prog Types JobThreadModel DeviceModel SpecDevice RunModel SpecRun RunProofs RunProofs2
  IoModel WholeModel SpecWhole WholeProofs P_Run.
Import ListNotations.
Open Scope string_scope.
Open Scope list_scope.
Open Scope Z_scope.

(** In all executions of the workers of a job, the components and the files, whoever else
    uses the components, whatever requests fail and whatever snapshots are made at the
    same time: when all workers have ended, in whatever way, the results are written; the
    group of a role holds points measured by the component of that role, each at most once
    and in order; there are no groups but those of roles; other files do not change. *)
Theorem C109_only :
  forall same cs s0 ls w out,
  NoDup (map c_role cs) -> no_data s0 ->
  Forall (fun c => has_char "/" (c_role c) = false /\ can_reach (c_dev c)) cs ->
  whole_steps same ls (whole_start cs s0) = Some w -> Forall ended (wh_parts w) ->
  exists g s, runf (merge out) (wh_fs w) = (Ok tt, s) /\ dget (f_out s) out = Some g /\
    (forall o, o <> out -> dget (f_out s) o = dget (f_out (wh_fs w)) o) /\
    f_folder s = f_folder (wh_fs w) /\
    Forall2 (fun c p => pt_role p = c_role c /\ leaves_out (group_of g (c_role c)) (points p) /\
                        NoDup (group_of g (c_role c))) cs (wh_parts w) /\
    (forall r, ~ In r (map c_role cs) -> dget g r = None).
Proof.
  intros same cs s0 ls w out ND ND0 Hc H E.
  assert (I : whole_inv same (fun _ => True) s0 cs w).
  { eapply inv_steps; [exact ND| |apply inv_start; [exact ND0|]|exact H].
    - apply Forall_forall. intros [i l|i|o] _; exact Logic.I.
    - eapply Forall_impl; [|exact Hc]. intros c X. apply X. }
  destruct (whole_merge _ _ _ _ _ out ND ND0 I) as (g & R & G & O).
  { intros p I1. destruct I as (_ & FS & _). eapply ended_file; [|apply FS, I1].
    rewrite Forall_forall in E. apply E, I1. }
  exists g. eexists. split; [exact R|]. cbn [f_out f_folder]. split; [apply dget_dset_same|].
  split; [intros o N; apply dget_dset_other; congruence|]. split; [reflexivity|]. split; [|exact O].
  destruct I as (F2 & _).
  assert (G' : Forall (fun p => group_of g (pt_role p) = r_stored (pt_run p)) (wh_parts w)) by (apply Forall_forall; exact G).
  clear - F2 G' Hc. induction F2 as [|c p cs ps X _ IH]; constructor.
  - destruct X as (X1 & _ & l & _ & X2). inversion G' as [|? ? G1 _]. inversion Hc as [|? ? [_ C1] _]. subst.
    split; [exact X1|]. rewrite <- X1, G1. eapply C93_order_lemma; eassumption.
  - inversion G'. inversion Hc. subst. apply IH; assumption.
Qed.
Print Assumptions C109_only.

(** If the tasks have no stop condition, the components are not used by anybody else,
    every request is answered, and all workers have come to the end of their tasks, the
    results are complete: every component has measured, since the job started, exactly
    the points in the group of its role. *)
Theorem C109_complete :
  forall same cs s0 ls w out,
  (forall t, same t t = true) ->
  NoDup (map c_role cs) -> no_data s0 ->
  Forall (fun c => has_char "/" (c_role c) = false /\ at_rest (c_dev c) /\
                   forall t, In t (c_tasks c) -> t_stop_with t = None) cs ->
  Forall calm ls ->
  whole_steps same ls (whole_start cs s0) = Some w -> Forall through (wh_parts w) ->
  exists g s, runf (merge out) (wh_fs w) = (Ok tt, s) /\ dget (f_out s) out = Some g /\
    Forall2 (fun c p => points p = measured (d_log (c_dev c)) ++ group_of g (c_role c)) cs (wh_parts w).
Proof.
  intros same cs s0 ls w out Hs ND ND0 Hc Hl H E.
  assert (I : whole_inv same undisturbed s0 cs w).
  { eapply inv_steps; [exact ND| |apply inv_start; [exact ND0|]|exact H].
    - eapply Forall_impl; [|exact Hl]. intros [i l|i|o] X; exact X.
    - eapply Forall_impl; [|exact Hc]. intros c X. apply X. }
  destruct (whole_merge _ _ _ _ _ out ND ND0 I) as (g & R & G & O).
  { intros p I1. destruct I as (_ & FS & _). eapply ended_file; [|apply FS, I1].
    rewrite Forall_forall in E. unfold ended. destruct (E p I1) as [-> | ->]; exact Logic.I. }
  exists g. eexists. split; [exact R|]. split; [apply dget_dset_same|].
  destruct I as (F2 & _).
  assert (G' : Forall (fun p => group_of g (pt_role p) = r_stored (pt_run p)) (wh_parts w)) by (apply Forall_forall; exact G).
  clear - F2 G' Hc E Hs. induction F2 as [|c p cs ps X _ IH]; constructor.
  - destruct X as (X1 & _ & l & Xl & X2). inversion G' as [|? ? G1 _]. inversion Hc as [|? ? (_ & C1 & C2) _].
    inversion E as [|? ? E1 _]. subst. rewrite <- X1, G1. eapply C93_lemma; eassumption.
  - inversion G'. inversion Hc. inversion E. subst. apply IH; assumption.
Qed.
Print Assumptions C109_complete.

(** Two roles, the component of the second of which was used by a job before; the
    operations on the two files alternate, and a snapshot is written in between. *)
Definition both (l : list rlabel) : list wlabel := flat_map (fun x => [LPart 0 x; LPart 1 x]) l.
Definition ex_used : dev :=
  match run_job [ex_task 1 3 None] ex_full with Some s => r_dev s | None => dev_new end.
Definition ex_cast : list cast :=
  [mkCast "a" dev_new 5 1 [ex_task 1 3 None]; mkCast "b" ex_used 5 1 [ex_task 1 3 None]].
Definition ex_fs : fsys := mkFs [("job-1.log", PBroken)] [].
(** The first points are fetched at time 2; both workers store them; the second points,
    after the tasks, likewise. *)
Definition ex_first : list wlabel :=
  both (J 0 4 ++ D 0 8 ++ J 0 3 ++ D 2 9 ++ J 2 2 ++ G 4 ++ D 4 11 ++ J 2 1)
  ++ [LFile 0; LFile 1; LFile 0; LFile 0; LFile 1; LFile 1] ++ both (J 4 3).
Definition ex_snap : list wlabel :=
  [LMain FGlob; LMain (FLoad "a.pkl"); LMain (FLoad "b.pkl"); LMain (FNetcdf "/out/snapshot.1.nc" [("a", [0%nat]); ("b", [2%nat])])].
Definition ex_second : list wlabel :=
  both (G 4 ++ J 4 1) ++ [LFile 0; LFile 1; LFile 0; LFile 1; LFile 1; LFile 0].
Definition ex_rest : list wlabel := [LFile 0; LFile 1] ++ both (J 4 3 ++ D 4 2 ++ G 6).
Definition show (w : option whole) :=
  option_map (fun w => (map (fun p => match r_pgm (pt_run p) with Ret _ => true | _ => false end) (wh_parts w),
                        map (fun p => points p) (wh_parts w),
                        f_folder (wh_fs w), f_out (snd (runf (merge "/out/results.1.nc") (wh_fs w))))) w.
Example C109_ex :
  show (whole_steps ex_same (ex_first ++ ex_snap ++ ex_second ++ ex_rest) (whole_start ex_cast ex_fs)) =
  Some ([true; true], [[0%nat; 1%nat]; [0%nat; 1%nat; 2%nat; 3%nat]],
        [("job-1.log", PBroken); ("a.pkl", PValue (Some (mkDs (Some "a") [0%nat; 1%nat])));
         ("b.pkl", PValue (Some (mkDs (Some "b") [2%nat; 3%nat])))],
        [("/out/snapshot.1.nc", [("a", [0%nat]); ("b", [2%nat])]);
         ("/out/results.1.nc", [("a", [0%nat; 1%nat]); ("b", [2%nat; 3%nat])])]).
Proof. vm_compute. reflexivity. Qed.
(** In the middle: both files are truncated, the old and the new points are in the hands
    of the workers only; merging at this moment fails (C107), the results at the end do
    not suffer. *)
Example C109_ex_middle :
  show (whole_steps ex_same (ex_first ++ ex_second) (whole_start ex_cast ex_fs)) =
  Some ([false; false], [[0%nat; 1%nat]; [0%nat; 1%nat; 2%nat; 3%nat]],
        [("job-1.log", PBroken); ("a.pkl", PBroken); ("b.pkl", PBroken)], []).
Proof. vm_compute. reflexivity. Qed.
(** The used component is at rest, so [C109_complete] applies to the example. *)
Lemma ex_used_reach o : (forall s, o = Some s -> can_reach (r_dev s)) ->
  can_reach (match o with Some s => r_dev s | None => dev_new end).
Proof. destruct o as [s|]; intros H; [apply H; reflexivity|exists []; reflexivity]. Qed.
Lemma ex_calm l : forallb (fun x => match x with LPart _ (RAsk _) | LPart _ ROffline => false | _ => true end) l = true ->
  Forall calm l.
Proof.
  induction l as [|x l IH]; intros H; constructor; cbn [forallb] in H; apply andb_true_iff in H as [H1 H2].
  - destruct x as [i [| | | |]| |]; cbn in *; try discriminate H1; exact Logic.I.
  - apply IH, H2.
Qed.
Lemma ex_reach : can_reach ex_used.
Proof.
  unfold ex_used. apply ex_used_reach. unfold run_job. generalize ex_full. intros ls s E.
  eapply (order_steps ex_same ls); [|exact E]. apply order_start. exists []. reflexivity.
Qed.
Lemma ex_idle : d_main ex_used = MIdle /\ d_queue ex_used = [] /\ executing ex_used = None /\ d_data ex_used = [].
Proof. vm_compute. auto. Qed.
Example C109_ex_rest : at_rest ex_used /\ Forall calm (ex_first ++ ex_snap ++ ex_second ++ ex_rest).
Proof.
  split; [exact (conj ex_reach ex_idle)|]. apply ex_calm. vm_compute. reflexivity.
Qed.
