(** * P_Crate: property C90 (RO-crates of finished jobs) *)
From Coq Require Import List String Ascii ZArith Bool Lia Arith.
From Verif Require Import Base PyStr BaseFacts Types ConfigModel Prog ProgFacts World WorldFacts Replies
  CmdModel KetchupModel JobModel CrateModel SpecQueue SpecJob SpecSys SpecCrate SuperProofs CrateProofs ExWorld.
Import ListNotations.
Open Scope string_scope.
Open Scope Z_scope.

(** A job process that ends normally writes a crate exactly when the library is
    installed and the payload names a repository of the settings. *)
Theorem C90_written :
  forall installed d j pname datapath,
  (exists x, job_crate installed (job_args d j pname) datapath = Some x) <->
  installed = true /\ asks_repository d (j_payload j).
Proof.
  intros installed d j pname dp. rewrite <- (repos_asked d j pname). unfold job_crate.
  destruct (ja_repos (job_args d j pname)) as [|r rs].
  - split; [intros [x H]; discriminate|]. intros [_ H]. now elim H.
  - unfold to_rocrate. destruct installed; cbn [negb].
    + split; [intros _; split; [reflexivity|discriminate]|eauto].
    + split; [intros [x H]; discriminate|intros [H _]; discriminate].
Qed.
Print Assumptions C90_written.

(** The crate holds the data with their author, as part of the sample, and no other
    file; user and sample have to have different names. *)
Theorem C90_content_partial :
  forall a datapath path c, pl_user (ja_payload a) <> pl_sample (ja_payload a) ->
  job_crate true a datapath = Some (path, c) ->
  describes c datapath (base_name datapath) (pl_user (ja_payload a)) (pl_sample (ja_payload a)).
Proof.
  intros a dp p c Hn H. unfold job_crate in H. destruct (ja_repos a); [discriminate|].
  eapply crate_describes; eauto.
Qed.
Print Assumptions C90_content_partial.

(** It is next to the result; different results have different crates; a crate never
    replaces a result or a snapshot. *)
Theorem C90_path :
  forall out1 pl1 id1 out2 pl2 id2,
  let r1 := res_path out1 pl1 id1 in let r2 := res_path out2 pl2 id2 in
  (exists x, r1 = x ++ ".nc" /\ crate_path r1 = x ++ ".zip") /\
  (crate_path r1 = crate_path r2 -> r1 = r2) /\
  (forall y, crate_path r1 <> y ++ ".nc").
Proof.
  intros out1 pl1 id1 out2 pl2 id2. cbv zeta.
  destruct (res_path_ends out1 pl1 id1) as [x1 E1]. destruct (res_path_ends out2 pl2 id2) as [x2 E2].
  rewrite E1, E2. unfold crate_path. rewrite !drop3_nc. split; [eauto|]. split.
  - intros H. apply app_inj_suffix in H as [-> _]; reflexivity.
  - intros y H. change (x1 ++ ".zip") with (x1 ++ String "." "zip") in H.
    replace (x1 ++ String "." "zip") with ((x1 ++ ".") ++ "zip") in H by now rewrite app_assoc_s.
    apply app_inj_suffix in H as [_ H]; [discriminate|reflexivity].
Qed.
Print Assumptions C90_path.

Definition c90_payload (user : string) (parent : bool) : payload :=
  mkPayload "sample-1" [exw_task] (Some "/out") None ["default"; "backup"] None true user parent.
Definition c90_args (user : string) (parent : bool) : jobargs :=
  mkArgs "pip-1" (c90_payload user parent) ["backup"] 2 ("/jobs", 2).
Example C90_case :
  base_name "/out/results.2.nc" = "results.2.nc" /\
  job_crate true (c90_args "user" true) "/out/results.2.nc" = Some ("/out/results.2.zip",
    [ (KRoot, mkEnt EDataset [KFile "results.2.nc"] None (Some (KNamed "https://github.com/MADICES/MADICES-2025/discussions/25")));
      (KNamed "https://github.com/MADICES/MADICES-2025/discussions/25", ent EProfile); (KNamed "user", ent EPerson);
      (KNamed "sample-1", mkEnt EObject [KFresh] None None); (KFresh, mkEnt EObject [KRoot] None None);
      (KFile "results.2.nc", mkEnt (EFile "/out/results.2.nc") [] (Some (KNamed "user")) None) ]) /\
  option_map (fun x => cr_get (snd x) (KNamed "sample-1")) (job_crate true (c90_args "user" false) "/out/results.2.nc") =
    Some (Some (mkEnt EObject [KRoot] None None)) /\
  option_map (fun x => cr_get (snd x) KFresh) (job_crate true (c90_args "user" false) "/out/results.2.nc") = Some None.
Proof. repeat split; vm_compute; reflexivity. Qed.

(** False in general: a job that was submitted with a repository ends in status 'c',
    and nothing is written: the library is not installed, or the repository "default",
    which submission always accepts, is not in the settings. *)
Theorem C90_refuted :
  (exists a w, fst (run exec (tomato_job 12 a) w) = Ok tt /\
     option_map j_status (get_job (w_jobs (snd (run exec (tomato_job 12 a) w))) 2) = Some Sc /\
     pl_repos (ja_payload a) = ["default"; "backup"] /\
     job_crate false a "/out/results.2.nc" = None) /\
  (exists j, pl_repos (j_payload j) = ["default"] /\
     job_crate true (job_args exw_daemon j "pip-1") "/out/results.2.nc" = None).
Proof.
  split.
  - exists (c90_args "user" true), exw_up. repeat split; vm_compute; reflexivity.
  - exists (exw_job 2 None Sr (Some 12)). split; vm_compute; reflexivity.
Qed.
Print Assumptions C90_refuted.

(** With equal names the person is lost: what the author of the data refers to is the
    sample. *)
Theorem C90_content_refuted :
  exists a c, job_crate true a "/out/results.2.nc" = Some ("/out/results.2.zip", c) /\
  ~ exists e, cr_get c (KNamed (pl_user (ja_payload a))) = Some e /\ en_type e = EPerson.
Proof.
  exists (c90_args "sample-1" true). eexists. split; [vm_compute; reflexivity|].
  intros (e & H1 & H2). vm_compute in H1. injection H1 as <-. discriminate.
Qed.
Print Assumptions C90_content_refuted.

(** A crate that cannot be written ends the process after the result was written: the
    job stays in status 'r' without completion time and keeps its pipeline. *)
Theorem C90_failed :
  forall pid a w out j ok e, ja_repos a <> [] ->
  pl_outpath (ja_payload a) = Some out -> w_outdir w out = None ->
  get_job (w_jobs w) (ja_jobid a) = Some j -> w_main w (ja_jobid a) = Ok ok ->
  w_merge w (ja_jobid a) = None -> w_crate w (ja_jobid a) = Some e ->
  exists w', run exec (tomato_job pid a) w = (Err e, w') /\
    (exists jf, w_log w' = EvArchive (res_path out (ja_payload a) (ja_jobid a)) jf :: w_log w /\
       j_id jf = ja_jobid a /\ j_status jf = (if ok then Sc else Sce) /\ j_completed jf = Some (w_now w)) /\
    w_pips w' = w_pips w /\
    exists j', get_job (w_jobs w') (ja_jobid a) = Some j' /\ j_status j' = Sr /\ j_pid j' = Some pid /\
      j_completed j' = j_completed j.
Proof. exact job_crate_fails. Qed.
Print Assumptions C90_failed.

Example C90_failed_case :
  let w := mkWorld (w_jobs exw_up) (w_seq exw_up) (w_pips exw_up) (w_drvs exw_up)
    (w_daemon exw_up) (w_files exw_up) (w_dirs exw_up) (w_jobdata exw_up) (w_spawned exw_up)
    (w_procs exw_up) (w_driver exw_up) (w_main exw_up) (w_merge exw_up) (fun _ => Some FileNotFoundError)
    (w_outdir exw_up) (w_now exw_up) (w_perf exw_up) (w_log exw_up) in
  let r := run exec (tomato_job 12 (c90_args "user" true)) w in
  fst r = Err FileNotFoundError /\
  option_map (fun j => (j_status j, j_pid j, j_completed j)) (get_job (w_jobs (snd r)) 2) = Some (Sr, Some 12, None) /\
  (* the supervisor later takes the job for a crash *)
  let w2 := set_procs (snd r) [] [] in
  option_map j_status (get_job (w_jobs (snd (run exec manage_running w2))) 2) = Some Sce.
Proof. repeat split; vm_compute; reflexivity. Qed.
