(** * P_Pip: properties C22-C24 (pipeline commands) *)
From Coq Require Import List String Ascii ZArith Bool.
From Verif Require Import Base PyStr Types ConfigModel Prog ProgFacts World WorldFacts Replies CmdModel KetchupModel
  TomatoModel SpecPip PipCmdProofs ExWorld.
Import ListNotations.
Open Scope string_scope.
Open Scope Z_scope.

(** ** C22 *)
Theorem C22_load :
  forall port n s w, has_char "'" n = false ->
  exists r w', run exec (pipeline_load port n s) w = (Ok r, w') /\
  (r_ok r = true <-> configured_pip w n /\
     (forall p, get_pip (w_pips w) n = Some p -> p_sample p = None)) /\
  (r_ok r = false -> w' = w) /\
  (r_ok r = true ->
     match get_pip (w_pips w) n with
     | Some p => only_pip n (mkPip n false (p_jobid p) (Some s)) w w'
     | None => w' = w
     end).
Proof. exact load_spec. Qed.
Print Assumptions C22_load.

Example C22_case :
  configured_pip exw_busy "pip-2" /\ get_pip (w_pips exw_busy) "pip-2" = Some (mkPip "pip-2" false None None) /\
  w_pips (snd (run exec (pipeline_load 1234 "pip-2" "s") exw_busy)) =
    [mkPip "pip-both" true None (Some "sample-1"); mkPip "pip-1" false (Some 2) (Some "sample-1");
     mkPip "pip-2" false None (Some "s")].
Proof. split; [eexists; split; [reflexivity|vm_compute; auto]|]. split; reflexivity. Qed.

(** ** C23 *)
Theorem C23_eject :
  forall port n w p, has_char "'" n = false -> get_pip (w_pips w) n = Some p ->
  exists r w', run exec (pipeline_eject port n) w = (Ok r, w') /\
  (r_ok r = true <-> configured_pip w n /\ (p_sample p = None \/ p_jobid p = None)) /\
  (r_ok r = false -> w' = w) /\
  (r_ok r = true -> if is_some (p_sample p) then only_pip n (mkPip n false None None) w w'
                    else w' = w).
Proof. exact eject_spec. Qed.
Print Assumptions C23_eject.

(** Without a record (possible after a reload, C08) nothing happens. *)
Theorem C23_C24_no_record :
  forall port n w, get_pip (w_pips w) n = None ->
  forall x w', run exec (pipeline_eject port n) w = (x, w') \/
               run exec (pipeline_ready port n) w = (x, w') ->
  w' = w /\ (forall r, x = Ok r -> r_ok r = false).
Proof. exact no_record_unknown. Qed.
Print Assumptions C23_C24_no_record.

(** For a configured pipeline without a record both commands end with an AssertionError. *)
Theorem C23_C24_unrecorded :
  forall port n w d, get_pip (w_pips w) n = None -> w_daemon w = Some d -> dm_port d = port ->
  dhas (df_pipelines (dm_df d)) n = true ->
  run exec (pipeline_eject port n) w = (Err AssertionError, w) /\
  run exec (pipeline_ready port n) w = (Err AssertionError, w).
Proof.
  intros port n w d N D P H. unfold pipeline_eject, pipeline_ready, with_daemon. subst port.
  split; rewrite run_bind, run_act; cbn [exec]; rewrite D, ?Z.eqb_refl, H; cbn; rewrite N; reflexivity.
Qed.
Print Assumptions C23_C24_unrecorded.

Example C23_case :
  (exists r, run exec (pipeline_eject 1234 "pip-1") exw_busy = (Ok r, exw_busy) /\ r_msg r = MEjectRunning) /\
  get_pip (w_pips (snd (run exec (pipeline_eject 1234 "pip-both") exw_busy))) "pip-both" =
    Some (mkPip "pip-both" false None None).
Proof. split; [eexists; split; [vm_compute; reflexivity|reflexivity]|reflexivity]. Qed.

(** ** C24 *)
Theorem C24_ready :
  forall port n w p, has_char "'" n = false -> get_pip (w_pips w) n = Some p ->
  exists r w', run exec (pipeline_ready port n) w = (Ok r, w') /\
  (r_ok r = true <-> configured_pip w n /\ (p_ready p = true \/ p_jobid p = None)) /\
  (r_ok r = false -> w' = w) /\
  (r_ok r = true -> only_pip n (mkPip n true (p_jobid p) (p_sample p)) w w').
Proof. exact ready_spec. Qed.
Print Assumptions C24_ready.

Example C24_case :
  (exists r, run exec (pipeline_ready 1234 "pip-1") exw_busy = (Ok r, exw_busy) /\ r_msg r = MReadyRunning) /\
  get_pip (w_pips (snd (run exec (pipeline_ready 1234 "pip-2") exw_busy))) "pip-2" =
    Some (mkPip "pip-2" true None None).
Proof. split; [eexists; split; [vm_compute; reflexivity|reflexivity]|reflexivity]. Qed.

(** A quote in the pipeline name makes the update statement invalid. *)
Example C22_quote :
  exists w w', configured_pip w "it's" /\ get_pip (w_pips w) "it's" = Some (pip_default "it's") /\
    run exec (pipeline_load 1234 "it's" "s") w = (Err SqlError, w').
Proof.
  exists (snd (run exec (daemon_start 1234) (set_files exw_init (exw_cfg (mkRawFile (rf_devices exw_file)
    [ mkRawPip (Some "it's") (Some [ mkRawComp (Some "counter") (Some "dev1") (Some "2")])]))))).
  eexists. split; [eexists; split; [reflexivity|vm_compute; auto]|]. split; [reflexivity|vm_compute; reflexivity].
Qed.
