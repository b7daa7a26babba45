(** * P_Status: property C79 ("tomato status" and its groups) *)
From Coq Require Import List String Ascii ZArith Bool.
From Verif Require Import Base PyStr Types ConfigModel Prog World Replies CmdModel KetchupModel SysModel SpecSys
  TableModel StatusModel SpecStatus StatusProofs StatusProofs2 ExWorld SysPlay.
Import ListNotations.
Open Scope string_scope.
Open Scope Z_scope.

(** Whatever the outcome, nothing is changed, and the only requests sent ask the driver of a
    configured component, at its port, for the capabilities of that component. *)
Theorem C79_reads_only :
  forall sh port g yml w r w', run exec (status sh port g yml) w = (r, w') ->
  same_tables w w' /\ others w' = others w /\
  exists l, requests w' = (l ++ requests w)%list /\
    forall p q, In (p, q) l -> exists d k c v, w_daemon w = Some d /\ In (k, c) (df_components (dm_df d)) /\
      get_drv (w_drvs w) (c_driver c) = Some v /\ dv_port v = Some p /\ q = CCapabilities (c_address c) (c_channel c).
Proof.
  intros sh port g yml w r w' H. pose proof (reads_only sh port g yml w) as Q. rewrite H in Q.
  destruct Q as (Q1 & Q2 & _ & l & El & Hl). split; [exact Q1|]. split; [exact Q2|]. exists l. split; [exact El|].
  intros p q Hin. destruct (Hl (p, q) Hin) as (d & Hd & k & c & v & H1 & H2 & H3 & H4). exists d, k, c, v. auto.
Qed.
Print Assumptions C79_reads_only.

(** Without a daemon every group is refused; a group that does not exist is refused; neither
    does anything. *)
Theorem C79_not_running :
  forall sh port g yml w, w_daemon w = None ->
  run exec (status sh port g yml) w = (Ok (mkS false ("tomato not running on port " ++ str_of_Z port) SdNone), w).
Proof. intros sh port g yml w H. unfold status. cbn. rewrite H. reflexivity. Qed.
Print Assumptions C79_not_running.
Theorem C79_unknown_group :
  forall sh port g yml w d, w_daemon w = Some d ->
  run exec (status sh port (GOther g) yml) w = (Ok (mkS false ("unknown stgrp: " ++ sh_repr sh g) SdNone), w).
Proof. intros sh port g yml w d H. unfold status. cbn. rewrite H. reflexivity. Qed.
Print Assumptions C79_unknown_group.
(** Without a group the answer is the daemon itself, under its own port. *)
Theorem C79_tomato :
  forall sh port yml w d, w_daemon w = Some d ->
  run exec (status sh port GTomato yml) w = (Ok (mkS true ("tomato running on port " ++ str_of_Z (dm_port d)) (SdDaemon d)), w).
Proof. intros sh port yml w d H. unfold status. cbn. rewrite H. reflexivity. Qed.
Print Assumptions C79_tomato.

(** The devices are those of the daemon's configuration, the drivers those of the table, each
    under its name. *)
Theorem C79_devices :
  forall sh port yml w d, w_daemon w = Some d -> (yml = true \/ df_devices (dm_df d) <> []) ->
  exists m, run exec (status sh port GDevices yml) w = (Ok (mkS true m (SdDevices (df_devices (dm_df d)))), w).
Proof. exact devices_ok. Qed.
Print Assumptions C79_devices.
Theorem C79_drivers :
  forall sh port yml w d, w_daemon w = Some d -> NoDup (map dv_name (w_drvs w)) -> (yml = true \/ w_drvs w <> []) ->
  exists m l, run exec (status sh port GDrivers yml) w = (Ok (mkS true m (SdDrivers l)), w) /\
    forall n v, dget l n = Some v <-> In v (w_drvs w) /\ dv_name v = n.
Proof. exact drivers_ok. Qed.
Print Assumptions C79_drivers.

(** The pipelines are the configured ones, each with its record, if all have one. *)
Theorem C79_pipelines_partial :
  forall sh port yml w d, w_daemon w = Some d -> NoDup (dkeys (df_pipelines (dm_df d))) ->
  (forall n, In n (dkeys (df_pipelines (dm_df d))) -> exists p, get_pip (w_pips w) n = Some p) ->
  (yml = true \/ df_pipelines (dm_df d) <> []) ->
  exists m l, run exec (status sh port GPipelines yml) w = (Ok (mkS true m (SdPips l)), w) /\
    dkeys l = dkeys (df_pipelines (dm_df d)) /\
    forall n, In n (dkeys l) -> dget l n = get_pip (w_pips w) n.
Proof. exact pipelines_ok. Qed.
Print Assumptions C79_pipelines_partial.

(** The components are the configured ones, in order, each with the capabilities its own driver
    answered for its address and channel (nothing if refused or empty), if all drivers answer
    with data that has a length or none. *)
Theorem C79_components_partial :
  forall sh port yml w d, w_daemon w = Some d ->
  (forall k c, In (k, c) (df_components (dm_df d)) -> exists p r, answers_caps w c p r) ->
  (yml = true \/ df_components (dm_df d) <> []) ->
  exists m l w', run exec (status sh port GComponents yml) w = (Ok (mkS true m (SdComponents l)), w') /\
    Forall2 (fun kc e => fst e = fst kc /\ fst (snd e) = snd kc /\
               exists p r, answers_caps w (snd kc) p r /\ reported r (snd (snd e)))
      (df_components (dm_df d)) l.
Proof. exact components_ok. Qed.
Print Assumptions C79_components_partial.

(** Not answered in general, although the daemon runs: (1) a driver that has not registered yet
    makes "components" raise; (2) a driver that does not answer makes it wait for ever; (3) a
    pipeline added by a reload makes "pipelines" raise. *)
Definition c79_sh : shows := mkShows str_of_Z (fun l => String.concat "," l) (fun _ => "caps") (fun s => "'" ++ s ++ "'").
Definition c79_starting : list cue := [At (LCmd (CmdStart 1234)); Finish 0].
Definition c79_silent : list cue := (exs_up ++ [At (LAnswers (fun _ _ => None))])%list.
Definition c79_reload : list cue :=
  (exs_up ++ [At (LFiles (exw_cfg exw_file2))] ++ exs_cmd 6 (CmdReload 1234))%list.
Theorem C79_refuted :
  (exists s, reachable s /\ w_daemon (s_world s) <> None /\
     fst (run exec (status c79_sh 1234 GComponents false) (s_world s)) = Err ZMQError) /\
  (exists s, reachable s /\ w_daemon (s_world s) <> None /\
     fst (run exec (status c79_sh 1234 GComponents false) (s_world s)) = Err Blocked) /\
  (exists s, reachable s /\ w_daemon (s_world s) <> None /\
     fst (run exec (status c79_sh 1234 GPipelines false) (s_world s)) = Err TypeError).
Proof.
  split; [|split].
  - exists (played c79_starting exw_init). split; [apply plays_reachable; vm_compute; reflexivity|].
    split; [vm_compute; discriminate|vm_compute; reflexivity].
  - exists (played c79_silent exw_init). split; [apply plays_reachable; vm_compute; reflexivity|].
    split; [vm_compute; discriminate|vm_compute; reflexivity].
  - exists (played c79_reload exw_init). split; [apply plays_reachable; vm_compute; reflexivity|].
    split; [vm_compute; discriminate|vm_compute; reflexivity].
Qed.
Print Assumptions C79_refuted.

(** Exactly when a listing is answered while the daemon runs: with "yaml" always, without it if
    there is something to list; "pipelines" also needs a record of every configured pipeline,
    "components" a driver of every component that is known, has a port and answers. *)
Theorem C79_answered :
  forall sh port yml w d, w_daemon w = Some d ->
  (lists (fst (run exec (status sh port GDevices yml) w)) <-> (yml = true \/ df_devices (dm_df d) <> [])) /\
  (lists (fst (run exec (status sh port GDrivers yml) w)) <-> (yml = true \/ w_drvs w <> [])) /\
  (lists (fst (run exec (status sh port GPipelines yml) w)) <->
   (forall n, In n (dkeys (df_pipelines (dm_df d))) -> exists p, get_pip (w_pips w) n = Some p) /\
   (yml = true \/ df_pipelines (dm_df d) <> [])) /\
  (lists (fst (run exec (status sh port GComponents yml) w)) <->
   (forall k c, In (k, c) (df_components (dm_df d)) -> tells_caps w c) /\
   (yml = true \/ df_components (dm_df d) <> [])).
Proof.
  intros sh port yml w d H. split; [exact (devices_iff sh port yml w d H)|]. split; [exact (drivers_iff sh port yml w d H)|].
  split; [exact (pipelines_iff sh port yml w d H)|exact (components_iff sh port yml w d H)].
Qed.
Print Assumptions C79_answered.

(** Which answers of a driver are taken for a list of capabilities: those that have a length
    other than 0, whatever they are; [len] of anything else raises TypeError. *)
Example C79_lengths :
  let answer x := caps_of (mkDReply true x) in
  answer DdNone = Ok None /\ answer (DdCaps []) = Ok None /\
  answer (DdCaps ["count"]) = Ok (Some (DdCaps ["count"])) /\
  answer (DdDict 0) = Ok None /\ answer (DdDict 2) = Ok (Some (DdDict 2)) /\
  answer (DdVal (VStr "")) = Ok None /\ answer (DdVal (VStr "a")) = Ok (Some (DdVal (VStr "a"))) /\
  answer (DdVal (VList [])) = Ok None /\ answer (DdVal (VInt 3)) = Err TypeError /\
  caps_of (mkDReply false (DdVal (VInt 3))) = Ok None.
Proof. repeat split; vm_compute; reflexivity. Qed.

(** Three pipelines, one of them with a sample. *)
Example C79_case :
  let w := s_world (played exs_base exw_init) in
  let tab := String "010" (String "009" "") in
  (forall k c, In (k, c) (match w_daemon w with Some d => df_components (dm_df d) | None => [] end) ->
     exists p r, answers_caps w c p r) /\
  map fst (match w_daemon w with Some d => df_components (dm_df d) | None => [] end) =
    ["example_counter:(addr1,2)"; "psutil:(addr2,10)"; "example_counter:(addr1,1)"] /\
  (match fst (run exec (status c79_sh 1234 GPipelines false) w) with Ok r => s_msg r | Err _ => "" end) =
    "tomato running on port 1234 with the following pipelines:" ++ tab ++
    "name:pip-both  ready:False  sampleid:None      jobid:None  " ++ tab ++
    "name:pip-1     ready:True   sampleid:sample-1  jobid:None  " ++ tab ++
    "name:pip-2     ready:False  sampleid:None      jobid:None  " /\
  (match fst (run exec (status c79_sh 1234 GComponents true) w) with
   | Ok (mkS true "" (SdComponents l)) => map (fun e => (fst e, snd (snd e))) l
   | _ => [] end) =
    [("example_counter:(addr1,2)", Some (DdCaps ["count"; "random"]));
     ("psutil:(addr2,10)", Some (DdCaps ["count"; "random"]));
     ("example_counter:(addr1,1)", Some (DdCaps ["count"; "random"]))].
Proof.
  cbv zeta. split; [|split; [|split]; vm_compute; reflexivity].
  intros k c H. vm_compute in H. destruct H as [H|[H|[H|[]]]]; inversion H; subst;
    (do 2 eexists; split; [eexists; split; vm_compute; reflexivity|]; split; [vm_compute; reflexivity|right; exact I]).
Qed.

(** While the drivers start, "pipelines" is answered and "components" is not; after a reload
    that adds a pipeline it is the other way round, with and without "yaml". *)
Example C79_case_answered :
  let w1 := s_world (played c79_starting exw_init) in
  let w2 := s_world (played c79_reload exw_init) in
  let answers w g y := match fst (run exec (status c79_sh 1234 g y) w) with Ok r => s_ok r | Err _ => false end in
  map (answers w1 GPipelines) [true; false] = [true; true] /\ map (answers w1 GComponents) [true; false] = [false; false] /\
  map (answers w2 GPipelines) [true; false] = [false; false] /\ map (answers w2 GComponents) [true; false] = [true; true].
Proof. cbv zeta. split; [|split; [|split]]; vm_compute; reflexivity. Qed.
