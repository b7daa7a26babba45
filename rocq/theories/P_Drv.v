(** * P_Drv: properties C44, C46, C47 (driver processes) *)
From Coq Require Import List String Ascii ZArith Bool Sorted.
From Verif Require Import Base PyStr Types ConfigModel Prog World Replies CmdModel KetchupModel
  TomatoModel JobModel PipModel DrvModel SysModel SpecQueue SpecSys SpecDrv SysProofs SysProofs6 DrvProofs
  ExWorld SysPlay.
Import ListNotations.
Open Scope string_scope.
Open Scope Z_scope.

Definition mute : label := LAnswers (fun _ _ => None).
Definition ready_drivers : label := LAnswers (fun _ _ => Some (mkDReply true (DdDict 1))).

(** ** C44 *)

(** False as stated: a driver that dies right after it has registered is
    replaced, without a pause. *)
Definition c44_script : list cue :=
  ([At (LCmd (CmdStart 1234)); Finish 0; At (LManager KDrvMgr); At (LTime 1 10000000)] ++ exs_pass 1 ++
   [At (LDriver "psutil" 7002 72 "2.1" true); Finish 2; At mute; At (LTime 2 11000000)] ++
   exs_pass 1 ++ [At (LTime 3 12000000)] ++ exs_pass 1)%list.
Theorem C44_refuted :
  exists s n t1 t2, reachable s /\ driver_starts n (s_world s) = [t2; t1] /\ t1 < t2 <= t1 + 2000000.
Proof.
  exists (played c44_script exw_init), "psutil", 10000000, 12000000.
  split; [apply plays_reachable; vm_compute; reflexivity|].
  split; vm_compute; [reflexivity|split; [reflexivity|discriminate]].
Qed.
Print Assumptions C44_refuted.

(** From any state in which the driver is not available and its processes do not
    register: at most three starts are recorded, more than five seconds apart. *)
Theorem C44_starts_partial :
  forall w0 ls0 s ls s' n d, NoDup (map dv_name (w_drvs w0)) ->
  runs ls0 (start_sys w0) = Some s -> plain n ->
  get_drv (w_drvs (s_world s)) n = Some d -> dv_port d = None ->
  rests KDrvMgr s -> rests (KDriver n) s -> ~ In LCrash ls ->
  (forall port pid ver ok, ~ In (LDriver n port pid ver ok) ls) ->
  runs ls s = Some s' ->
  exists new, driver_starts n (s_world s') = (new ++ driver_starts n (s_world s))%list /\
    Z.of_nat (List.length new) <= Z.max 0 (3 - dv_spawn_count d) /\
    apart 5000000 (new ++ [dv_spawn_time d])%list.
Proof. exact C44_lemma. Qed.
Print Assumptions C44_starts_partial.

(** The process of driver psutil never registers; the manager gives up after three. *)
Definition c44_rest : list cue := [At (LCmd (CmdStart 1234)); Finish 0; At (LManager KDrvMgr)].
Definition c44_at (t : Z) : list cue := (At (LTime 1 t) :: exs_pass 1)%list.
Definition c44_on : list cue :=
  (c44_at 6000000 ++ c44_at 7000000 ++ c44_at 11000000 ++ c44_at 11000001 ++ c44_at 20000000 ++
   c44_at 30000000)%list.
Example C44_case :
  let s := played c44_rest exw_init in
  let s' := on c44_on s in
  NoDup (map dv_name (w_drvs exw_init)) /\ plays c44_rest exw_init = true /\
  get_drv (w_drvs (s_world s)) "psutil" = Some (mkDrv "psutil" None None None 0 0 0) /\
  rests KDrvMgr s /\ rests (KDriver "psutil") s /\ goes c44_on s = true /\
  driver_starts "psutil" (s_world s') = [20000000; 11000001; 6000000].
Proof.
  split; [vm_compute; constructor|]. split; [vm_compute; reflexivity|]. split; [vm_compute; reflexivity|].
  split; [apply no_active_rests; vm_compute; reflexivity|].
  split; [apply no_active_rests; vm_compute; reflexivity|].
  split; vm_compute; reflexivity.
Qed.

(** ** C46 *)

(** False as stated: deleting the record of a removed driver always fails, which
    ends the driver manager. *)
Definition c46_file : rawfile := mkRawFile
  [ mkRawDev (Some "dev1") (Some "example_counter") (Some "addr1") (Some ["1"; "2"]) None]
  [ mkRawPip (Some "pip-*") (Some [ mkRawComp (Some "counter") (Some "dev1") (Some "each") ]) ].
Definition c46_script : list cue :=
  (exs_up ++ [At ready_drivers; At (LFiles (exw_cfg c46_file))] ++ exs_cmd 6 (CmdReload 1234) ++ exs_pass 5)%list.
Theorem C46_refuted :
  exists s t e dm d, reachable s /\ In t (s_threads s) /\ t_kind t = KDrvMgr /\ t_pgm t = Raise e /\
    w_daemon (s_world s) = Some dm /\ In d (w_drvs (s_world s)) /\ ~ configured dm d.
Proof.
  set (s := played c46_script exw_init).
  destruct (nth_error (s_threads s) 5) as [t|] eqn:E; [|vm_compute in E; discriminate].
  assert (X : thread_raised 5 s = Some ProgrammingError) by (vm_compute; reflexivity).
  destruct (w_daemon (s_world s)) as [dm|] eqn:Ed; [|vm_compute in Ed; discriminate].
  exists s, t, ProgrammingError, dm, (mkDrv "psutil" (Some 7002) (Some 72) (Some "2.1") 0 0 0).
  split; [apply plays_reachable; vm_compute; reflexivity|].
  split; [apply (nth_error_In _ _ E)|].
  unfold thread_raised in X. rewrite E in X. split; [vm_compute in E; inversion E; reflexivity|]. clear E.
  split; [destruct (t_pgm t) as [r|e|o k]; [discriminate X|injection X as ->; reflexivity|discriminate X]|].
  split; [exact Ed|]. split; [vm_compute; right; left; reflexivity|].
  vm_compute in Ed. injection Ed as <-. vm_compute. intros [H|[]]. discriminate H.
Qed.
Print Assumptions C46_refuted.

(** It never works: a pass over a table with a removed driver ends with an error
    and deletes nothing. *)
Theorem C46_never :
  forall w dm d, w_daemon w = Some dm -> In d (w_drvs w) -> ~ configured dm d ->
  (exists e, fst (run exec drv_pass w) = Err e) /\
  map dv_name (w_drvs (snd (run exec drv_pass w))) = map dv_name (w_drvs w).
Proof. exact C46_lemma. Qed.
Print Assumptions C46_never.

(** What does work: the process of the first removed driver is told to stop. *)
Theorem C46_stopped_partial :
  forall w dm l1 d l2 p, w_daemon w = Some dm -> w_drvs w = (l1 ++ d :: l2)%list ->
  NoDup (map dv_name (w_drvs w)) ->
  (forall e, In e l1 -> configured dm e /\ proper w e) -> ~ configured dm d -> dv_port d = Some p ->
  In (EvRequest p CStop) (w_log (snd (run exec drv_pass w))).
Proof. exact C46_stop_lemma. Qed.
Print Assumptions C46_stopped_partial.

Example C46_case :
  let w := s_world (played c46_script exw_init) in
  map dv_name (w_drvs w) = ["example_counter"; "psutil"] /\
  fst (run exec drv_pass w) = Err ProgrammingError /\
  w_log (snd (run exec drv_pass w)) = EvRequest 7002 CStop :: w_log w.
Proof. cbv zeta. repeat (apply conj; [vm_compute; reflexivity|]). vm_compute. reflexivity. Qed.

(** ** C47 *)

(** False as stated: after a reboot the clock is behind the recorded contact
    times, and dead drivers are not noticed (nor started). *)
Definition c47_script : list cue :=
  (exs_up ++ [At ready_drivers; At (LTime 1 100000000)] ++ exs_pass 5 ++
   [At LCrash; At mute; At (LTime 2 1000)] ++ exs_cmd 3 (CmdStart 1234) ++ [At (LManager KDrvMgr)] ++
   exs_pass 4 ++ [At (LTime 3 80000000)])%list.
Theorem C47_refuted :
  exists s dm, reachable s /\ w_daemon (s_world s) = Some dm /\
    (forall p c, w_driver (s_world s) p c = None) /\
    Forall (fun d => configured dm d /\ exists p, dv_port d = Some p) (w_drvs (s_world s)) /\
    List.length (w_drvs (s_world s)) = 2%nat /\ w_perf (s_world s) > 5000000 /\
    run exec drv_pass (s_world s) = (Ok tt, s_world s).
Proof.
  set (s := played c47_script exw_init).
  destruct (w_daemon (s_world s)) as [dm|] eqn:Ed; [|vm_compute in Ed; discriminate].
  exists s, dm. split; [apply plays_reachable; vm_compute; reflexivity|]. split; [exact Ed|].
  split; [intros p c; vm_compute; reflexivity|].
  split.
  { vm_compute in Ed. injection Ed as <-. vm_compute.
    constructor; [split; [left; reflexivity|eexists; reflexivity]|].
    constructor; [split; [right; left; reflexivity|eexists; reflexivity]|]. constructor. }
  split; [vm_compute; reflexivity|]. split; vm_compute; reflexivity.
Qed.
Print Assumptions C47_refuted.

(** What one pass does to every record, whatever the clock says. *)
Theorem C47_pass_partial :
  forall w dm, w_daemon w = Some dm -> NoDup (map dv_name (w_drvs w)) ->
  (forall d, In d (w_drvs w) -> configured dm d /\ proper w d) ->
  exists w', run exec drv_pass w = (Ok tt, w') /\
    Forall2 (pass_row w) (w_drvs w) (w_drvs w') /\
    forall n, exists new, driver_starts n w' = (new ++ driver_starts n w)%list /\
      ((exists d, In d (w_drvs w) /\ dv_name d = n /\ start_due (w_perf w) d /\ new = [w_perf w]) \/
       (~ (exists d, In d (w_drvs w) /\ dv_name d = n /\ start_due (w_perf w) d) /\ new = [])).
Proof. exact C47_lemma. Qed.
Print Assumptions C47_pass_partial.

(** Both drivers die; the first pass resets their records, the second starts them. *)
Definition c47_dead : list cue :=
  (exs_up ++ [At ready_drivers; At (LTime 1 100000000)] ++ exs_pass 5 ++ [At mute; At (LTime 2 105000001)])%list.
Example C47_case :
  let w := s_world (played c47_dead exw_init) in
  let w1 := snd (run exec drv_pass w) in
  let w2 := snd (run exec drv_pass w1) in
  plays c47_dead exw_init = true /\
  map (fun d => (dv_port d, dv_heartbeat d)) (w_drvs w) =
    [(Some 7001, 100000000); (Some 7002, 100000000)] /\
  map (fun d => (dv_port d, dv_spawn_count d)) (w_drvs w1) = [(None, 0); (None, 0)] /\
  map (fun d => (dv_spawn_time d, dv_spawn_count d)) (w_drvs w2) = [(105000001, 1); (105000001, 1)] /\
  driver_starts "psutil" w2 = [105000001].
Proof. cbv zeta. repeat (apply conj; [vm_compute; reflexivity|]). vm_compute. reflexivity. Qed.
