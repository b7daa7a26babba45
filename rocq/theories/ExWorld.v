(** * ExWorld: concrete states used in the examples that accompany theorems *)
From Coq Require Import List String ZArith Bool.
From Verif Require Import Base PyStr Types ConfigModel Prog World Replies CmdModel.
Import ListNotations.
Open Scope string_scope.
Open Scope Z_scope.

(** Two devices, a two-role pipeline and a wildcard pipeline. *)
Definition exw_file : rawfile := mkRawFile
  [ mkRawDev (Some "dev1") (Some "example_counter") (Some "addr1") (Some ["1"; "2"]) None;
    mkRawDev (Some "dev2") (Some "psutil") (Some "addr2") (Some ["10"]) (Some 5) ]
  [ mkRawPip (Some "pip-both")
      (Some [ mkRawComp (Some "counter") (Some "dev1") (Some "2");
              mkRawComp (Some "psutil") (Some "dev2") (Some "10") ]);
    mkRawPip (Some "pip-*") (Some [ mkRawComp (Some "counter") (Some "dev1") (Some "each") ]) ].

(** The same with one more pipeline. *)
Definition exw_file2 : rawfile := mkRawFile (rf_devices exw_file)
  (rf_pipelines exw_file ++
   [ mkRawPip (Some "extra") (Some [ mkRawComp (Some "psutil") (Some "dev2") (Some "10") ]) ])%list.

Definition exw_settings : settings :=
  mkSettings "/jobs" "/devices.yml" [("backup", "/repo")]
    (Some [("psutil", [("idle_measurement_interval", SvInt 10)])]).
Definition exw_cfg (rf : rawfile) : cfgfiles :=
  mkCfg (Some exw_settings) (fun p => if String.eqb p "/devices.yml" then Some rf else None).

(** Empty database, no daemon; drivers answer every request with success. *)
Definition exw_init : world :=
  mkWorld [] 0 [] [] None (exw_cfg exw_file) [] [] [] []
    (fun _ c => Some (mkDReply true (match c with
                                     | CCapabilities _ _ => DdCaps ["count"; "random"]
                                     | CCmpStatus _ _ => DdRunning false
                                     | _ => DdNone
                                     end)))
    (fun _ => Ok true) (fun _ => None) (fun _ => None) (fun _ => None) 1000 50 [].

(** After [tomato start]. *)
Definition exw_started : world := snd (run exec (daemon_start 1234) exw_init).

Definition exw_task : task := mkTask "counter" "count" None None None None 1 10.
Definition exw_payload : payload :=
  mkPayload "sample-1" [exw_task] (Some "/out") None ["default"] None true "user" false.

Definition exw_job (id : Z) (name : option string) (s : jstatus) (pid : option Z) : job :=
  mkJob id exw_payload name pid s (100 + id) None None None
    (if jstatus_eqb s Sq then None else Some "/jobs/x") None None.

(** Some jobs, one of them running on pip-1. *)
Definition exw_busy : world :=
  let w := set_jobs exw_started
    [ exw_job 1 (Some "alpha run") Sc (Some 11); exw_job 2 None Sr (Some 12);
      exw_job 3 (Some "beta RUN") Sq None; exw_job 5 (Some "gamma") Sqw None ] 6 in
  set_pips w
    (upd_pips "pip-both" [PSample (Some "sample-1"); PReady true]
      (upd_pips "pip-1" [PSample (Some "sample-1"); PJobid (Some 2)] (w_pips w))).

(** The drivers of [exw_busy] have registered; the process of job 2 is alive. *)
Definition exw_drv (n : string) (port : Z) : drvstate := mkDrv n (Some port) (Some port) (Some "2.1") 0 0 0.
Definition exw_up : world :=
  set_procs (set_drvs exw_busy [exw_drv "example_counter" 7001; exw_drv "psutil" 7002])
    [] [mkProc 12 false None].
Definition exw_daemon : daemon :=
  match w_daemon exw_up with
  | Some d => d
  | None => mkDaemon Dstop 0 exw_settings (mkDF [] [] [] [])
  end.

(** The same, but the driver of the counters only knows technique "random" and
    the process of job 2 is gone. *)
Definition exw_down : world :=
  let w := set_procs exw_up [] [] in
  mkWorld (w_jobs w) (w_seq w) (w_pips w) (w_drvs w) (w_daemon w) (w_files w) (w_dirs w)
    (w_jobdata w) (w_spawned w) (w_procs w)
    (fun p c => if Z.eqb p 7001 then Some (mkDReply true (DdCaps ["random"])) else w_driver w p c)
    (w_main w) (w_merge w) (w_crate w) (w_outdir w) (w_now w) (w_perf w) (w_log w).

(** A job launched on pip-2 eleven seconds before, without a process. *)
Definition exw_lost : world :=
  let j := mkJob 7 exw_payload None None Sqw 100 (Some (1000 - 11000000)) None None None None None in
  set_pips (set_jobs exw_up (w_jobs exw_up ++ [j])%list 7)
    (upd_pips "pip-2" [PSample (Some "sample-1"); PJobid (Some 7)] (w_pips exw_up)).
