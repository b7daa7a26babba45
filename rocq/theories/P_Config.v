(** * P_Config: properties C01-C05 (loading the configuration) *)
From Coq Require Import List String Ascii ZArith Bool.
From Verif Require Import Base PyStr Types ConfigModel SpecConfig ConfigProofs.
Import ListNotations.
Open Scope string_scope.

(** A devices file with two devices, a plain two-role pipeline and a wildcard. *)
Definition ex_file : rawfile := mkRawFile
  [ mkRawDev (Some "dev1") (Some "example_counter") (Some "addr1") (Some ["1"; "2"]) None;
    mkRawDev (Some "dev2") (Some "psutil") (Some "addr2") (Some ["10"]) (Some 5%Z) ]
  [ mkRawPip (Some "pip-both")
      (Some [ mkRawComp (Some "counter") (Some "dev1") (Some "2");
              mkRawComp (Some "psutil") (Some "dev2") (Some "10") ]);
    mkRawPip (Some "pip-*") (Some [ mkRawComp (Some "counter") (Some "dev1") (Some "each") ]) ].

Definition ex_df : devicefile :=
  match load_devicefile ex_file with Ok df => df | Err _ => mkDF [] [] [] [] end.

(** ** C01 *)
Theorem C01_loaded_configuration_closed :
  forall rf df, load_devicefile rf = Ok df -> closed_config df.
Proof. exact load_closed. Qed.
Print Assumptions C01_loaded_configuration_closed.

Example C01_case : load_devicefile ex_file = Ok ex_df /\
  dkeys (df_pipelines ex_df) = ["pip-both"; "pip-1"; "pip-2"] /\
  dkeys (df_components ex_df) =
    ["example_counter:(addr1,2)"; "psutil:(addr2,10)"; "example_counter:(addr1,1)"] /\
  dkeys (df_drivers ex_df) = ["example_counter"; "psutil"].
Proof. vm_compute. auto. Qed.

(** ** C02 *)
Theorem C02_pipelines_are_the_declared_ones :
  forall rf df, load_devicefile rf = Ok df ->
  forall pn,
  (dget (df_pipelines df) pn = None <->
     forall rp, In rp (rf_pipelines rf) -> ~ yields rf rp pn) /\
  (forall p, dget (df_pipelines df) pn = Some p ->
     pp_name p = pn /\
     exists rp, last_such (fun rp => yields rf rp pn) (rf_pipelines rf) rp /\
       role_map rf rp pn (pp_components p)).
Proof. exact load_pipelines. Qed.
Print Assumptions C02_pipelines_are_the_declared_ones.

Theorem C02_components_are_the_used_ones :
  forall rf df, load_devicefile rf = Ok df ->
  (forall cn c, dget (df_components df) cn = Some c ->
     exists rp dev, In rp (rf_pipelines rf) /\ makes_use rf rp dev (c_channel c) /\
       c_name c = component_name dev (c_channel c) /\
       c_device c = d_name dev /\ c_driver c = d_driver dev /\ c_address c = d_address dev) /\
  (forall rp dev ch, In rp (rf_pipelines rf) -> makes_use rf rp dev ch ->
     exists c, dget (df_components df) (component_name dev ch) = Some c).
Proof. exact load_components. Qed.
Print Assumptions C02_components_are_the_used_ones.

Example C02_case :
  dget (df_pipelines ex_df) "pip-2" =
    Some (mkPipeline "pip-2" [("counter", "example_counter:(addr1,2)")]) /\
  dget (df_pipelines ex_df) "pip-both" =
    Some (mkPipeline "pip-both" [("counter", "example_counter:(addr1,2)");
                                 ("psutil", "psutil:(addr2,10)")]) /\
  dget (df_pipelines ex_df) "pip-*" = None.
Proof. vm_compute. auto. Qed.

(** ** C03 *)
Theorem C03_accepted_iff_well_formed :
  forall rf, (exists df, load_devicefile rf = Ok df) <-> well_formed rf.
Proof. exact accepted_iff. Qed.
Print Assumptions C03_accepted_iff_well_formed.

Example C03_case_accepted : well_formed ex_file.
Proof. apply C03_accepted_iff_well_formed. exists ex_df. apply C01_case. Qed.

(** A channel that the device does not have. *)
Example C03_case_rejected : ~ well_formed
  (mkRawFile (rf_devices ex_file)
     [ mkRawPip (Some "p") (Some [ mkRawComp (Some "r") (Some "dev1") (Some "3") ]) ]).
Proof.
  intros H. apply C03_accepted_iff_well_formed in H as [df H].
  vm_compute in H. discriminate.
Qed.

(** What is raised for files that are not accepted. *)
Definition ex_raises (pips : list rawpip) : option exn :=
  match load_devicefile (mkRawFile (rf_devices ex_file) pips) with Ok _ => None | Err e => Some e end.
Definition ex_raises_dev (d : rawdev) : option exn :=
  match load_devicefile (mkRawFile [d] []) with Ok _ => None | Err e => Some e end.
Definition ex_comp := mkRawComp (Some "r") (Some "dev1") (Some "1").
Example C03_case_raises :
  (* a missing key *)
  ex_raises [mkRawPip None (Some [ex_comp])] = Some KeyError /\
  ex_raises [mkRawPip (Some "p") None] = Some KeyError /\
  ex_raises [mkRawPip (Some "p-*") None] = Some KeyError /\
  ex_raises [mkRawPip (Some "p") (Some [mkRawComp None (Some "dev1") (Some "1")])] = Some KeyError /\
  ex_raises [mkRawPip (Some "p") (Some [mkRawComp (Some "r") None (Some "1")])] = Some KeyError /\
  ex_raises [mkRawPip (Some "p") (Some [mkRawComp (Some "r") (Some "dev1") None])] = Some KeyError /\
  ex_raises [mkRawPip (Some "p-*") (Some [mkRawComp None (Some "dev1") (Some "each")])] = Some KeyError /\
  ex_raises [mkRawPip (Some "p-*") (Some [mkRawComp (Some "r") None (Some "each")])] = Some KeyError /\
  ex_raises [mkRawPip (Some "p-*") (Some [mkRawComp (Some "r") (Some "dev1") None])] = Some KeyError /\
  (* an unknown device, a channel it does not have, two devices for a wildcard *)
  ex_raises [mkRawPip (Some "p") (Some [mkRawComp (Some "r") (Some "dev3") (Some "1")])] = Some ValidationError /\
  ex_raises [mkRawPip (Some "p") (Some [mkRawComp (Some "r") (Some "dev1") (Some "3")])] = Some ValidationError /\
  ex_raises [mkRawPip (Some "p-*") (Some [mkRawComp (Some "r") (Some "dev3") (Some "each")])] = Some ValidationError /\
  ex_raises [mkRawPip (Some "p-*") (Some [ex_comp; ex_comp])] = Some ValidationError /\
  (* a wildcard with one channel: the message of the assertion cannot be made *)
  ex_raises [mkRawPip (Some "p-*") (Some [ex_comp])] = Some KeyError /\
  (* a device without a name; without another required entry *)
  ex_raises_dev (mkRawDev None (Some "drv") (Some "a") (Some ["1"]) None) = Some KeyError /\
  ex_raises_dev (mkRawDev (Some "d") None (Some "a") (Some ["1"]) None) = Some ValidationError /\
  ex_raises_dev (mkRawDev (Some "d") (Some "drv") None (Some ["1"]) None) = Some ValidationError /\
  ex_raises_dev (mkRawDev (Some "d") (Some "drv") (Some "a") None None) = Some ValidationError /\
  ex_raises_dev (mkRawDev (Some "d") (Some "drv") (Some "a") (Some ["1"]) None) = None /\
  (* no table of drivers in the settings *)
  device_settings (mkSettings "/jobs" "/devices.yml" [] None) ex_df = Err KeyError.
Proof. vm_compute. repeat split. Qed.

(** ** C04: false in general, because nothing separates the fields of a name. *)
Theorem C04_refuted :
  exists rf df rp dev ch,
    load_devicefile rf = Ok df /\ In rp (rf_pipelines rf) /\ makes_use rf rp dev ch /\
    ~ exists cn c, dget (df_components df) cn = Some c /\
        c_driver c = d_driver dev /\ c_address c = d_address dev /\ c_channel c = ch.
Proof. exact channel_dropped. Qed.
Print Assumptions C04_refuted.

Theorem C04_distinct_channels_distinct_names_partial :
  forall dev dev' ch ch',
  has_char "("%char (d_driver dev) = false -> has_char "("%char (d_driver dev') = false ->
  has_char ","%char ch = false -> has_char ","%char ch' = false ->
  component_name dev ch = component_name dev' ch' ->
  d_driver dev = d_driver dev' /\ d_address dev = d_address dev' /\ ch = ch'.
Proof. exact component_name_inj. Qed.
Print Assumptions C04_distinct_channels_distinct_names_partial.

Theorem C04_no_channel_dropped_partial :
  forall rf df, load_devicefile rf = Ok df ->
  (forall n dev, device_is rf n dev ->
     has_char "("%char (d_driver dev) = false /\
     forall ch, In ch (d_channels dev) -> has_char ","%char ch = false) ->
  forall rp dev ch, In rp (rf_pipelines rf) -> makes_use rf rp dev ch ->
  exists c, dget (df_components df) (component_name dev ch) = Some c /\
    c_driver c = d_driver dev /\ c_address c = d_address dev /\ c_channel c = ch.
Proof. exact used_channel_present. Qed.
Print Assumptions C04_no_channel_dropped_partial.

(** Addresses may contain anything, e.g. a comma or a parenthesis. *)
Example C04_case :
  let d1 := mkDevice "d1" "example_counter" "10.0.0.1,(2)" ["1"] 1 in
  has_char "("%char (d_driver d1) = false /\ has_char ","%char "1" = false /\
  component_name d1 "1" = "example_counter:(10.0.0.1,(2),1)".
Proof. vm_compute. auto. Qed.

(** ** C05 *)
Theorem C05_driver_settings :
  forall cf s port dm, load_daemon cf s port = Ok dm ->
  exists st rf df tbl,
    cf_settings cf = Some st /\ cf_devices cf (st_devcfg st) = Some rf /\
    load_devicefile rf = Ok df /\ st_drivers st = Some tbl /\
    dm_settings dm = st /\ dm_status dm = s /\ dm_port dm = port /\
    df_components (dm_df dm) = df_components df /\
    df_devices (dm_df dm) = df_devices df /\
    df_pipelines (dm_df dm) = df_pipelines df /\
    dkeys (df_drivers (dm_df dm)) = dkeys (df_drivers df) /\
    (NoDup (dkeys tbl) -> (forall n t, dget tbl n = Some t -> NoDup (dkeys t)) ->
     forall dn d, dget (df_drivers (dm_df dm)) dn = Some d ->
       dr_name d = dn /\
       forall k, dget (dr_settings d) k =
         match dget tbl dn with Some t => dget t k | None => None end).
Proof. exact loaded_settings. Qed.
Print Assumptions C05_driver_settings.

Definition ex_settings : settings :=
  mkSettings "/jobs" "/devices.yml" [("default", "/repo")]
    (Some [("psutil", [("idle_measurement_interval", SvInt 10); ("x", SvStr "y")]);
           ("unused", [("z", SvBool true)])]).
Definition ex_cfg : cfgfiles :=
  mkCfg (Some ex_settings) (fun p => if String.eqb p "/devices.yml" then Some ex_file else None).

Example C05_case : exists dm, load_daemon ex_cfg Dbootstrap 1234 = Ok dm /\
  df_drivers (dm_df dm) =
    [("example_counter", mkDriver "example_counter" []);
     ("psutil", mkDriver "psutil" [("idle_measurement_interval", SvInt 10); ("x", SvStr "y")])].
Proof. eexists. vm_compute. auto. Qed.
