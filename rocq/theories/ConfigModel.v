(** * ConfigModel: parsing of the configuration files

    Models /repo/src/tomato/models.py:86-111 (class [Daemon]) and 147-235 (class
    [DeviceFile]).  pydantic turns the AssertionError of a failed assertion in a validator
    (164, 181, 185, 189, 209, 214) into ValidationError; other exceptions pass.
    Definitions only. *)
From Coq Require Import List String ZArith Bool.
From Verif Require Import Base PyStr Types.
Import ListNotations.
Open Scope string_scope.

(** One entry of [devices:] in the devices file, before validation: the keys of
    the YAML mapping, [None] when missing (models.py:134-139,176). *)
Record rawdev : Type := mkRawDev {
  rd_name : option string;
  rd_driver : option string;
  rd_address : option string;
  rd_channels : option (list string);
  rd_pollrate : option Z
}.

(** One entry of [devices:] inside a pipeline definition (models.py:184-229). *)
Record rawcomp : Type := mkRawComp {
  rc_role : option string;
  rc_device : option string;
  rc_channel : option string
}.

(** One entry of [pipelines:] (models.py:179-230). *)
Record rawpip : Type := mkRawPip {
  rp_name : option string;
  rp_devices : option (list rawcomp)
}.

(** The parsed YAML document (models.py:169-173).  Absent top-level keys are
    empty lists ([jsdata.get("devices", {})]).  Simplification: a document that
    is not a mapping of lists of mappings of strings is not represented; it
    makes [populate_attrs] raise. *)
Record rawfile : Type := mkRawFile {
  rf_devices : list rawdev;
  rf_pipelines : list rawpip
}.

(** [d["name"]: Device( **d )]  (models.py:176): [KeyError] without a name,
    [ValidationError] when a required field of [Device] is missing; the poll
    rate defaults to 1 (models.py:139). *)
Definition mk_device (d : rawdev) : res device :=
  match rd_name d with
  | None => Err KeyError
  | Some n =>
      match rd_driver d, rd_address d, rd_channels d with
      | Some dr, Some a, Some chs =>
          Ok (mkDevice n dr a chs (match rd_pollrate d with Some p => p | None => 1%Z end))
      | _, _, _ => Err ValidationError
      end
  end.

(** [self.devices = {d["name"]: Device( **d ) for d in devices}]  (models.py:176) *)
Definition load_devices (l : list rawdev) : res (dict device) :=
  foldM (fun acc d => rbind (mk_device d) (fun dev => Ok (dset acc (d_name dev) dev))) [] l.

(** [f"{dev.driver}:({dev.address},{ch})"]  (models.py:194,218) *)
Definition cname (drv addr ch : string) : string :=
  drv ++ ":(" ++ addr ++ "," ++ ch ++ ")".

(** [self.components] and [self.pipelines] under construction. *)
Definition pstate : Type := (dict component * dict pipeline)%type.

(** [self.components[cname] = Component(...)]  (models.py:195-201,219-225) *)
Definition add_component (dev : device) (ch : string) (cs : dict component) : dict component :=
  let cn := cname (d_driver dev) (d_address dev) ch in
  dset cs cn (mkComponent cn (d_name dev) (d_driver dev) (d_address dev) ch).

(** Body of the loop over the channels of a wildcard pipeline (models.py:192-205);
    [comp["role"]] is only read inside the loop, after the component was added. *)
Definition wild_channel (pname : string) (role : option string) (dev : device)
    (st : pstate) (ch : string) : res pstate :=
  let pn := replace_star pname ch in
  let cn := cname (d_driver dev) (d_address dev) ch in
  let cs := add_component dev ch (fst st) in
  match role with
  | None => Err KeyError
  | Some r => Ok (cs, dset (snd st) pn (mkPipeline pn [(r, cn)]))
  end.

(** Body of the loop over the (single) component of a wildcard pipeline
    (models.py:184-205).  When the channel is not ['each'] the assertion message
    itself raises [KeyError] because of the misspelt key ['chanel'] (line 190). *)
Definition wild_comp (devs : dict device) (pname : string)
    (st : pstate) (comp : rawcomp) : res pstate :=
  match rc_device comp with
  | None => Err KeyError
  | Some dn =>
      match dget devs dn with
      | None => Err ValidationError
      | Some dev =>
          match rc_channel comp with
          | None => Err KeyError
          | Some ch =>
              if String.eqb ch "each"
              then foldM (wild_channel pname (rc_role comp) dev) st (d_channels dev)
              else Err KeyError
          end
      end
  end.

(** Body of the loop over the components of a plain pipeline (models.py:208-226);
    the state is [(self.components, cmps)]. *)
Definition plain_comp (devs : dict device)
    (st : dict component * dict string) (comp : rawcomp)
    : res (dict component * dict string) :=
  match rc_device comp with
  | None => Err KeyError
  | Some dn =>
      match dget devs dn with
      | None => Err ValidationError
      | Some dev =>
          match rc_channel comp with
          | None => Err KeyError
          | Some ch =>
              if mem ch (d_channels dev) then
                let cn := cname (d_driver dev) (d_address dev) ch in
                match rc_role comp with
                | None => Err KeyError
                | Some r => Ok (add_component dev ch (fst st), dset (snd st) r cn)
                end
              else Err ValidationError
          end
      end
  end.

(** One pipeline definition (models.py:179-230). *)
Definition add_pipeline (devs : dict device) (st : pstate) (rp : rawpip) : res pstate :=
  match rp_name rp with
  | None => Err KeyError
  | Some n =>
      if ends_with_star n then
        match rp_devices rp with
        | None => Err KeyError
        | Some comps =>
            if Nat.eqb (List.length comps) 1
            then foldM (wild_comp devs n) st comps
            else Err ValidationError
        end
      else
        match rp_devices rp with
        | None => Err KeyError
        | Some comps =>
            match foldM (plain_comp devs) (fst st, []) comps with
            | Err e => Err e
            | Ok (cs, cmps) => Ok (cs, dset (snd st) n (mkPipeline n cmps))
            end
        end
  end.

(** [DeviceFile.populate_attrs]  (models.py:167-235).  [self.components] and
    [self.pipelines] start empty. *)
Definition load_devicefile (rf : rawfile) : res devicefile :=
  match load_devices (rf_devices rf) with
  | Err e => Err e
  | Ok devs =>
      match foldM (add_pipeline devs) ([], []) (rf_pipelines rf) with
      | Err e => Err e
      | Ok (cs, ps) =>
          let needed := set_of (map (fun c => c_driver c) (dvals cs)) in
          Ok (mkDF cs devs (map (fun d => (d, mkDriver d [])) needed) ps)
      end
  end.

(** [Daemon.device_settings]  (models.py:106-111): merges the driver settings of
    the settings file into the drivers of the devices file. *)
Definition merge_driver (drvs : dict driver) (kv : string * dict sval) : dict driver :=
  match dget drvs (fst kv) with
  | None => drvs
  | Some d => dset drvs (fst kv) (mkDriver (dr_name d) (dupdate (dr_settings d) (snd kv)))
  end.

Definition with_drivers (df : devicefile) (d : dict driver) : devicefile :=
  mkDF (df_components df) (df_devices df) d (df_pipelines df).

Definition device_settings (st : settings) (df : devicefile) : res devicefile :=
  match st_drivers st with
  | None => Err KeyError
  | Some tbl => Ok (with_drivers df (fold_left merge_driver tbl (df_drivers df)))
  end.

(** The configuration files as the daemon finds them: [cf_settings] is
    settings.toml in the daemon's appdir ([None]: missing or not parseable),
    [cf_devices] the devices file at a given path ([None]: missing or not
    parseable). *)
Record cfgfiles : Type := mkCfg {
  cf_settings : option settings;
  cf_devices : string -> option rawfile
}.

(** [Daemon(status, port, appdir, verbosity)]  (models.py:86-111, as called from
    daemon/__init__.py:51 and daemon/cmd.py:79-84): settings are read first
    ([populate_settings]), then the devices file named there
    ([populate_devicefile], asserting that it exists), then [device_settings]. *)
Definition load_daemon (cf : cfgfiles) (s : dstatus) (port : Z) : res daemon :=
  match cf_settings cf with
  | None => Err FileNotFoundError
  | Some st =>
      match cf_devices cf (st_devcfg st) with
      | None => Err ValidationError
      | Some rf =>
          match load_devicefile rf with
          | Err e => Err e
          | Ok df =>
              match device_settings st df with
              | Err e => Err e
              | Ok df' => Ok (mkDaemon s port st df')
              end
          end
      end
  end.
