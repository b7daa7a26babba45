(** * StatusModel: "tomato status" and its groups

    Models /repo/src/tomato/tomato/__init__.py: status (106-256).  The tables are made by
    format_msg (87-103), see TableModel.  Definitions only.

    Simplifications: how a float, a list of strings, the data of a driver's reply or a string with its quotes is
    printed ([str], [repr], [f"{x:<.1f} s"]) is given by arbitrary functions; the database named
    in the daemon's settings (190) is the one of the world. *)
From Coq Require Import List String ZArith Bool.
From Verif Require Import Base PyStr Types Prog World TableModel.
Import ListNotations.
Open Scope string_scope.
Open Scope Z_scope.
Open Scope prog_scope.

(** The values of "stgrp" (__init__.py:66); any other value is refused (248-249). *)
Inductive group : Type := GTomato | GDevices | GDrivers | GComponents | GPipelines | GOther (stgrp : string).

(** [Reply.data] of the groups (192-247). *)
Inductive sdata : Type :=
| SdNone
| SdDaemon (d : daemon)
| SdDevices (l : dict device)
| SdDrivers (l : dict drvstate)
| SdComponents (l : list (string * (component * option ddata)))
| SdPips (l : dict pipstate).
Record sreply : Type := mkS { s_ok : bool; s_msg : string; s_data : sdata }.

(** Printing of values (56-66, 249). *)
Record shows : Type := mkShows {
  sh_age : Z -> string;                 (* f"{t:<.1f} s" *)
  sh_list : list string -> string;      (* str of a list of strings *)
  sh_data : ddata -> string;            (* str of the data of a reply *)
  sh_repr : string -> string            (* repr of a string (249) *)
}.
Definition str_opt {A} (f : A -> string) (x : option A) : string :=
  match x with Some a => f a | None => "None" end.
Definition str_bool (b : bool) : string := if b then "True" else "False".

(** The cells of the four tables (199, 207, 216, 240). *)
Definition row_device (sh : shows) (d : device) : row :=
  [("name", d_name d); ("driver", d_driver d); ("address", d_address d); ("channels", sh_list sh (d_channels d))].
Definition row_driver (sh : shows) (now : Z) (d : drvstate) : row :=
  [("name", dv_name d); ("port", str_opt str_of_Z (dv_port d)); ("pid", str_opt str_of_Z (dv_pid d));
   ("version", str_opt (fun s => s) (dv_version d)); ("heartbeat", sh_age sh (now - dv_heartbeat d))].
Definition row_component (sh : shows) (c : component * option ddata) : row :=
  [("name", c_name (fst c)); ("driver", c_driver (fst c)); ("device", c_device (fst c));
   ("capabilities", str_opt (sh_data sh) (snd c))].
Definition row_pip (p : pipstate) : row :=
  [("name", p_name p); ("ready", str_bool (p_ready p)); ("sampleid", str_opt (fun s => s) (p_sample p));
   ("jobid", str_opt str_of_Z (p_jobid p))].

(** format_msg (87-103); the clock is read by make_padded_lines (53). *)
Definition format (msg objs : string) (yml : bool) (keys : list string) (rows : Z -> list row) : pgm string :=
  if yml then Ret ""
  else t <- act OPerf;; lift (format_msg msg objs false keys (rows t)).

(** [len(x)] of the data of a reply (229). *)
Definition dlen (x : ddata) : res nat :=
  match x with
  | DdNone => Err TypeError
  | DdCaps l => Ok (List.length l)
  | DdRunning _ => Ok 1%nat
  | DdDict n => Ok n
  | DdVal (VStr s) => Ok (String.length s)
  | DdVal (VList l) => Ok (List.length l)
  | DdVal _ => Err TypeError
  end.
(** [dret.success and dret.data is not None and len(dret.data) > 0] (229-232) *)
Definition caps_of (r : dreply) : res (option ddata) :=
  if dr_ok r then
    match dr_data r with
    | DdNone => Ok None
    | x => match dlen x with Ok O => Ok None | Ok _ => Ok (Some x) | Err e => Err e end
    end
  else Ok None.

(** One component (219-233): the answer is awaited without a time limit (228). *)
Definition component_status (acc : list (string * (component * option ddata))) (kc : string * component)
    : pgm (list (string * (component * option ddata))) :=
  v <- act (ODrvGet (c_driver (snd kc)));;
  match v with
  | None => Raise AssertionError
  | Some v =>
      r <- act (ODriver (dv_port v) (CCapabilities (c_address (snd kc)) (c_channel (snd kc))));;
      x <- lift (caps_of r);;
      Ret (acc ++ [(fst kc, (snd kc, x))])%list
  end.
(** One pipeline (242-244): [vars(None)] raises TypeError. *)
Definition pipeline_status (acc : dict pipstate) (n : string) : pgm (dict pipstate) :=
  p <- act (OPipGet n);;
  match p with
  | None => Raise TypeError
  | Some p => Ret (dset acc n p)
  end.

(** status (106-256) *)
Definition status (sh : shows) (port : Z) (g : group) (yml : bool) : pgm sreply :=
  d <- act ODmGet;;
  match d with
  | None => Ret (mkS false ("tomato not running on port " ++ str_of_Z port) SdNone)
  | Some d =>
      let msg := "tomato running on port " ++ str_of_Z (dm_port d) in
      match g with
      | GTomato => Ret (mkS true msg (SdDaemon d))
      | GDevices =>
          let rets := df_devices (dm_df d) in
          m <- format msg "devices" yml ["name"; "driver"; "address"; "channels"]
                 (fun _ => map (row_device sh) (dvals rets));;
          Ret (mkS true m (SdDevices rets))
      | GDrivers =>
          drvs <- act ODrvsAll;;
          let rets := fold_left (fun a v => dset a (dv_name v) v) drvs [] in
          m <- format msg "drivers" yml ["name"; "port"; "pid"; "version"; "heartbeat"]
                 (fun t => map (row_driver sh t) (dvals rets));;
          Ret (mkS true m (SdDrivers rets))
      | GComponents =>
          rets <- forP component_status [] (df_components (dm_df d));;
          m <- format msg "components" yml ["name"; "driver"; "device"; "capabilities"]
                 (fun _ => map (row_component sh) (dvals rets));;
          Ret (mkS true m (SdComponents rets))
      | GPipelines =>
          rets <- forP pipeline_status [] (dkeys (df_pipelines (dm_df d)));;
          m <- format msg "pipelines" yml ["name"; "ready"; "sampleid"; "jobid"]
                 (fun _ => map row_pip (dvals rets));;
          Ret (mkS true m (SdPips rets))
      | GOther g => Ret (mkS false ("unknown stgrp: " ++ sh_repr sh g) SdNone)
      end
  end.
