(** * SpecConfig: vocabulary for the properties of configuration loading

    Independent of the loops of [ConfigModel]: everything is stated on the raw
    content of the devices file. *)
From Coq Require Import List String ZArith Bool.
From Verif Require Import Base PyStr Types ConfigModel.
Import ListNotations.
Open Scope string_scope.

(** [x] is the last element of [l] that satisfies [P]. *)
Definition last_such {A : Type} (P : A -> Prop) (l : list A) (x : A) : Prop :=
  exists l1 l2, (l = l1 ++ x :: l2)%list /\ P x /\ Forall (fun y => ~ P y) l2.

(** The device called [n] in the file: the last entry with that name, complete. *)
Definition device_is (rf : rawfile) (n : string) (dev : device) : Prop :=
  exists rd, last_such (fun d => rd_name d = Some n) (rf_devices rf) rd /\
    d_name dev = n /\
    rd_driver rd = Some (d_driver dev) /\
    rd_address rd = Some (d_address dev) /\
    rd_channels rd = Some (d_channels dev) /\
    d_pollrate dev = match rd_pollrate rd with Some p => p | None => 1%Z end.

(** A pipeline name that stands for several pipelines. *)
Definition wildcard (n : string) : Prop := exists s, n = s ++ "*".

(** An entry of a pipeline definition selects device [dev]. *)
Definition on_device (rf : rawfile) (rc : rawcomp) (dev : device) : Prop :=
  exists dn, rc_device rc = Some dn /\ device_is rf dn dev.

(** Definition [rp] yields a pipeline called [pn]. *)
Definition yields (rf : rawfile) (rp : rawpip) (pn : string) : Prop :=
  exists n comps, rp_name rp = Some n /\ rp_devices rp = Some comps /\
    ((~ wildcard n /\ pn = n) \/
     (wildcard n /\ exists rc dev ch, comps = [rc] /\ on_device rf rc dev /\
        In ch (d_channels dev) /\ pn = replace_star n ch)).

(** Definition [rp] makes use of channel [ch] of device [dev]. *)
Definition makes_use (rf : rawfile) (rp : rawpip) (dev : device) (ch : string) : Prop :=
  exists n comps rc, rp_name rp = Some n /\ rp_devices rp = Some comps /\
    In rc comps /\ on_device rf rc dev /\
    ((~ wildcard n /\ rc_channel rc = Some ch) \/
     (wildcard n /\ In ch (d_channels dev))).

(** The name of the component for a channel of a device. *)
Definition component_name (dev : device) (ch : string) : string :=
  d_driver dev ++ ":(" ++ d_address dev ++ "," ++ ch ++ ")".

(** [m] is the role map that definition [rp] gives to the pipeline [pn] it yields. *)
Definition role_map (rf : rawfile) (rp : rawpip) (pn : string) (m : dict string) : Prop :=
  exists n comps, rp_name rp = Some n /\ rp_devices rp = Some comps /\
    ((~ wildcard n /\ NoDup (dkeys m) /\
      forall role cn, dget m role = Some cn <->
        exists rc dev ch,
          last_such (fun rc => rc_role rc = Some role) comps rc /\
          on_device rf rc dev /\ rc_channel rc = Some ch /\
          cn = component_name dev ch) \/
     (wildcard n /\ exists rc dev ch role, comps = [rc] /\ on_device rf rc dev /\
        In ch (d_channels dev) /\ pn = replace_star n ch /\
        rc_role rc = Some role /\ m = [(role, component_name dev ch)])).

(** Well-formed definitions (what a devices file must look like to be accepted). *)
Definition wf_device (d : rawdev) : Prop :=
  rd_name d <> None /\ rd_driver d <> None /\ rd_address d <> None /\ rd_channels d <> None.

Definition wf_entry (rf : rawfile) (rc : rawcomp) : Prop :=
  exists dev ch role, on_device rf rc dev /\ rc_channel rc = Some ch /\
    In ch (d_channels dev) /\ rc_role rc = Some role.

Definition wf_pipeline (rf : rawfile) (rp : rawpip) : Prop :=
  exists n comps, rp_name rp = Some n /\ rp_devices rp = Some comps /\
    ((~ wildcard n /\ Forall (wf_entry rf) comps) \/
     (wildcard n /\ exists rc dev, comps = [rc] /\ on_device rf rc dev /\
        rc_channel rc = Some "each" /\
        (d_channels dev <> [] -> rc_role rc <> None))).

Definition well_formed (rf : rawfile) : Prop :=
  Forall wf_device (rf_devices rf) /\ Forall (wf_pipeline rf) (rf_pipelines rf).

(** Referential closure of a loaded configuration (property C01). *)
Definition closed_config (df : devicefile) : Prop :=
  (forall pn p role cn,
      dget (df_pipelines df) pn = Some p -> dget (pp_components p) role = Some cn ->
      exists c, dget (df_components df) cn = Some c) /\
  (forall cn c, dget (df_components df) cn = Some c ->
      c_name c = cn /\
      (exists dev, dget (df_devices df) (c_device c) = Some dev /\
         d_name dev = c_device c /\ d_driver dev = c_driver c /\
         d_address dev = c_address c /\ In (c_channel c) (d_channels dev)) /\
      (exists d, dget (df_drivers df) (c_driver c) = Some d /\ dr_name d = c_driver c)) /\
  (forall dn, In dn (dkeys (df_drivers df)) ->
      exists cn c, dget (df_components df) cn = Some c /\ c_driver c = dn) /\
  NoDup (dkeys (df_pipelines df)) /\ NoDup (dkeys (df_components df)) /\
  NoDup (dkeys (df_devices df)) /\ NoDup (dkeys (df_drivers df)).
