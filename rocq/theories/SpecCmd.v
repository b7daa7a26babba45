(** * SpecCmd: vocabulary for the daemon commands *)
From Coq Require Import List String ZArith Bool.
From Verif Require Import Base PyStr Types ConfigModel World Replies.
Import ListNotations.

(** Every table of a settings file has distinct keys, as TOML guarantees. *)
Definition wf_settings (st : settings) : Prop :=
  forall tbl, st_drivers st = Some tbl ->
    NoDup (dkeys tbl) /\ (forall n t, dget tbl n = Some t -> NoDup (dkeys t)).
Definition wf_files (cf : cfgfiles) : Prop :=
  forall st, cf_settings cf = Some st -> wf_settings st.

(** A daemon whose configuration was read from files. *)
Definition configured (d : daemon) : Prop :=
  exists cf, wf_files cf /\ load_daemon cf (dm_status d) (dm_port d) = Ok d.

(** The new configuration keeps what the pipelines that hold a job use: the
    pipeline with the same roles and components, the components with the same
    driver, address and channel, and the drivers with the same settings. *)
Definition keeps (pips : list pipstate) (old new : devicefile) : Prop :=
  forall ps id, In ps pips -> p_jobid ps = Some id ->
  exists p p',
    dget (df_pipelines old) (p_name ps) = Some p /\
    dget (df_pipelines new) (p_name ps) = Some p' /\
    (forall role, dget (pp_components p') role = dget (pp_components p) role) /\
    (forall role cn, dget (pp_components p) role = Some cn ->
     exists c c',
       dget (df_components old) cn = Some c /\ dget (df_components new) cn = Some c' /\
       c_driver c' = c_driver c /\ c_address c' = c_address c /\ c_channel c' = c_channel c /\
       exists v v',
         dget (df_drivers old) (c_driver c) = Some v /\
         dget (df_drivers new) (c_driver c) = Some v' /\
         forall k, dget (dr_settings v') k = dget (dr_settings v) k).

(** Every pipeline that holds a job is part of the configuration. *)
Definition occupied_configured (pips : list pipstate) (df : devicefile) : Prop :=
  forall ps id, In ps pips -> p_jobid ps = Some id ->
    In (p_name ps) (dkeys (df_pipelines df)).

(** In the order of the records, a pipeline that holds a job and is not part of the present
    configuration comes before any pipeline with a job that is lost or changed. *)
Definition stumbles (pips : list pipstate) (old new : devicefile) : Prop :=
  exists before ps after id,
    pips = (before ++ ps :: after)%list /\ p_jobid ps = Some id /\
    dget (df_pipelines old) (p_name ps) = None /\
    forall q id', In q before -> p_jobid q = Some id' ->
      exists p p', dget (df_pipelines old) (p_name q) = Some p /\ dget (df_pipelines new) (p_name q) = Some p' /\
        forall role, dget (pp_components p') role = dget (pp_components p) role.

(** [l'] is [l] completed with a default record for each name of [names] that
    has none; existing records keep their place and content. *)
Definition completed {A : Type} (name : A -> string) (dflt : string -> A)
    (names : list string) (l l' : list A) : Prop :=
  exists new, (l' = l ++ new)%list /\ NoDup (map name new) /\
    (forall a, In a new <-> exists n, In n names /\ ~ In n (map name l) /\ a = dflt n).

(** ** Why a reload is refused *)

(** Parts of the configuration [df] that pipelines with a job use. *)
Definition used_pipeline (pips : list pipstate) (df : devicefile) (p : pipeline) : Prop :=
  exists ps id, In ps pips /\ p_jobid ps = Some id /\ dget (df_pipelines df) (p_name ps) = Some p.
Definition used_component (pips : list pipstate) (df : devicefile) (c : component) : Prop :=
  exists p role cn, used_pipeline pips df p /\ dget (pp_components p) role = Some cn /\
    dget (df_components df) cn = Some c.
Definition used_driver (pips : list pipstate) (df : devicefile) (v : driver) : Prop :=
  exists c, used_component pips df c /\ dget (df_drivers df) (c_driver c) = Some v.

(** The reply [r] names something that is used and would be lost or changed. *)
Inductive refusal (pips : list pipstate) (old new : devicefile) : reply -> Prop :=
| RefDeletePip p : used_pipeline pips old p -> dget (df_pipelines new) (pp_name p) = None ->
    refusal pips old new (mkReply false MDeletePip (RPipeline p))
| RefModifyPip p p' : used_pipeline pips old p -> dget (df_pipelines new) (pp_name p) = Some p' ->
    ~ (forall role, dget (pp_components p') role = dget (pp_components p) role) ->
    refusal pips old new (mkReply false MModifyPip (RPipeline p))
| RefDeleteComp c : used_component pips old c -> dget (df_components new) (c_name c) = None ->
    refusal pips old new (mkReply false MDeleteComp (RComponent c))
| RefModifyComp c c' : used_component pips old c -> dget (df_components new) (c_name c) = Some c' ->
    ~ (c_driver c' = c_driver c /\ c_address c' = c_address c /\ c_channel c' = c_channel c) ->
    refusal pips old new (mkReply false MModifyComp (RComponent c))
| RefModifyDrv v v' : used_driver pips old v -> dget (df_drivers new) (dr_name v) = Some v' ->
    ~ (forall k, dget (dr_settings v') k = dget (dr_settings v) k) ->
    refusal pips old new (mkReply false MModifyDrv (RDrvSettings (dr_settings v))).
