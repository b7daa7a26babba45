(** * SpecPip: vocabulary for pipeline records *)
From Coq Require Import List String ZArith.
From Verif Require Import Base PyStr Types World.
Import ListNotations.

(** A pipeline of the daemon's configuration. *)
Definition configured_pip (w : world) (n : string) : Prop :=
  exists d, w_daemon w = Some d /\ In n (dkeys (df_pipelines (dm_df d))).

(** Only the record of pipeline [n] changed, and it is now [p']. *)
Definition only_pip (n : string) (p' : pipstate) (w w' : world) : Prop :=
  w' = set_pips w (w_pips w') /\
  map p_name (w_pips w') = map p_name (w_pips w) /\
  get_pip (w_pips w') n = Some p' /\
  forall m, m <> n -> get_pip (w_pips w') m = get_pip (w_pips w) m.
