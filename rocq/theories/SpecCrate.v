(** * SpecCrate: what a crate has to contain (C90) *)
From Coq Require Import List String Ascii ZArith Bool.
From Verif Require Import Base PyStr Types World CrateModel.
Import ListNotations.
Open Scope string_scope.
Open Scope Z_scope.

(** [k] is an entity of the crate with part [p]. *)
Definition part (c : crate) (k p : ekey) : Prop :=
  exists e, cr_get c k = Some e /\ In p (en_parts e).
(** [p] belongs to [k], directly or not. *)
Inductive belongs (c : crate) : ekey -> ekey -> Prop :=
| B_one k p : part c k p -> belongs c k p
| B_more k m p : part c k m -> belongs c m p -> belongs c k p.

(** The data are in the crate, with their author; they belong to the sample. *)
Definition describes (c : crate) (datapath name userid sampleid : string) : Prop :=
  (exists e, cr_get c (KFile name) = Some e /\ en_type e = EFile datapath /\
     en_author e = Some (KNamed userid)) /\
  (exists e, cr_get c (KNamed userid) = Some e /\ en_type e = EPerson) /\
  (exists e, cr_get c (KNamed sampleid) = Some e /\ en_type e = EObject) /\
  belongs c (KNamed sampleid) (KFile name) /\
  (forall k e s, cr_get c k = Some e -> en_type e = EFile s -> k = KFile name).

(** A payload that names a repository of the settings. *)
Definition asks_repository (d : daemon) (p : payload) : Prop :=
  exists r, In r (pl_repos p) /\ In r (map fst (st_repos (dm_settings d))).
