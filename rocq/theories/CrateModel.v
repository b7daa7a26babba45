(** * CrateModel: RO-crates of finished jobs

    Models /repo/src/tomato/daemon/crates.py and its call in
    /repo/src/tomato/daemon/job.py:478-489.  Definitions only.

    Of the library rocrate: a crate is a dictionary of entities by identifier;
    [crate.add] stores an entity under its identifier, in place of an earlier one;
    an entity without identifier gets a fresh one ([KFresh]); [add_file] stores a file
    under the last part of its path and makes it a part of the root dataset;
    [entity[p] = e] sets one property.  Simplifications: writing the archive succeeds
    (a failure is the oracle [w_crate] of World); the path of the result is absolute
    and free of links, so that [resolve] (io.py:45) keeps it. *)
From Coq Require Import List String Ascii ZArith Bool.
From Verif Require Import Base PyStr Types World JobModel.
Import ListNotations.
Open Scope string_scope.
Open Scope Z_scope.

(** Identifiers of entities. *)
Inductive ekey : Type := KRoot | KNamed (s : string) | KFresh | KFile (name : string).
Definition ekey_eqb (a b : ekey) : bool :=
  match a, b with
  | KRoot, KRoot | KFresh, KFresh => true
  | KNamed s, KNamed t | KFile s, KFile t => String.eqb s t
  | _, _ => false
  end.

(** The types of entities: crates.py:26-42 and those of the library. *)
Inductive etype : Type := EDataset | EProfile | EPerson | EObject | EFile (source : string).

(** An entity with the properties that the code sets. *)
Record entity : Type := mkEnt {
  en_type : etype;
  en_parts : list ekey;          (* hasPart *)
  en_author : option ekey;
  en_conforms : option ekey
}.
Definition crate : Type := list (ekey * entity).
Definition ent (t : etype) : entity := mkEnt t [] None None.

Fixpoint cr_get (c : crate) (k : ekey) : option entity :=
  match c with
  | [] => None
  | (k', e) :: r => if ekey_eqb k' k then Some e else cr_get r k
  end.
(** [crate.add] *)
Fixpoint cr_put (c : crate) (k : ekey) (e : entity) : crate :=
  match c with
  | [] => [(k, e)]
  | (k', e') :: r => if ekey_eqb k' k then (k, e) :: r else (k', e') :: cr_put r k e
  end.
(** Setting properties of an entity of the crate. *)
Definition cr_mod (c : crate) (k : ekey) (f : entity -> entity) : crate :=
  match cr_get c k with Some e => cr_put c k (f e) | None => c end.

(** PROFILE_URI (line 22) *)
Definition profile_uri : string := "https://github.com/MADICES/MADICES-2025/discussions/25".

(** The last part of a path. *)
Fixpoint base_name (s : string) : string :=
  match s with
  | EmptyString => EmptyString
  | String c r => if has_char "/" s then base_name r else s
  end.

(** [datapath[:-3]] (line 70) *)
Definition drop3 (s : string) : string := substring 0 (String.length s - 3) s.
Definition crate_path (datapath : string) : string := drop3 datapath ++ ".zip".

(** to_rocrate (lines 45-72): the archive that is written and its path *)
Definition to_rocrate (installed : bool) (datapath userid sampleid : string) (make_child : bool)
    : option (string * crate) :=
  if negb installed then None
  else
    let c := [(KRoot, ent EDataset)] in
    let c := cr_put c (KNamed profile_uri) (ent EProfile) in
    let c := cr_put c (KNamed userid) (ent EPerson) in
    let c := cr_put c (KNamed sampleid) (ent EObject) in
    let c := if make_child then
               cr_mod (cr_put c KFresh (ent EObject)) (KNamed sampleid)
                 (fun e => mkEnt (en_type e) [KFresh] (en_author e) (en_conforms e))
             else c in
    let target := if make_child then KFresh else KNamed sampleid in
    let file := KFile (base_name datapath) in
    let c := cr_put c file (mkEnt (EFile datapath) [] (Some (KNamed userid)) None) in
    let c := cr_mod c KRoot (fun e => mkEnt (en_type e) (en_parts e ++ [file])%list (en_author e) (en_conforms e)) in
    let c := cr_mod c KRoot (fun e => mkEnt (en_type e) (en_parts e) (en_author e) (Some (KNamed profile_uri))) in
    let c := cr_mod c target (fun e => mkEnt (en_type e) [KRoot] (en_author e) (en_conforms e)) in
    Some (crate_path datapath, c).

(** job.py:479-489, for a job whose result is in [datapath] *)
Definition job_crate (installed : bool) (a : jobargs) (datapath : string) : option (string * crate) :=
  match ja_repos a with
  | [] => None
  | _ => to_rocrate installed datapath (pl_user (ja_payload a)) (pl_sample (ja_payload a))
           (pl_is_parent (ja_payload a))
  end.
