(** * SpecIo: what the files of a job must contain (C61, C65 to C67) *)
From Coq Require Import List String Bool.
Import ListNotations.

(** The data stored for a role by a sequence of stores: [None] if there was none. *)
Definition kept (role : string) (l : list (string * list nat)) : option (list nat) :=
  match filter (fun rd => String.eqb (fst rd) role) l with
  | [] => None
  | f => Some (flat_map snd f)
  end.
