(** * SpecTable: what a printed table must look like (C69) *)
From Coq Require Import List String Ascii Bool Arith.
Import ListNotations.
Open Scope string_scope.

(** A printed line is the sequence of its columns; a column is the key, a colon, the cell,
    and then only blanks, at least two. *)
Inductive column (key cell : string) : string -> Prop :=
| column_intro blanks : (forall i c, String.get i blanks = Some c -> c = " "%char) ->
    2 <= String.length blanks -> column key cell (key ++ ":" ++ cell ++ blanks).
(** [laid_out widths keys cells line]: the columns have the given widths. *)
Inductive laid_out : list nat -> list string -> list string -> string -> Prop :=
| laid_nil : laid_out [] [] [] ""
| laid_cons w ws k ks c cs x line :
    column k c x -> String.length x = w -> laid_out ws ks cs line ->
    laid_out (w :: ws) (k :: ks) (c :: cs) (x ++ line).
