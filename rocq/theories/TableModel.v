(** * TableModel: the tables printed by "tomato status"

    Models /repo/src/tomato/tomato/__init__.py: make_padded_lines (49-84) and format_msg
    (87-103).  Definitions only.

    Simplifications: a row is the dict of its cells as strings, i.e. after [str(...)]
    (63-66, 79-82) or, for "heartbeat", after formatting the age (56-60, 72-76), for which
    both passes use the same clock reading tN (53); a missing key raises KeyError (for an
    object that is not a dict: AttributeError); strings are sequences of bytes, so that
    [len] counts bytes, not code points. *)
From Coq Require Import List String Ascii Bool Arith.
From Verif Require Import Base.
Import ListNotations.
Open Scope string_scope.

Definition row : Type := dict string.

(** [obj[key]] (63, 79) *)
Definition cell (r : row) (k : string) : res string :=
  match dget r k with Some v => Ok v | None => Err KeyError end.

(** [n] spaces; [f"{val:<{n}}"] (80). *)
Fixpoint spaces (n : nat) : string := match n with O => "" | S m => String " " (spaces m) end.
Definition pad (v : string) (n : nat) : string := v ++ spaces (n - String.length v).

(** The lengths collected in the first pass (54-66): one pass over all rows and keys, in
    that order. *)
Fixpoint lens_row (r : row) (keys : list string) (temp : dict (list nat)) : res (dict (list nat)) :=
  match keys with
  | [] => Ok temp
  | k :: ks =>
      match cell r k with
      | Err e => Err e
      | Ok v => lens_row r ks (dset temp k (match dget temp k with Some l => l | None => [] end ++ [String.length v])%list)
      end
  end.
Fixpoint lens (rows : list row) (keys : list string) (temp : dict (list nat)) : res (dict (list nat)) :=
  match rows with
  | [] => Ok temp
  | r :: rs => match lens_row r keys temp with Err e => Err e | Ok t => lens rs keys t end
  end.

(** [max(temp[key])] (68): ValueError for an empty list; a missing key of the defaultdict
    is an empty list. *)
Definition max_of (temp : dict (list nat)) (k : string) : res nat :=
  match dget temp k with
  | Some (x :: l) => Ok (fold_left Nat.max l x)
  | _ => Err ValueError
  end.
Fixpoint maxlens (temp : dict (list nat)) (keys : list string) (m : dict nat) : res (dict nat) :=
  match keys with
  | [] => Ok m
  | k :: ks => match max_of temp k with Err e => Err e | Ok n => maxlens temp ks (dset m k n) end
  end.

(** One line (70-81). *)
Fixpoint line_of (m : dict nat) (r : row) (keys : list string) : res string :=
  match keys with
  | [] => Ok ""
  | k :: ks =>
      match cell r k with
      | Err e => Err e
      | Ok v =>
          match dget m k with
          | None => Err KeyError
          | Some n => match line_of m r ks with
                      | Err e => Err e
                      | Ok rest => Ok (k ++ ":" ++ pad v (n + 2) ++ rest)
                      end
          end
      end
  end.
Fixpoint lines_of (m : dict nat) (rows : list row) (keys : list string) : res (list string) :=
  match rows with
  | [] => Ok []
  | r :: rs =>
      match line_of m r keys with
      | Err e => Err e
      | Ok l => match lines_of m rs keys with Err e => Err e | Ok ls => Ok (l :: ls) end
      end
  end.

(** make_padded_lines (49-84) *)
Definition make_padded_lines (data : list row) (keys : list string) : res (list string) :=
  match lens data keys [] with
  | Err e => Err e
  | Ok temp => match maxlens temp keys [] with
               | Err e => Err e
               | Ok m => lines_of m data keys
               end
  end.

(** format_msg (87-103); ["\n\t".join(lines)] *)
Definition nl_tab : string := String "010" (String "009" "").
Fixpoint join (sep : string) (l : list string) : string :=
  match l with [] => "" | [x] => x | x :: r => x ++ sep ++ join sep r end.
Definition format_msg (msg objs : string) (yml : bool) (keys : list string) (data : list row) : res string :=
  if yml then Ok ""
  else match make_padded_lines data keys with
       | Err e => Err e
       | Ok [] => Ok (msg ++ " with no " ++ objs)
       | Ok ls => Ok (msg ++ " with the following " ++ objs ++ ":" ++ nl_tab ++ join nl_tab ls)
       end.
