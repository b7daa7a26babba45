(** * PyStr: the string operations used by the modelled code

    Python strings are sequences of Unicode code points; here they are Coq
    [string]s, i.e. sequences of 8-bit characters.  Only equality,
    concatenation, ['*'] replacement, suffix tests, SQL [LIKE] and length are
    used, so nothing depends on the encoding except the [LIKE] case folding,
    which SQLite itself restricts to ASCII. *)
From Coq Require Import List String Ascii ZArith Bool DecimalString Decimal.
Import ListNotations.
Open Scope string_scope.

(** [s.endswith("*")]  (models.py:180) *)
Fixpoint ends_with_star (s : string) : bool :=
  match s with
  | EmptyString => false
  | String c EmptyString => Ascii.eqb c "*"
  | String _ r => ends_with_star r
  end.

(** [s.replace("*", ch)]  (models.py:193): every ['*'] is replaced. *)
Fixpoint replace_star (s ch : string) : string :=
  match s with
  | EmptyString => EmptyString
  | String c r => if Ascii.eqb c "*" then ch ++ replace_star r ch
                  else String c (replace_star r ch)
  end.

(** [str(i)] for an integer (daemon/job.py:270, ketchup/__init__.py:304). *)
Definition str_of_Z (z : Z) : string := NilZero.string_of_int (Z.to_int z).

(** ASCII lower-casing, as used by SQLite's default [LIKE]. *)
Definition lower (c : ascii) : ascii :=
  let n := nat_of_ascii c in
  if (Nat.leb 65 n && Nat.leb n 90)%bool then ascii_of_nat (n + 32) else c.

(** SQLite [text LIKE pattern]: ['%'] matches any sequence, ['_'] any single
    character, all other characters match themselves, ASCII letters
    case-insensitively (ketchup/__init__.py:338). *)
Fixpoint like (pat : string) : string -> bool :=
  match pat with
  | EmptyString => fun s => match s with EmptyString => true | _ => false end
  | String p pr =>
      if Ascii.eqb p "%" then
        fix any (s : string) : bool :=
          like pr s || match s with EmptyString => false | String _ r => any r end
      else fun s =>
        match s with
        | EmptyString => false
        | String c r => (Ascii.eqb p "_" || Ascii.eqb (lower p) (lower c)) && like pr r
        end
  end.

(** Does the string contain character [c]? *)
Fixpoint has_char (c : ascii) (s : string) : bool :=
  match s with
  | EmptyString => false
  | String d r => Ascii.eqb c d || has_char c r
  end.

(** Text between single quotes in an SQL statement built by an f-string
    (pipdb.py:30, drvdb.py:40, ketchup/__init__.py:338): [sql_lit s] is the
    string value of the literal ['s'], or [None] when a stray quote ends the
    literal early.  In the latter case the real statement is either a syntax
    error or an SQL injection; the model treats it as a syntax error
    (simplification: injections are not modelled). *)
Fixpoint sql_lit (s : string) : option string :=
  match s with
  | EmptyString => Some EmptyString
  | String "'" (String "'" r) =>
      match sql_lit r with Some t => Some (String "'" t) | None => None end
  | String "'" _ => None
  | String c r =>
      match sql_lit r with Some t => Some (String c t) | None => None end
  end.
