(** * SpecCli3: why a command line is refused (C81) *)
From Coq Require Import List String Ascii ZArith Bool.
From Verif Require Import Base PyStr CliModel SpecCli SpecCli2.
Import ListNotations.
Open Scope string_scope.
Open Scope Z_scope.

(** The pieces [ps] are a proper use of the options [opts] and of the arguments [acts], and
    the arguments [left] have not been given by them. *)
Inductive part_read (opts : list optarg) : list posarg -> list piece -> list posarg -> Prop :=
| pr_end acts : part_read opts acts [] acts
| pr_flag acts o name ps left : In o opts -> In name (oa_names o) -> oa_kind o = OFlag -> part_read opts acts ps left ->
    part_read opts acts (POption o name None (CBool true) :: ps) left
| pr_value acts o name int df t v ps left : In o opts -> In name (oa_names o) -> oa_kind o = OValue int df ->
    reads int t v -> part_read opts acts ps left -> part_read opts acts (POption o name (Some t) v :: ps) left
| pr_one a acts t v ps left : pa_arity a = AOne \/ pa_arity a = AOpt -> reads (pa_int a) t v ->
    (pa_int a = false -> allowed a t) -> part_read opts acts ps left ->
    part_read opts (a :: acts) (PArg a [t] v :: ps) left
| pr_many a acts t ts vs ps left : pa_arity a = AStar \/ pa_arity a = APlus -> Forall2 (reads (pa_int a)) (t :: ts) vs ->
    part_read opts acts ps left -> part_read opts (a :: acts) (PArg a (t :: ts) (CList vs) :: ps) left
| pr_unknown acts t ps left : dashed t -> (forall o, In o opts -> ~ In t (oa_names o)) ->
    part_read opts acts ps left -> part_read opts acts (PIgnored t :: ps) left
| pr_surplus t ps left : part_read opts [] ps left -> part_read opts [] (PIgnored t :: ps) left.

(** What is wrong with the words [l] when the arguments [left] have not been given yet. *)
Inductive fault (opts : list optarg) (left : list posarg) : list string -> Prop :=
(* the line ends and a required argument was not given *)
| f_missing a : In a left -> ~ may_miss a -> fault opts left []
(* an option that needs a value is last, or is followed by something like an option *)
| f_no_value o name int df l : In o opts -> In name (oa_names o) -> oa_kind o = OValue int df ->
    (l = [] \/ exists t r, l = t :: r /\ dashed t) -> fault opts left (name :: l)
(* the value of an option is not an integer, but has to be *)
| f_value o name df t l : In o opts -> In name (oa_names o) -> oa_kind o = OValue true df ->
    int_of t = None -> fault opts left (name :: t :: l)
(* a word is not possible as the next argument *)
| f_word a r t l : left = a :: r -> pa_arity a = AOne \/ pa_arity a = AOpt ->
    (if pa_int a then int_of t = None else ~ allowed a t) -> fault opts left (t :: l)
(* one of the words of the next argument is not an integer, but has to be *)
| f_words a r ts t l : left = a :: r -> pa_arity a = AStar \/ pa_arity a = APlus -> pa_int a = true ->
    In t ts -> int_of t = None -> fault opts left (ts ++ l).

(** The line does not name a subcommand: after the words [path], with which the path of some
    subcommand begins, there are only dashed words, or the next other word continues no path. *)
Definition lost (subs : list subcmd) (toks : list string) : Prop :=
  exists path fronts rest, List.length fronts = List.length path /\ Forall (Forall dashed) fronts /\
    toks = (fronted fronts path ++ rest)%list /\
    (exists s q, In s subs /\ sc_path s = (path ++ q)%list /\ q <> []) /\
    (Forall dashed rest \/
     exists f name more, rest = (f ++ name :: more)%list /\ Forall dashed f /\
       forall s q, In s subs -> sc_path s <> (path ++ name :: q)%list).

(** The line asks for help or the version. *)
Definition asks (t : string) : Prop := In t ["-h"; "--help"; "--version"].

(** The spellings that are not modelled: the end of options, values attached by "=",
    abbreviated long options, clusters of short options or values attached to them, and
    words like "-1.5". *)
Definition unusual (opts : list optarg) (t : string) : Prop :=
  t = "--" \/ (dashed t /\ has_char "=" t = true) \/
  (exists r o n, t = String "-" (String "-" r) /\ In o opts /\ In n (oa_names o) /\ prefix t n = true) \/
  (exists c r o, t = String "-" (String c r) /\ In o opts /\ In (String "-" (String c "")) (oa_names o) /\ r <> "") \/
  (exists c r, t = String "-" (String c r) /\ int_of t = None /\ (c = "."%char \/ (48 <= nat_of_ascii c <= 57)%nat)).

(** The option sets of the parsers of a program. *)
Definition parsers (subs : list subcmd) : list (list optarg) :=
  (o_main :: [o_help] :: o_counts :: map sc_opts subs)%list.
