(** * SpecCli: what command lines mean, stated without the parser of CliModel.v *)
From Coq Require Import List String Ascii ZArith Bool.
From Verif Require Import Base PyStr CliModel.
Import ListNotations.
Open Scope string_scope.
Open Scope Z_scope.

(** The three programs. *)
Definition programs : list (list subcmd) := [tomato_subs; ketchup_subs; passata_subs].

(** How often one of the words [sw] stands in a line. *)
Definition occ (sw l : list string) : Z :=
  Z.of_nat (List.length (filter (fun t => existsb (String.eqb t) sw) l)).
Definition verbose_words : list string := ["--verbose"; "-v"].
Definition quiet_words : list string := ["--quiet"; "-q"].

(** The documented log level: INFO (20), one level of ten lower per "-v", one higher per "-q",
    between DEBUG (10) and CRITICAL (50). *)
Definition log_level (quiet verbose : Z) : Z :=
  if quiet - verbose <=? -1 then 10 else if 3 <=? quiet - verbose then 50 else 20 + 10 * (quiet - verbose).

(** The parameters of the functions behind the subcommands, from their signatures
    (/repo/src/tomato/tomato/__init__.py:106-112, 259-265, 333-337, 375-380, 462-467, 511-517,
    550-555, 595-600; ketchup/__init__.py:37-42, 124-128, 202-206, 266-270, 313-318;
    passata/__init__.py:78-83, 105-110, 131-136, 159-164, 187-192, 215-221, 293-299), without
    [daemon] and [verbosity], which parse_args adds. *)
Inductive ckind : Type := KInt | KText | KBool | KMaybe | KInts | KTexts.
Definition is_int (v : cval) : bool := match v with CInt _ => true | _ => false end.
Definition is_text (v : cval) : bool := match v with CStr _ => true | _ => false end.
Definition of_kind (k : ckind) (v : cval) : bool :=
  match k, v with
  | KInt, CInt _ => true
  | KText, CStr _ => true
  | KBool, CBool _ => true
  | KMaybe, (CStr _ | CNone) => true
  | KInts, CList l => forallb is_int l
  | KTexts, CList l => forallb is_text l
  | _, _ => false
  end.
Definition expects (func : string) : list (string * ckind) :=
  match func with
  | "tomato.status" => [("port", KInt); ("timeout", KInt); ("stgrp", KText); ("yaml", KBool)]
  | "tomato.start" => [("port", KInt); ("timeout", KInt); ("appdir", KText)]
  | "tomato.stop" => [("port", KInt); ("timeout", KInt)]
  | "tomato.init" => [("appdir", KText); ("datadir", KText); ("logdir", KText)]
  | "tomato.reload" => [("port", KInt); ("timeout", KInt); ("appdir", KText)]
  | "tomato.pipeline_load" => [("port", KInt); ("timeout", KInt); ("pipeline", KText); ("sampleid", KText)]
  | "tomato.pipeline_eject" | "tomato.pipeline_ready" => [("port", KInt); ("timeout", KInt); ("pipeline", KText)]
  | "ketchup.submit" => [("payload", KText); ("jobname", KMaybe)]
  | "ketchup.status" | "ketchup.cancel" | "ketchup.snapshot" => [("jobids", KInts)]
  | "ketchup.search" => [("jobname", KText)]
  | "passata.status" | "passata.attrs" | "passata.register" | "passata.capabilities" | "passata.constants" =>
      [("port", KInt); ("timeout", KInt); ("name", KText)]
  | "passata.reset" => [("port", KInt); ("timeout", KInt); ("name", KText); ("force", KBool)]
  | "passata.get_attrs" => [("port", KInt); ("timeout", KInt); ("name", KText); ("attrs", KTexts); ("yaml", KBool)]
  | _ => []
  end.

(** Words that do not start with a dash. *)
Definition plain (t : string) : Prop := match t with String "-" _ => False | _ => True end.
(** The word [t] stands for the value [v]. *)
Definition stands_for (int : bool) (t : string) (v : cval) : Prop :=
  plain t /\ if int then exists z, 0 <= z /\ t = str_of_Z z /\ v = CInt z else v = CStr t.
(** The words [ts] are exactly the positional arguments [acts]; [vals] are their values. *)
Definition allowed (a : posarg) (t : string) : Prop :=
  match pa_choices a with Some l => In t l | None => True end.
Inductive fits : list posarg -> list string -> list (string * cval) -> Prop :=
  | fits_none : fits [] [] []
  | fits_one a r t ts v l : pa_arity a = AOne \/ pa_arity a = AOpt -> stands_for (pa_int a) t v -> allowed a t ->
      fits r ts l -> fits (a :: r) (t :: ts) ((pa_dest a, v) :: l)
  | fits_left a : pa_arity a = AOpt \/ pa_arity a = AStar -> fits [a] [] [(pa_dest a, pa_default a)]
  | fits_many a t ts v vs : pa_arity a = APlus \/ pa_arity a = AStar -> Forall2 (stands_for (pa_int a)) (t :: ts) (v :: vs) ->
      fits [a] (t :: ts) [(pa_dest a, CList (v :: vs))].

(** An option as written: one of its names, the value if it takes one, and what it sets. *)
Record given : Type := mkGiven { g_opt : optarg; g_name : string; g_word : option string; g_value : cval }.
Definition well_given (s : subcmd) (g : given) : Prop :=
  In (g_opt g) (sc_opts s ++ o_counts)%list /\ In (g_name g) (oa_names (g_opt g)) /\
  match oa_kind (g_opt g) with
  | OFlag => g_word g = None /\ g_value g = CBool true
  | OCount => g_word g = None
  | OValue int _ => exists t, g_word g = Some t /\ stands_for int t (g_value g)
  | OExit => False
  end.
Definition written (g : given) : list string :=
  match g_word g with Some t => [g_name g; t] | None => [g_name g] end.
(** The value an option has: the one written last, or its default. *)
Fixpoint last_given (d : string) (gs : list given) (default : cval) : cval :=
  match gs with
  | [] => default
  | g :: r => last_given d r (if String.eqb (oa_dest (g_opt g)) d then g_value g else default)
  end.
Definition default_of (o : optarg) : cval :=
  match oa_kind o with OFlag => CBool false | OValue _ d => d | _ => CNone end.
Definition takes_value (o : optarg) : Prop :=
  match oa_kind o with OFlag | OValue _ _ => True | _ => False end.

(** An option is of use to a subcommand of tomato ([is_tomato]) or of the other tools if its
    function takes it or parse_args looks at it (/repo/src/tomato/__init__.py:34-50). *)
Definition of_use (is_tomato : bool) (s : subcmd) (o : optarg) : Prop :=
  In (oa_dest o) (map fst (expects (sc_func s))) \/ oa_dest o = "yaml" \/
  (is_tomato = false /\ In (oa_dest o) ["port"; "timeout"]).
