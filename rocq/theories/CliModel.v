(** * CliModel: the command lines of tomato, ketchup and passata

    Models /repo/src/tomato/__init__.py: parse_args (25-50), the parsers of run_tomato
    (53-166), run_ketchup (169-287) and run_passata (290-375), and what Python's argparse
    does for parsers of this shape.  Definitions only.

    Simplifications: abbreviated long options, "--option=value", clusters of short options,
    "--" and arguments like "-1.5" are recognised but not interpreted ([CUnmodelled]);
    integers are decimal numerals with an optional minus sign; the default folders
    (appdirs) are opaque; the text of usage messages is left out. *)
From Coq Require Import List String Ascii ZArith Bool DecimalString.
From Verif Require Import Base PyStr.
Import ListNotations.
Open Scope string_scope.
Open Scope Z_scope.

(** ** Parsers *)

(** [nargs] of a positional argument: none, "?", "*", "+". *)
Inductive arity : Type := AOne | AOpt | AStar | APlus.
(** The values of arguments. *)
Inductive cval : Type := CNone | CStr (s : string) | CInt (z : Z) | CBool (b : bool) | CList (l : list cval).
(** [add_argument] without a dash, e.g. /repo/src/tomato/__init__.py:67-73. *)
Record posarg : Type := mkPos {
  pa_dest : string; pa_arity : arity; pa_int : bool; pa_choices : option (list string); pa_default : cval
}.
(** [action="store_true"]; [type=int] or not; [action="count"]; help and version. *)
Inductive okind : Type := OFlag | OValue (int : bool) (default : cval) | OCount | OExit.
(** [add_argument] with dashes, e.g. /repo/src/tomato/__init__.py:121-140. *)
Record optarg : Type := mkOpt { oa_names : list string; oa_dest : string; oa_kind : okind }.

(** A subcommand: its path below the program, its function, arguments and options. *)
Record subcmd : Type := mkSub {
  sc_path : list string; sc_func : string; sc_pos : list posarg; sc_opts : list optarg
}.

(** [add_help] is true for subparsers. *)
Definition o_help : optarg := mkOpt ["-h"; "--help"] "help" OExit.
(** /repo/src/tomato/__init__.py:104-118 (tomato), 179-193 (ketchup), 300-314 (passata). *)
Definition o_counts : list optarg :=
  [ mkOpt ["--verbose"; "-v"] "verbose" OCount; mkOpt ["--quiet"; "-q"] "quiet" OCount ].
(** "--version": /repo/src/tomato/__init__.py:56-60, 171-175, 292-296. *)
Definition o_main : list optarg := (mkOpt ["--version"] "version" OExit :: o_counts)%list.
(** /repo/src/tomato/__init__.py:120-140, 265-285, 334-353. *)
Definition o_common : list optarg :=
  [ mkOpt ["--port"; "-p"] "port" (OValue true (CInt 1234));
    mkOpt ["--timeout"] "timeout" (OValue true (CInt 3000));
    mkOpt ["--yaml"; "-y"] "yaml" OFlag ].
(** /repo/src/tomato/__init__.py:142-149, 151-157, 158-164. *)
Definition o_appdir : optarg := mkOpt ["--appdir"; "-A"] "appdir" (OValue false (CStr "user_config_dir")).
Definition o_datadir : optarg := mkOpt ["--datadir"; "-D"] "datadir" (OValue false (CStr "user_data_dir")).
Definition o_logdir : optarg := mkOpt ["--logdir"; "-L"] "logdir" (OValue false (CStr "user_log_dir")).

(** A positional argument without further settings, e.g. /repo/src/tomato/__init__.py:93. *)
Definition one (d : string) : posarg := mkPos d AOne false None CNone.

(** run_tomato: /repo/src/tomato/__init__.py:64-102. *)
Definition tomato_subs : list subcmd :=
  [ mkSub ["status"] "tomato.status"
      [mkPos "stgrp" AOpt false (Some ["tomato"; "pipelines"; "drivers"; "devices"; "components"]) (CStr "tomato")]
      (o_help :: o_common);
    mkSub ["start"] "tomato.start" [] (o_help :: o_common ++ [o_appdir])%list;
    mkSub ["stop"] "tomato.stop" [] (o_help :: o_common);
    mkSub ["init"] "tomato.init" [] (o_help :: o_common ++ [o_appdir; o_datadir; o_logdir])%list;
    mkSub ["reload"] "tomato.reload" [] (o_help :: o_common ++ [o_appdir])%list;
    mkSub ["pipeline"; "load"] "tomato.pipeline_load" [one "pipeline"; one "sampleid"] (o_help :: o_common);
    mkSub ["pipeline"; "eject"] "tomato.pipeline_eject" [one "pipeline"] (o_help :: o_common);
    mkSub ["pipeline"; "ready"] "tomato.pipeline_ready" [one "pipeline"] (o_help :: o_common) ].
(** run_ketchup: /repo/src/tomato/__init__.py:195-263. *)
(** /repo/src/tomato/__init__.py:212-221, 225-234, 238-247. *)
Definition jobids (a : arity) : posarg := mkPos "jobids" a true None (CList []).
Definition ketchup_subs : list subcmd :=
  [ mkSub ["submit"] "ketchup.submit" [one "payload"]
      (o_help :: mkOpt ["-j"; "--jobname"] "jobname" (OValue false CNone) :: o_common);
    mkSub ["status"] "ketchup.status" [jobids AStar] (o_help :: o_common);
    mkSub ["cancel"] "ketchup.cancel" [jobids APlus] (o_help :: o_common);
    mkSub ["snapshot"] "ketchup.snapshot" [jobids APlus] (o_help :: o_common);
    mkSub ["search"] "ketchup.search" [one "jobname"]
      (o_help :: mkOpt ["-c"; "--complete"] "complete" OFlag :: o_common) ].
(** run_passata: /repo/src/tomato/__init__.py:316-373. *)
Definition passata_subs : list subcmd :=
  [ mkSub ["status"] "passata.status" [one "name"] (o_help :: o_common);
    mkSub ["attrs"] "passata.attrs" [one "name"] (o_help :: o_common);
    mkSub ["register"] "passata.register" [one "name"] (o_help :: o_common);
    mkSub ["reset"] "passata.reset" [one "name"]
      (o_help :: o_common ++ [mkOpt ["--force"; "-f"] "force" OFlag])%list;
    mkSub ["capabilities"] "passata.capabilities" [one "name"] (o_help :: o_common);
    mkSub ["constants"] "passata.constants" [one "name"] (o_help :: o_common);
    mkSub ["get"] "passata.get_attrs" [one "name"; mkPos "attrs" APlus false None CNone] (o_help :: o_common) ].

(** ** argparse *)

(** [ArgumentParser._parse_optional]: what an argument is for a parser with options [opts]. *)
Inductive tclass : Type := TPos | TOpt (o : optarg) | TUnknown | TOdd.
Definition find_opt (opts : list optarg) (t : string) : option optarg :=
  find (fun o => existsb (String.eqb t) (oa_names o)) opts.
Definition int_of (s : string) : option Z := option_map Z.of_int (NilZero.int_of_string s).
Definition digit_or_dot (c : ascii) : bool :=
  (Ascii.eqb c "." || (Nat.leb 48 (nat_of_ascii c) && Nat.leb (nat_of_ascii c) 57))%bool.
Definition some_name (opts : list optarg) (f : string -> bool) : bool :=
  existsb (fun o => existsb f (oa_names o)) opts.
Definition classify (opts : list optarg) (t : string) : tclass :=
  match t with
  | String "-" rest =>
      match find_opt opts t with
      | Some o => TOpt o
      | None =>
          match rest with
          | EmptyString => TPos
          | String c r =>
              if String.eqb t "--" then TOdd
              else if has_char "=" t then TOdd
              else if Ascii.eqb c "-" then
                if some_name opts (fun n => prefix t n) then TOdd
                else if has_char " " t then TPos else TUnknown
              else if some_name opts (fun n => String.eqb n (String "-" (String c ""))) then TOdd
              else match int_of t with
                   | Some _ => TPos
                   | None => if digit_or_dot c then TOdd
                             else if has_char " " t then TPos else TUnknown
                   end
          end
      end
  | _ => TPos
  end.

(** The namespace. *)
Definition ns : Type := dict cval.

(** How a parse ends: the arguments, the unrecognised ones; SystemExit; not modelled. *)
Inductive parse (A : Type) : Type := PDone (a : A) | PExit (code : Z) | PUnmodelled.
Arguments PDone {A}. Arguments PExit {A}. Arguments PUnmodelled {A}.
Definition pbind {A B} (p : parse A) (f : A -> parse B) : parse B :=
  match p with PDone a => f a | PExit c => PExit c | PUnmodelled => PUnmodelled end.

(** Conversion and check of one value: exit code 2 on failure. *)
Definition convert (int : bool) (choices : option (list string)) (t : string) : parse cval :=
  let ok := match choices with Some l => existsb (String.eqb t) l | None => true end in
  if int then match int_of t with Some z => PDone (CInt z) | None => PExit 2 end
  else if ok then PDone (CStr t) else PExit 2.
Fixpoint convert_all (int : bool) (l : list string) : parse (list cval) :=
  match l with
  | [] => PDone []
  | t :: r => pbind (convert int None t) (fun v => pbind (convert_all int r) (fun vs => PDone (v :: vs)))
  end.

(** [consume_positionals] for a chunk of arguments that are not options; what is left over is
    unrecognised.  "*" and "+" are only used last. *)
Fixpoint consume (acts : list posarg) (chunk : list string) (n : ns) : parse (list posarg * list string * ns) :=
  match acts, chunk with
  | [], _ => PDone ([], chunk, n)
  | _, [] => PDone (acts, [], n)
  | a :: r, t :: ts =>
      match pa_arity a with
      | AOne | AOpt => pbind (convert (pa_int a) (pa_choices a) t) (fun v => consume r ts (dset n (pa_dest a) v))
      | AStar | APlus =>
          pbind (convert_all (pa_int a) (t :: ts)) (fun vs => PDone (r, [], dset n (pa_dest a) (CList vs)))
      end
  end.

(** One parser: [parse_known_args] from the namespace [n]. *)
Definition incr (n : ns) (d : string) : ns :=
  dset n d (CInt (match dget n d with Some (CInt z) => z + 1 | _ => 1 end)).
Definition flush (acts : list posarg) (chunk extras : list string) (n : ns)
    : parse (list posarg * list string * ns) :=
  pbind (consume acts chunk n) (fun x => PDone (fst (fst x), extras ++ snd (fst x), snd x)%list).
Fixpoint known (opts : list optarg) (acts : list posarg) (toks chunk extras : list string) (n : ns) {struct toks}
    : parse (list string * ns) :=
  match toks with
  | [] =>
      pbind (flush acts chunk extras n) (fun x =>
        if existsb (fun a => match pa_arity a with AOne | APlus => true | _ => false end) (fst (fst x))
        then PExit 2                                    (* required arguments are missing *)
        else PDone (snd (fst x), snd x))
  | t :: rest =>
      match classify opts t with
      | TPos => known opts acts rest (chunk ++ [t])%list extras n
      | TOdd => PUnmodelled
      | TUnknown =>
          pbind (flush acts chunk extras n) (fun x =>
            known opts (fst (fst x)) rest [] (snd (fst x) ++ [t])%list (snd x))
      | TOpt o =>
          pbind (flush acts chunk extras n) (fun x =>
            let acts' := fst (fst x) in let ex' := snd (fst x) in let n' := snd x in
            match oa_kind o with
            | OExit => PExit 0
            | OFlag => known opts acts' rest [] ex' (dset n' (oa_dest o) (CBool true))
            | OCount => known opts acts' rest [] ex' (incr n' (oa_dest o))
            | OValue int _ =>
                match rest with
                | v :: rest' =>
                    match classify opts v with
                    | TPos => pbind (convert int None v) (fun c =>
                                known opts acts' rest' [] ex' (dset n' (oa_dest o) c))
                    | TOdd => PUnmodelled
                    | _ => PExit 2                      (* expected one argument *)
                    end
                | [] => PExit 2
                end
            end)
      end
  end.

(** The defaults of a subparser. *)
Definition opt_default (o : optarg) : list (string * cval) :=
  match oa_kind o with
  | OFlag => [(oa_dest o, CBool false)]
  | OValue _ d => [(oa_dest o, d)]
  | OCount => [(oa_dest o, CInt 0)]
  | OExit => []
  end.
Definition defaults (opts : list optarg) (acts : list posarg) : ns :=
  (map (fun a => (pa_dest a, pa_default a)) (filter (fun a => match pa_arity a with AOpt | AStar => true | _ => false end) acts)
   ++ flat_map opt_default opts)%list.

(** A parser whose only positional argument is the (sub)subcommand: its own options, then
    the name; everything after the name belongs to the subparser. *)
Fixpoint to_sub (opts : list optarg) (toks extras : list string) (n : ns)
    : parse (string * list string * list string * ns) :=
  match toks with
  | [] => PExit 2
  | t :: rest =>
      match classify opts t with
      | TPos => PDone (t, rest, extras, n)
      | TOdd => PUnmodelled
      | TUnknown => to_sub opts rest (extras ++ [t])%list n
      | TOpt o =>
          match oa_kind o with
          | OCount => to_sub opts rest extras (incr n (oa_dest o))
          | _ => PExit 0
          end
      end
  end.
(** The subcommands with the path [name :: ...], without [name]. *)
Definition below (subs : list subcmd) (name : string) : list subcmd :=
  flat_map (fun s => match sc_path s with
                     | p :: r => if String.eqb p name then [mkSub r (sc_func s) (sc_pos s) (sc_opts s)] else []
                     | [] => []
                     end) subs.

(** What is called. *)
Record call : Type := mkCall { ca_func : string; ca_args : ns; ca_level : Z; ca_ignored : list string }.

(** parse_args (/repo/src/tomato/__init__.py:26-30): both parsers, then the log level. *)
Definition count (n : ns) (d : string) : Z := match dget n d with Some (CInt z) => z | _ => 0 end.
Definition level (n : ns) : Z := Z.min (Z.max ((2 + count n "quiet" - count n "verbose") * 10) 10) 50.
Definition finish_line (func : string) (extras : list string) (n : ns) : parse call :=
  pbind (known o_counts [] extras [] [] n) (fun x => PDone (mkCall func (snd x) (level (snd x)) (fst x))).
Definition run_sub (s : subcmd) (toks extras : list string) (n : ns) : parse call :=
  pbind (known (sc_opts s) (sc_pos s) toks [] [] (defaults (sc_opts s) (sc_pos s))) (fun x =>
    finish_line (sc_func s) (extras ++ fst x)%list (n ++ snd x)%list).
Definition main_defaults : ns := [("verbose", CInt 0); ("quiet", CInt 0)].
Definition command_line (subs : list subcmd) (toks : list string) : parse call :=
  pbind (to_sub o_main toks [] main_defaults) (fun x =>
    let '(name, rest, extras, n) := x in
    match below subs name with
    | [] => PExit 2                                     (* invalid choice *)
    | [s] =>
        match sc_path s with
        | [] => run_sub s rest extras n
        | _ => PExit 2
        end
    | ss =>
        pbind (to_sub [o_help] rest [] []) (fun y =>
          let '(name2, rest2, extras2, _) := y in
          match below ss name2 with
          | s :: _ => run_sub s rest2 (extras ++ extras2)%list n
          | [] => PExit 2
          end)
    end).

(** What parse_args (/repo/src/tomato/__init__.py:32-50) does with the arguments: [tomato.status]
    for the tools other than tomato ([up] says whether it succeeds), then the function. *)
Inductive deed : Type := DStatus (port timeout : option cval) | DCall (c : call) | DPrint (success : bool).
Definition parse_args (is_tomato : bool) (subs : list subcmd) (up : option cval -> option cval -> bool)
    (works : call -> bool) (toks : list string) : list deed :=
  match command_line subs toks with
  | PDone c =>
      let port := dget (ca_args c) "port" in
      let timeout := dget (ca_args c) "timeout" in
      if is_tomato then [DCall c; DPrint (works c)]
      else if up port timeout then [DStatus port timeout; DCall c; DPrint (works c)]
      else [DStatus port timeout; DPrint false]
  | _ => []
  end.
