(** * P_Cli3: why a command line is refused (C81) *)
From Coq Require Import List String Ascii ZArith Bool.
From Verif Require Import Base PyStr CliModel SpecCli SpecCli2 SpecCli3 CliProofs5.
Import ListNotations.
Open Scope string_scope.
Open Scope Z_scope.

(** C81: a program ends before anything is called only for a reason that can be seen in the line.
    The exit code is 0 if a word asks for help or the version; otherwise it is 2, and either
    the line does not name a subcommand, or it names one, a part of the words after it is
    properly read and the words that follow have one of the faults of SpecCli3. *)
Theorem C81_refused : forall subs toks c, In subs programs -> command_line subs toks = PExit c ->
  (c = 0 /\ exists t, In t toks /\ asks t) \/
  (c = 2 /\ lost subs toks) \/
  (c = 2 /\ exists s fronts ps left l, In s subs /\
    List.length fronts = List.length (sc_path s) /\ Forall (Forall dashed) fronts /\
    toks = (fronted fronts (sc_path s) ++ flat_map words ps ++ l)%list /\
    part_read (sc_opts s) (sc_pos s) ps left /\ fault (sc_opts s) left l).
Proof. exact C81_refused_lemma. Qed.
Print Assumptions C81_refused.

(** The model says nothing about a line only if one of its words has an unusual spelling. *)
Theorem C81_unread : forall subs toks, In subs programs -> command_line subs toks = PUnmodelled ->
  exists t opts, In t toks /\ In opts (parsers subs) /\ unusual opts t.
Proof. exact C81_unread_lemma. Qed.
Print Assumptions C81_unread.

(** Lines that are refused: no subcommand; an unknown one; a group without subcommand; a missing
    argument; a job id that is no number; a group of components that does not exist; an option
    without value and one whose value is no number.  The last two lines ask for help. *)
Example C81_refused_ex :
  map (fun p => match command_line (fst p) (snd p) with PExit c => c | _ => -1 end)
    [ (tomato_subs, ["-v"]); (tomato_subs, ["strat"]); (tomato_subs, ["pipeline"; "-v"]);
      (tomato_subs, ["pipeline"; "unload"; "pip-1"]); (ketchup_subs, ["-q"; "cancel"; "-p"; "99"]);
      (ketchup_subs, ["cancel"; "1"; "two"; "-p"; "99"]); (tomato_subs, ["status"; "sensors"]);
      (tomato_subs, ["start"; "-p"]); (tomato_subs, ["start"; "-p"; "-y"]); (tomato_subs, ["start"; "-p"; "x"]);
      (tomato_subs, ["start"; "--help"]); (passata_subs, ["--version"; "foo"]) ]
  = [2; 2; 2; 2; 2; 2; 2; 2; 2; 2; 0; 0].
Proof. vm_compute. reflexivity. Qed.

(** What is wrong with [ketchup -q cancel -p 99 1 two -y]: the job ids [1 two] come after the port
    was read, and [two] is not a number. *)
Example C81_refused_why :
  let toks := ["-q"; "cancel"; "-p"; "99"; "1"; "two"; "-y"] in
  command_line ketchup_subs toks = PExit 2 /\
  exists s ps left, In s ketchup_subs /\ sc_path s = ["cancel"] /\
    toks = (fronted [["-q"]] (sc_path s) ++ flat_map words ps ++ ["1"; "two"] ++ ["-y"])%list /\
    part_read (sc_opts s) (sc_pos s) ps left /\ fault (sc_opts s) left (["1"; "two"] ++ ["-y"]).
Proof.
  cbv zeta. split; [vm_compute; reflexivity|].
  exists (nth 2 ketchup_subs (mkSub [] "" [] [])),
    [POption (nth 0 o_common o_help) "-p" (Some "99") (CInt 99)], [jobids APlus].
  split; [cbn; auto|]. split; [reflexivity|]. split; [reflexivity|]. split.
  - eapply pr_value; [right; left; reflexivity|right; left; reflexivity|reflexivity| |constructor].
    exists 99. split; reflexivity.
  - eapply f_words; [reflexivity|right; reflexivity|reflexivity|right; left; reflexivity|reflexivity].
Qed.
