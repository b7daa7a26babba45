(** * P_Cli2: every word of a command line is accounted for (C81) *)
From Coq Require Import List String Ascii ZArith Bool.
From Verif Require Import Base PyStr CliModel SpecCli SpecCli2 CliProofs4.
Import ListNotations.
Open Scope string_scope.
Open Scope Z_scope.

(** C81: whatever the line, if a function is called then the line is the path of that function's
    subcommand, with only dashed words before its parts, followed by pieces that are a proper reading
    of the subcommand's options and arguments in the order of the line; the words left over are the
    ones in no piece that are not [-v]/[-q] switches; and every argument handed to the function is what
    the last piece about it says, or its default. *)
Theorem C81_accounted : forall subs toks c, In subs programs -> command_line subs toks = PDone c ->
  exists s fronts ps, In s subs /\ ca_func c = sc_func s /\
    List.length fronts = List.length (sc_path s) /\ Forall (Forall dashed) fronts /\
    toks = (fronted fronts (sc_path s) ++ flat_map words ps)%list /\
    reading (sc_opts s) (sc_pos s) ps /\
    ca_ignored c = filter (fun t => negb (switch t)) (List.concat fronts ++ flat_map ignored ps) /\
    forall d, d <> "verbose" -> d <> "quiet" ->
      dget (ca_args c) d = last_set d ps (dget (defaults (sc_opts s) (sc_pos s)) d).
Proof. exact C81_accounted_lemma. Qed.
Print Assumptions C81_accounted.

(** No word is lost: each is a switch, is reported as left over, names the subcommand, or belongs to
    an option or argument of it. *)
Theorem C81_nothing_lost : forall subs toks c t, In subs programs -> command_line subs toks = PDone c -> In t toks ->
  exists s ps, In s subs /\ ca_func c = sc_func s /\ reading (sc_opts s) (sc_pos s) ps /\
    (switch t = true \/ In t (ca_ignored c) \/ In t (sc_path s) \/
     exists p, In p ps /\ In t (words p) /\ ignored p = []).
Proof.
  intros subs toks c t Hp H Ht. destruct (C81_accounted subs toks c Hp H) as (s & fs & ps & Hs & F & L & _ & E & R & I & _).
  exists s, ps. split; [exact Hs|]. split; [exact F|]. split; [exact R|]. rewrite E in Ht.
  destruct (switch t) eqn:S; [now left|right]. apply in_app_or in Ht as [Ht|Ht].
  - assert (X : In t (List.concat fs) \/ In t (sc_path s)).
    { clear - Ht. revert Ht. generalize (sc_path s). induction fs as [|f fs IH]; intros [|p q] Ht; try contradiction.
      cbn in Ht. apply in_app_or in Ht as [Ht|[<-|Ht]]; cbn; [left; apply in_or_app; auto|auto|].
      destruct (IH q Ht); [left; apply in_or_app; auto|auto]. }
    destruct X as [X|X]; [left|auto]. rewrite I. apply filter_In. split; [apply in_or_app; auto|]. now rewrite S.
  - apply in_flat_map in Ht as (p & P & W). destruct p as [o nm w v|a ts v|u].
    + right; right. eexists; repeat split; eauto.
    + right; right. eexists; repeat split; eauto.
    + destruct W as [<-|[]]. left. rewrite I. apply filter_In. split; [|now rewrite S].
      apply in_or_app; right. apply in_flat_map. exists (PIgnored u). split; [exact P|now left].
Qed.
Print Assumptions C81_nothing_lost.

(** [ketchup -v --foo cancel 1 -v 2 -p 12 34]: job 1, port 12; [--foo], [2] and [34] are not used. *)
Example C81_accounted_ex : exists s c,
  let port := mkOpt ["--port"; "-p"] "port" (OValue true (CInt 1234)) in
  let ps := [PArg (jobids APlus) ["1"] (CList [CInt 1]); PIgnored "-v"; PIgnored "2";
             POption (nth 1 (sc_opts s) port) "-p" (Some "12") (CInt 12); PIgnored "34"] in
  In s ketchup_subs /\
  command_line ketchup_subs ["-v"; "--foo"; "cancel"; "1"; "-v"; "2"; "-p"; "12"; "34"] = PDone c /\
  ["-v"; "--foo"; "cancel"; "1"; "-v"; "2"; "-p"; "12"; "34"] = (fronted [["-v"; "--foo"]] (sc_path s) ++ flat_map words ps)%list /\
  reading (sc_opts s) (sc_pos s) ps /\
  ca_ignored c = ["--foo"; "2"; "34"] /\
  dget (ca_args c) "jobids" = Some (CList [CInt 1]) /\ dget (ca_args c) "port" = Some (CInt 12).
Proof.
  eexists. eexists. cbv zeta. split; [right; right; left; reflexivity|].
  split; [vm_compute; reflexivity|]. split; [reflexivity|]. split; [|repeat split; reflexivity].
  cbn [sc_opts sc_pos nth].
  apply (rd_many _ (jobids APlus) [] "1" [] [CInt 1]); [right; reflexivity| |].
  { constructor; [|constructor]. exists 1. split; reflexivity. }
  apply rd_surplus, rd_surplus. eapply rd_value; [right; left; reflexivity|cbn; auto|reflexivity| |].
  { exists 12. split; reflexivity. }
  apply rd_surplus, rd_end. constructor.
Qed.
