(** * P_Cli: properties of the command lines (C80-C83) *)
From Coq Require Import List String Ascii ZArith Bool Lia Permutation.
From Verif Require Import Base BaseFacts PyStr CliModel SpecCli CliProofs CliProofs2 CliProofs3.
Import ListNotations.
Open Scope string_scope.
Open Scope Z_scope.

(** ** C80: the log level depends only on how often "-v" and "-q" are given, wherever they stand *)
Theorem C80_log_level subs toks c :
  In subs programs -> command_line subs toks = PDone c ->
  ca_level c = log_level (occ quiet_words toks) (occ verbose_words toks).
Proof. apply C80_lemma. Qed.
Print Assumptions C80_log_level.

Theorem C80_order_irrelevant subs toks toks' c c' :
  In subs programs -> command_line subs toks = PDone c -> command_line subs toks' = PDone c' ->
  Permutation toks toks' -> ca_level c = ca_level c'.
Proof.
  intros Hp H H' P. rewrite (C80_lemma _ _ _ Hp H), (C80_lemma _ _ _ Hp H').
  assert (E : forall sw, occ sw toks = occ sw toks').
  { intros sw. clear -P. unfold occ. induction P; cbn [filter]; auto; try congruence;
      repeat destruct (existsb _ _); cbn [List.length]; lia. }
  now rewrite !E.
Qed.
Print Assumptions C80_order_irrelevant.

Example C80_case : exists c c',
  command_line tomato_subs ["-v"; "pipeline"; "load"; "-q"; "pip"; "sample"; "--verbose"] = PDone c /\ ca_level c = 10 /\
  command_line ketchup_subs ["-q"; "status"; "-q"; "-q"; "-q"; "-v"] = PDone c' /\ ca_level c' = 50.
Proof. do 2 eexists. vm_compute. repeat split. Qed.

(** ** C81: no argument is silently ignored *)

(** The second job is not cancelled, and nothing says so. *)
Theorem C81_refuted : exists c,
  command_line ketchup_subs ["cancel"; "1"; "-v"; "2"] = PDone c /\
  ca_func c = "ketchup.cancel" /\ dget (ca_args c) "jobids" = Some (CList [CInt 1]) /\ ca_ignored c = ["2"].
Proof. eexists. vm_compute. repeat split. Qed.
Print Assumptions C81_refuted.

(** A misspelled option makes the next word an argument: the payload file here is "name". *)
Theorem C81_misspelled_option_refuted : exists c c',
  command_line ketchup_subs ["submit"; "--name"; "name"; "payload.yml"] = PDone c /\
  dget (ca_args c) "payload" = Some (CStr "name") /\ ca_ignored c = ["--name"; "payload.yml"] /\
  command_line tomato_subs ["init"; "--data-dir"; "/data"] = PDone c' /\
  dget (ca_args c') "datadir" = Some (CStr "user_data_dir") /\ ca_ignored c' = ["--data-dir"; "/data"].
Proof. do 2 eexists. vm_compute. repeat split. Qed.
Print Assumptions C81_misspelled_option_refuted.

(** Missing from the full claim: lines whose positional arguments are not all together, lines
    with unknown options or with too many arguments. *)
Theorem C81_understood_partial subs s pre gs1 pos gs2 vals :
  In subs programs -> In s subs ->
  Forall (fun t => In t (verbose_words ++ quiet_words)%list) pre ->
  Forall (well_given s) gs1 -> Forall (well_given s) gs2 -> fits (sc_pos s) pos vals ->
  exists c,
    command_line subs (pre ++ sc_path s ++ flat_map written gs1 ++ pos ++ flat_map written gs2)%list = PDone c /\
    ca_func c = sc_func s /\ ca_ignored c = [] /\
    (forall d v, In (d, v) vals -> dget (ca_args c) d = Some v) /\
    (forall o, In o (sc_opts s) -> takes_value o ->
       dget (ca_args c) (oa_dest o) = Some (last_given (oa_dest o) (gs1 ++ gs2) (default_of o))).
Proof. apply C81_lemma. Qed.
Print Assumptions C81_understood_partial.

Example C81_case : exists s gs1 gs2 c, In s ketchup_subs /\ Forall (well_given s) gs1 /\ Forall (well_given s) gs2 /\
  fits (sc_pos s) ["3"; "4"] [("jobids", CList [CInt 3; CInt 4])] /\
  (["-q"] ++ sc_path s ++ flat_map written gs1 ++ ["3"; "4"] ++ flat_map written gs2)%list =
    ["-q"; "cancel"; "--port"; "1"; "3"; "4"; "-v"; "-p"; "77"; "-y"] /\
  command_line ketchup_subs ["-q"; "cancel"; "--port"; "1"; "3"; "4"; "-v"; "-p"; "77"; "-y"] = PDone c /\
  dget (ca_args c) "jobids" = Some (CList [CInt 3; CInt 4]) /\ dget (ca_args c) "port" = Some (CInt 77) /\
  dget (ca_args c) "yaml" = Some (CBool true) /\ dget (ca_args c) "timeout" = Some (CInt 3000) /\ ca_level c = 20.
Proof.
  exists (mkSub ["cancel"] "ketchup.cancel" [jobids APlus] (o_help :: o_common)).
  exists [mkGiven (mkOpt ["--port"; "-p"] "port" (OValue true (CInt 1234))) "--port" (Some "1") (CInt 1)].
  exists [mkGiven (mkOpt ["--verbose"; "-v"] "verbose" OCount) "-v" None CNone;
          mkGiven (mkOpt ["--port"; "-p"] "port" (OValue true (CInt 1234))) "-p" (Some "77") (CInt 77);
          mkGiven (mkOpt ["--yaml"; "-y"] "yaml" OFlag) "-y" None (CBool true)].
  eexists. split; [cbn; tauto|].
  assert (P : forall z t, 0 <= z -> plain t -> t = str_of_Z z -> stands_for true t (CInt z)).
  { intros z t Hz Hp Ht. split; [exact Hp|]. eauto. }
  split; [repeat constructor; cbn; auto 10; eexists; split; [reflexivity|]; apply P; cbn; auto; lia|].
  split; [repeat constructor; cbn; auto 10; eexists; split; [reflexivity|]; apply P; cbn; auto; lia|].
  split.
  { apply fits_many; [now left|]. repeat constructor; apply P; cbn; auto; lia. }
  split; [reflexivity|]. vm_compute. repeat split.
Qed.

(** ** C82: a subcommand's function gets every argument it needs, of the right type, and the
    tools other than tomato first look for the daemon *)
Theorem C82_arguments subs toks c :
  In subs programs -> command_line subs toks = PDone c ->
  (exists s, In s subs /\ ca_func c = sc_func s) /\
  forall d k, In (d, k) (expects (ca_func c)) -> exists v, dget (ca_args c) d = Some v /\ of_kind k v = true.
Proof. apply C82_lemma. Qed.
Print Assumptions C82_arguments.

Theorem C82_daemon_first subs up works toks :
  In subs programs ->
  forall i c, nth_error (parse_args false subs up works toks) i = Some (DCall c) ->
  exists port timeout, dget (ca_args c) "port" = Some (CInt port) /\ dget (ca_args c) "timeout" = Some (CInt timeout) /\
    nth_error (parse_args false subs up works toks) 0 = Some (DStatus (Some (CInt port)) (Some (CInt timeout))) /\
    up (Some (CInt port)) (Some (CInt timeout)) = true /\ i = 1%nat.
Proof.
  intros Hp i c H. unfold parse_args in *. destruct (command_line subs toks) as [c0| |] eqn:E; [|destruct i; discriminate|destruct i; discriminate].
  assert (Hpt : forall d, d = "port" \/ d = "timeout" -> exists z, dget (ca_args c0) d = Some (CInt z)).
  { intros d Hd. apply line_split in E as (s & name & rest & extras & n & Hs & Ht & E); [|exact Hp].
    pose (f := fun d s => forallb (fun o => negb (String.eqb (oa_dest o) d) || opt_makes KInt o) (sc_opts s) &&
                 forallb (fun a => negb (String.eqb (pa_dest a) d)) (sc_pos s) &&
                 match dget (defaults (sc_opts s) (sc_pos s)) d with Some v => is_int v | None => false end).
    assert (Fs : f d s = true).
    { destruct Hd as [-> | ->]; [exact (over_subs (f "port") eq_refl subs s Hp Hs)|exact (over_subs (f "timeout") eq_refl subs s Hp Hs)]. }
    unfold f in Fs. rewrite !andb_true_iff in Fs. destruct Fs as [[F1 F2] F3]. rewrite forallb_forall in F1, F2.
    assert (Nd : d <> "verbose" /\ d <> "quiet") by (destruct Hd as [-> | ->]; split; discriminate). destruct Nd as [Nv Nq].
    assert (K : forall rest' x, known (sc_opts s) (sc_pos s) rest' [] [] (defaults (sc_opts s) (sc_pos s)) = PDone x ->
       exists z, dget (snd x) d = Some (CInt z)).
    { intros rest' [e m] Hk.
      apply (known_inv (sc_opts s) (fun acts m => incl acts (sc_pos s) /\ exists z, dget m d = Some (CInt z))) in Hk.
      - destruct Hk as (_ & [_ Hz] & _). exact Hz.
      - intros a r m0 t v [Hi Hz] _ _. split; [intros x Hx; apply Hi; now right|].
        rewrite dget_dset_other; [exact Hz|]. specialize (F2 a (Hi a (or_introl eq_refl))). apply negb_true_iff, String.eqb_neq in F2. congruence.
      - intros a r m0 t v [Hi Hz] _ _. split; [intros x Hx; apply Hi; now right|].
        rewrite dget_dset_other; [exact Hz|]. specialize (F2 a (Hi a (or_introl eq_refl))). apply negb_true_iff, String.eqb_neq in F2. congruence.
      - intros acts m0 o Ho Ko [Hi Hz]. split; [exact Hi|]. rewrite dget_dset. destruct (String.eqb_spec d (oa_dest o)) as [Ed|]; [|exact Hz].
        specialize (F1 o Ho). rewrite <- Ed, String.eqb_refl in F1. unfold opt_makes in F1. rewrite Ko in F1. discriminate.
      - intros acts m0 o Ho Ko [Hi Hz]. split; [exact Hi|]. unfold incr. rewrite dget_dset. destruct (String.eqb_spec d (oa_dest o)) as [Ed|]; [|exact Hz].
        specialize (F1 o Ho). rewrite <- Ed, String.eqb_refl in F1. unfold opt_makes in F1. rewrite Ko in F1. discriminate.
      - intros acts m0 o int df t v Ho Ko Hv [Hi Hz]. split; [exact Hi|]. rewrite dget_dset.
        destruct (String.eqb_spec d (oa_dest o)) as [Ed|]; [|exact Hz].
        specialize (F1 o Ho). rewrite <- Ed, String.eqb_refl in F1. unfold opt_makes in F1. rewrite Ko in F1.
        destruct int; [|discriminate]. apply convert_kind in Hv. destruct v; try discriminate. eauto.
      - split; [apply incl_refl|]. destruct (dget _ d) as [[]|]; try discriminate. eauto. }
    assert (Fin : forall ex x, (exists z, dget (snd x) d = Some (CInt z)) ->
      finish_line (sc_func s) (ex ++ fst x)%list (n ++ snd x)%list = PDone c0 -> exists z, dget (ca_args c0) d = Some (CInt z)).
    { intros ex [e m] [z Hz] Hf. cbn [fst snd] in *. unfold finish_line in Hf. apply pbind_done in Hf as ([e' m'] & Hk2 & E'). inversion E'; subst c0.
      cbn [ca_args snd]. exists z.
      assert (Eo : forallb (fun o => negb (String.eqb (oa_dest o) d)) o_counts = true) by (destruct Hd as [-> | ->]; reflexivity).
      rewrite (known_dget_none o_counts d _ [] _ _ _ _ _ Eo eq_refl Hk2).
      rewrite dget_app, (to_sub_other d _ Nv Nq _ _ _ _ _ _ Ht).
      replace (dget main_defaults d) with (@None cval) by (destruct Hd as [-> | ->]; reflexivity). exact Hz. }
    destruct E as [(x & Hk & Hf)|(name2 & rest2 & extras2 & x & Ht2 & Hk & Hf)]; eapply Fin; eauto. }
  destruct (Hpt "port" (or_introl eq_refl)) as [p Hpo]. destruct (Hpt "timeout" (or_intror eq_refl)) as [t Hti].
  rewrite Hpo, Hti in *. destruct (up (Some (CInt p)) (Some (CInt t))) eqn:Eu.
  - destruct i as [|[|[|[|]]]]; cbn in H; try discriminate. inversion H; subst c. rewrite Hpo, Hti. exists p, t. auto.
  - destruct i as [|[|[|]]]; cbn in H; discriminate.
Qed.
Print Assumptions C82_daemon_first.

Example C82_case :
  parse_args false ketchup_subs (fun _ _ => false) (fun _ => true) ["cancel"; "7"; "-p"; "99"] =
    [DStatus (Some (CInt 99)) (Some (CInt 3000)); DPrint false] /\
  (exists c, parse_args false ketchup_subs (fun _ _ => true) (fun _ => true) ["cancel"; "7"; "-p"; "99"] =
    [DStatus (Some (CInt 99)) (Some (CInt 3000)); DCall c; DPrint true] /\ expects (ca_func c) = [("jobids", KInts)] /\
    dget (ca_args c) "jobids" = Some (CList [CInt 7])) /\
  parse_args false ketchup_subs (fun _ _ => true) (fun _ => true) ["cancel"] = [] /\
  parse_args false ketchup_subs (fun _ _ => true) (fun _ => true) ["cancel"; "seven"] = [].
Proof. split; [|split; [eexists|]]; vm_compute; repeat split. Qed.

(** ** C83: every option a subcommand accepts is of use *)

(** "ketchup search --complete" is accepted and documented, and nothing looks at it. *)
Theorem C83_refuted : exists s o, In s ketchup_subs /\ In o (sc_opts s) /\ takes_value o /\
  sc_func s = "ketchup.search" /\ oa_dest o = "complete" /\ ~ of_use false s o.
Proof.
  exists (mkSub ["search"] "ketchup.search" [one "jobname"]
      (o_help :: mkOpt ["-c"; "--complete"] "complete" OFlag :: o_common)).
  exists (mkOpt ["-c"; "--complete"] "complete" OFlag).
  split; [cbn; tauto|]. split; [cbn; tauto|]. split; [exact I|]. split; [reflexivity|]. split; [reflexivity|].
  intros [[H|[]]|[H|[_ [H|[H|[]]]]]]; cbn in H; discriminate.
Qed.
Print Assumptions C83_refuted.

Definition of_useb (is_tomato : bool) (s : subcmd) (o : optarg) : bool :=
  existsb (String.eqb (oa_dest o)) (map fst (expects (sc_func s))) || String.eqb (oa_dest o) "yaml" ||
  (negb is_tomato && existsb (String.eqb (oa_dest o)) ["port"; "timeout"]).
Lemma of_useb_ok it s o : of_useb it s o = true -> of_use it s o.
Proof.
  assert (X : forall l d, existsb (String.eqb d) l = true -> In d l).
  { intros l d H. apply existsb_exists in H as (x & Hx & E). apply String.eqb_eq in E. now subst. }
  unfold of_useb, of_use. rewrite !orb_true_iff, andb_true_iff. intros [[H|H]|[H1 H2]].
  - left. auto.
  - right. left. now apply String.eqb_eq.
  - right. right. split; [now destruct it|auto].
Qed.

(** The exceptions: "--complete" of "ketchup search", "--port" and "--timeout" of "tomato init". *)
Theorem C83_of_use_partial is_tomato subs s o :
  (is_tomato = true /\ subs = tomato_subs) \/ (is_tomato = false /\ In subs [ketchup_subs; passata_subs]) ->
  In s subs -> In o (sc_opts s) -> takes_value o ->
  ~ (sc_func s = "ketchup.search" /\ oa_dest o = "complete") ->
  ~ (sc_func s = "tomato.init" /\ In (oa_dest o) ["port"; "timeout"]) ->
  of_use is_tomato s o.
Proof.
  intros Hp Hs Ho Tv N1 N2.
  pose (f := fun it s => forallb (fun o => match oa_kind o with OFlag | OValue _ _ => of_useb it s o | _ => true end ||
     (String.eqb (sc_func s) "ketchup.search" && String.eqb (oa_dest o) "complete") ||
     (String.eqb (sc_func s) "tomato.init" && existsb (String.eqb (oa_dest o)) ["port"; "timeout"])) (sc_opts s)).
  assert (F : f is_tomato s = true).
  { destruct Hp as [[-> ->]|[-> [<-|[<-|[]]]]].
    - assert (E : forallb (f true) tomato_subs = true) by (vm_compute; reflexivity). rewrite forallb_forall in E. auto.
    - assert (E : forallb (f false) ketchup_subs = true) by (vm_compute; reflexivity). rewrite forallb_forall in E. auto.
    - assert (E : forallb (f false) passata_subs = true) by (vm_compute; reflexivity). rewrite forallb_forall in E. auto. }
  unfold f in F. rewrite forallb_forall in F. specialize (F o Ho). rewrite !orb_true_iff, !andb_true_iff in F.
  destruct F as [[F|[F1 F2]]|[F1 F2]].
  - apply of_useb_ok. unfold takes_value in Tv. destruct (oa_kind o); auto; destruct Tv.
  - exfalso. apply N1. now apply String.eqb_eq in F1, F2.
  - exfalso. apply N2. apply String.eqb_eq in F1. split; [exact F1|].
    apply existsb_exists in F2 as (x & Hx & E). apply String.eqb_eq in E. now subst.
Qed.
Print Assumptions C83_of_use_partial.

(** Nothing distinguishes the two calls but an argument that [search] does not take. *)
Example C83_case : exists c c',
  command_line ketchup_subs ["search"; "name"; "--complete"] = PDone c /\
  command_line ketchup_subs ["search"; "name"] = PDone c' /\
  dget (ca_args c) "complete" = Some (CBool true) /\ expects (ca_func c) = [("jobname", KText)] /\
  dget (ca_args c) "jobname" = dget (ca_args c') "jobname" /\ of_use true (hd (mkSub [] "" [] []) tomato_subs) (hd o_help o_common).
Proof. do 2 eexists. vm_compute. repeat split; auto. Qed.

(** Every spelling of every option, and every word that "tomato status" takes. *)
Definition reads (subs : list subcmd) (line : list string) (d : string) (v : cval) : Prop :=
  exists c, command_line subs line = PDone c /\ dget (ca_args c) d = Some v /\ ca_ignored c = [].
Example C81_spellings :
  (forall n, In n ["--port"; "-p"] -> reads tomato_subs ["stop"; n; "7"] "port" (CInt 7) /\
     reads ketchup_subs ["status"; n; "7"] "port" (CInt 7) /\ reads passata_subs ["attrs"; "c"; n; "7"] "port" (CInt 7)) /\
  reads tomato_subs ["stop"; "--timeout"; "7"] "timeout" (CInt 7) /\
  (forall n, In n ["--yaml"; "-y"] -> reads tomato_subs ["status"; n] "yaml" (CBool true) /\
     reads ketchup_subs ["status"; n] "yaml" (CBool true) /\ reads passata_subs ["constants"; "c"; n] "yaml" (CBool true)) /\
  (forall n f, In n ["--appdir"; "-A"] -> In f ["start"; "init"; "reload"] -> reads tomato_subs [f; n; "x"] "appdir" (CStr "x")) /\
  (forall n, In n ["--datadir"; "-D"] -> reads tomato_subs ["init"; n; "x"] "datadir" (CStr "x")) /\
  (forall n, In n ["--logdir"; "-L"] -> reads tomato_subs ["init"; n; "x"] "logdir" (CStr "x")) /\
  (forall n, In n ["-j"; "--jobname"] -> reads ketchup_subs ["submit"; "p"; n; "x"] "jobname" (CStr "x")) /\
  (forall n, In n ["-c"; "--complete"] -> reads ketchup_subs ["search"; "p"; n] "complete" (CBool true)) /\
  (forall n, In n ["--force"; "-f"] -> reads passata_subs ["reset"; "c"; n] "force" (CBool true)) /\
  (forall g, In g ["tomato"; "pipelines"; "drivers"; "devices"; "components"] ->
     reads tomato_subs ["status"; g] "stgrp" (CStr g)) /\
  reads tomato_subs ["status"] "stgrp" (CStr "tomato") /\
  reads tomato_subs ["init"] "appdir" (CStr "user_config_dir") /\ reads tomato_subs ["init"] "datadir" (CStr "user_data_dir") /\
  reads tomato_subs ["init"] "logdir" (CStr "user_log_dir") /\ reads ketchup_subs ["submit"; "p"] "jobname" CNone /\
  reads ketchup_subs ["status"] "jobids" (CList []) /\ reads ketchup_subs ["status"] "timeout" (CInt 3000) /\
  reads ketchup_subs ["snapshot"; "1"; "2"] "jobids" (CList [CInt 1; CInt 2]) /\
  reads passata_subs ["get"; "c"; "a"; "b"] "attrs" (CList [CStr "a"; CStr "b"]) /\
  reads passata_subs ["get"; "c"; "a"; "b"] "name" (CStr "c") /\
  command_line tomato_subs ["status"; "jobs"] = PExit 2 /\
  (forall n, In n ["-h"; "--help"] -> command_line tomato_subs ["stop"; n] = PExit 0 /\ command_line tomato_subs ["pipeline"; n] = PExit 0) /\
  command_line passata_subs ["--version"] = PExit 0 /\ command_line tomato_subs [] = PExit 2 /\
  command_line tomato_subs ["pipeline"] = PExit 2 /\ command_line tomato_subs ["pipeline"; "drop"] = PExit 2.
Proof.
  repeat split; intros;
    repeat match goal with H : In _ _ |- _ => cbn in H | H : _ \/ _ |- _ => destruct H | H : False |- _ => destruct H end; subst;
    first [reflexivity | eexists; vm_compute; repeat split].
Qed.

(** Which function each subcommand calls. *)
Example C82_functions :
  Forall (fun x : list subcmd * list string * string => exists c,
      command_line (fst (fst x)) (snd (fst x)) = PDone c /\ ca_func c = snd x)
    [ (tomato_subs, ["status"], "tomato.status"); (tomato_subs, ["start"], "tomato.start");
      (tomato_subs, ["stop"], "tomato.stop"); (tomato_subs, ["init"], "tomato.init");
      (tomato_subs, ["reload"], "tomato.reload"); (tomato_subs, ["pipeline"; "load"; "p"; "s"], "tomato.pipeline_load");
      (tomato_subs, ["pipeline"; "eject"; "p"], "tomato.pipeline_eject");
      (tomato_subs, ["pipeline"; "ready"; "p"], "tomato.pipeline_ready");
      (ketchup_subs, ["submit"; "p"], "ketchup.submit"); (ketchup_subs, ["status"], "ketchup.status");
      (ketchup_subs, ["cancel"; "1"], "ketchup.cancel"); (ketchup_subs, ["snapshot"; "1"], "ketchup.snapshot");
      (ketchup_subs, ["search"; "n"], "ketchup.search"); (passata_subs, ["status"; "c"], "passata.status");
      (passata_subs, ["attrs"; "c"], "passata.attrs"); (passata_subs, ["register"; "c"], "passata.register");
      (passata_subs, ["reset"; "c"], "passata.reset"); (passata_subs, ["capabilities"; "c"], "passata.capabilities");
      (passata_subs, ["constants"; "c"], "passata.constants"); (passata_subs, ["get"; "c"; "a"], "passata.get_attrs") ].
Proof. repeat constructor; eexists; vm_compute; repeat split. Qed.

(** Words that argparse treats in a way that is not modelled are reported as such, and
    negative numbers are not options. *)
Example C81_odd_words :
  Forall (fun t => classify o_common t = TOdd)
    ["--"; "--port=7"; "-p7"; "--po"; "-0.5"; "-1.5"; "-9x"; "-.5"] /\
  Forall (fun t => classify o_common t = TPos) ["x"; "-"; "-5"; "-10"; "-x y"; "--x y"; ""] /\
  Forall (fun t => classify o_common t = TUnknown) ["-x"; "--x"; "-/5"; "-:5"].
Proof. repeat split; repeat constructor. Qed.
Example C80_defaults :
  reads tomato_subs ["stop"] "verbose" (CInt 0) /\ reads tomato_subs ["stop"] "quiet" (CInt 0) /\
  reads tomato_subs ["stop"; "-v"; "-v"; "-q"] "verbose" (CInt 2) /\
  reads tomato_subs ["stop"; "-v"; "-v"; "-q"] "quiet" (CInt 1).
Proof. repeat split; eexists; vm_compute; repeat split. Qed.
