(** * ByHandProofs: passata commands and driver processes (C123) *)
From Coq Require Import List String ZArith Bool Lia.
From Verif Require Import Base BaseFacts Types Prog ProgFacts AttrModel IfaceModel SpecIface IfaceProofs IfaceProofs2
  P_Iface3 WireModel SpecWire WireProofs PassataModel ByHandModel SpecByHand.
Import ListNotations.
Open Scope string_scope.
Open Scope Z_scope.

Lemma read_keeps h k : forall l acc s s' r, read_status h k l acc s = (s', r) -> i_devmap s' = i_devmap s.
Proof.
  induction l as [|[n a] l IH]; intros acc s s' r H; cbn [read_status] in H; [injection H as <- _; reflexivity|].
  destruct (at_status a); [|exact (IH _ _ _ _ H)].
  unfold mbind, call in H. destruct (h_get h (i_calls s) k n) as [v|e]; [|injection H as <- _; reflexivity].
  apply IH in H. exact H.
Qed.

(** A status that is reported tells whether something runs. *)
Lemma status_says h dn i c s s' r v :
  handle h dn i (as_message (plain "cmp_status" c)) s = (s', Ok r) ->
  kget (i_devmap s) (Some (c_address c), Some (c_channel c)) = Some v ->
  IfaceModel.dr_ok r = true -> exists l, IfaceModel.dr_data r = RStatus l (is_some (v_running v)).
Proof.
  intros H K O. rewrite (component_dispatch h dn i (as_message (plain "cmp_status" c)) "cmp_status" s eq_refl ltac:(cbn; tauto)) in H.
  change (match rq_params (as_message (plain "cmp_status" c)) with Some p => p | None => no_params end)
    with (about (c_address c) (c_channel c)) in H.
  assert (E : component_method h "cmp_status" (about (c_address c) (c_channel c)) s =
              cmp_status h (about (c_address c) (c_channel c)) s)
    by (unfold component_method; destruct (i_ver s); reflexivity).
  rewrite E in H. clear E. unfold cmp_status, log_errors, in_devmap in H.
  cbn [rp_key about rp_address rp_channel rp_attr is_some andb] in H. rewrite K in H.
  unfold mbind at 1, device_at at 1 in H. rewrite K in H. unfold mbind at 1, twice in H. unfold mbind at 1 in H.
  destruct (read_status h (Some (c_address c), Some (c_channel c)) (h_attrs h (Some (c_address c), Some (c_channel c))) [] s)
    as [s1 [l|e]] eqn:R.
  - apply read_keeps in R. unfold mbind, device_at in H. rewrite R, K in H. injection H as _ <-. exists l. reflexivity.
  - destruct e, (i_ver s); try discriminate H; injection H as _ <-; discriminate O.
Qed.

Section Command.
  Context (cmps : dict component) (table : string -> option (option Z)) (i : nat -> turn_in).
  Context (name : string) (c : component) (port : Z).
  Hypothesis (Hc : dget cmps name = Some c) (Ht : table (c_driver c) = Some (Some port)).
  Let ex := hexec (Some cmps) table i.
  Let k : key := place c.

  Lemma run_with f s : run ex (with_cmp name f) s = run ex (f c port) (S (S (fst s)), snd s).
  Proof.
    unfold with_cmp, name_to_cmp, pact, ex. repeat rewrite run_bind. rewrite run_do. cbn [hexec fst snd]. rewrite Hc.
    rewrite run_bind, run_do. cbn [hexec fst snd]. rewrite Ht. reflexivity.
  Qed.

  Let limited := only_there port k.
  Lemma limited_refl net : limited net net.
  Proof.
    split; [reflexivity|]. destruct (net port) as [x|]; [|exact I]. exists x. repeat split; reflexivity.
  Qed.
  Lemma limited_trans a b d : limited a b -> limited b d -> limited a d.
  Proof.
    intros [A1 A2] [B1 B2]. split; [intros p N; rewrite (B1 p N); exact (A1 p N)|].
    destruct (d port) as [z|]; [|exact I]. destruct B2 as (y & Y & H1 & H2 & H3). rewrite Y in A2.
    destruct A2 as (x & X & G1 & G2 & G3). exists x. split; [exact X|]. split; [congruence|]. split; [congruence|].
    intros k' N. rewrite (H3 k' N). exact (G3 k' N).
  Qed.

  Definition ours (q : creq) : Prop :=
    q_address q = c_address c /\ q_channel q = c_channel c /\
    (In (q_cmd q) component_requests \/ q_cmd q = "cmp_register").
  Lemma our_others h dn j q s s' r : ours q -> handle h dn j (as_message q) s = (s', r) -> others_same k s s'.
  Proof.
    intros (A & C & D) H.
    assert (T : target (as_message q) = k) by (unfold target, as_message; cbn; rewrite A, C; reflexivity).
    destruct D as [D|D].
    - rewrite <- T. exact (C96_others h dn j (as_message q) (q_cmd q) s s' r eq_refl D H).
    - unfold handle, as_message in H. cbn [rq_cmd rq_params] in H. rewrite D in H.
      cbn [String.eqb Ascii.eqb Bool.eqb] in H. unfold manual_register in H. unfold mbind at 1, mput in H. unfold mbind in H.
      match type of H with context [cmp_register h ?p ?s0] => destruct (cmp_register h p s0) as [s1 r1] eqn:R end.
      apply register_cases in R as (_ & _ & _ & X & _).
      assert (E : s1 = s').
      { destruct r1 as [rep|e]; [|injection H as <- _; reflexivity].
        destruct (IfaceModel.dr_ok rep); [destruct (ti_answer j)|]; injection H as <- _; reflexivity. }
      subst s1. intros k' N. apply X. unfold key_of. cbn [rp_address rp_channel]. rewrite A, C. exact N.
  Qed.
  Lemma request_limited q n net r s' : ours q -> ex (PRequest port q) (n, net) = (r, s') -> limited net (snd s').
  Proof.
    intros O H. unfold ex, hexec in H. cbn [fst snd] in H.
    destruct (net port) as [x|] eqn:X; [|injection H as _ <-; apply limited_refl].
    destruct (handle (pr_hw x) (pr_name x) (i n) (as_message q) (pr_iface x)) as [s1 r1] eqn:E.
    assert (D : limited net (put net port None)).
    { split; [intros p N; unfold put; destruct (Z.eqb_spec p port); [contradiction|reflexivity]|].
      unfold put. rewrite Z.eqb_refl. exact I. }
    assert (U : limited net (put net port (Some (mkProcess (pr_hw x) (pr_name x) s1)))).
    { split; [intros p N; unfold put; destruct (Z.eqb_spec p port); [contradiction|reflexivity]|].
      unfold put. rewrite Z.eqb_refl. exists x. split; [exact X|]. split; [reflexivity|]. split; [reflexivity|].
      exact (our_others _ _ _ _ _ _ _ O E). }
    destruct r1 as [rep|e].
    - destruct (picklable rep); injection H as _ <-; [exact U|exact D].
    - destruct e; injection H as _ <-; exact D.
  Qed.
  Lemma ask_limited q n net r s' : ours q -> run ex (ask port q) (n, net) = (r, s') -> limited net (snd s').
  Proof.
    intros O H. unfold ask in H. cbn [run] in H.
    destruct (ex (PRequest port q) (n, net)) as [a s1] eqn:E. pose proof (request_limited q n net a s1 O E) as L.
    destruct a as [a|e]; [injection H as _ <-; exact L|].
    destruct e; cbn [run] in H; injection H as _ <-; exact L.
  Qed.
  Lemma pass_limited q n net r s' : ours q -> run ex (pass_on port q) (n, net) = (r, s') -> limited net (snd s').
  Proof.
    intros O H. unfold pass_on in H. rewrite run_bind in H. destruct (run ex (ask port q) (n, net)) as [a s1] eqn:E.
    pose proof (ask_limited q n net a s1 O E) as L. destruct a as [a|e]; cbn [run] in H; injection H as _ <-; exact L.
  Qed.
  Lemma each_limited : forall l acc n net r s', run ex (get_each port c l acc) (n, net) = (r, s') -> limited net (snd s').
  Proof.
    induction l as [|a l IH]; intros acc n net r s' H; [cbn in H; injection H as _ <-; apply limited_refl|].
    cbn [get_each] in H. rewrite run_bind in H.
    destruct (run ex (ask port (mkQ "cmp_get_attr" (c_address c) (c_channel c) (Some a) None)) (n, net)) as [x s1] eqn:E.
    assert (L : limited net (snd s1)) by (eapply ask_limited; [|exact E]; repeat split; left; cbn; tauto).
    destruct x as [x|e]; [|injection H as _ <-; exact L].
    destruct x as [p|[v|]]; [cbn in H; injection H as _ <-; exact L| |cbn in H; injection H as _ <-; exact L].
    destruct (c_ok v); [|cbn in H; injection H as _ <-; exact L].
    destruct s1 as [n1 net1]. apply IH in H. exact (limited_trans _ _ _ L H).
  Qed.

  Lemma simple_limited cmd n net r s' : In cmd component_requests ->
    run ex (simple cmd name) (n, net) = (r, s') -> limited net (snd s').
  Proof.
    intros I H. unfold simple in H. rewrite run_with in H. eapply pass_limited; [|exact H].
    repeat split. left. exact I.
  Qed.
  Lemma rof_limited f n net r s' : run ex (running_or_force name f) (n, net) = (r, s') -> limited net (snd s').
  Proof.
    intros H. unfold running_or_force in H. destruct f; [cbn in H; injection H as _ <-; apply limited_refl|].
    rewrite run_bind in H. destruct (run ex (status name) (n, net)) as [a s1] eqn:E.
    assert (L : limited net (snd s1)) by (eapply simple_limited; [|exact E]; cbn; tauto).
    destruct a as [a|e]; [|injection H as _ <-; exact L].
    destruct a as [kk|[[[] []]|]|l]; cbn in H; try (destruct running; cbn in H); injection H as _ <-; exact L.
  Qed.
  Lemma guarded_limited q f n net r s' : ours q ->
    run ex (with_cmp name (fun c0 p0 => x <- running_or_force name f;; match x with Some r0 => Ret r0 | None => pass_on port q end)%prog)
      (n, net) = (r, s') -> limited net (snd s').
  Proof.
    intros O H. rewrite run_with, run_bind in H. cbn [fst snd] in H.
    destruct (run ex (running_or_force name f) (S (S n), net)) as [a s1] eqn:E. apply rof_limited in E.
    destruct a as [[a|]|e]; [cbn in H; injection H as _ <-; exact E| |injection H as _ <-; exact E].
    destruct s1 as [n1 net1]. apply pass_limited in H; [|exact O]. exact (limited_trans _ _ _ E H).
  Qed.

  (** The question before a change: what it answers about a registered component, and that it
      leaves everything as it is. *)
  Lemma status_run n net x v r s' : net port = Some x -> kget (i_devmap (pr_iface x)) k = Some v ->
    run ex (status name) (n, net) = (r, s') ->
    untouched port net (snd s') /\
    (r = Ok (PRefused KTimeout) \/ (exists d, r = Ok (PPassed (Some (mkC false d)))) \/
     (r = Ok (PPassed (Some (mkC true (CStatus (is_some (v_running v)))))) /\ snd s' port <> None)).
  Proof.
    intros X K H. unfold status, simple in H. rewrite run_with in H. cbn [fst snd] in H.
    unfold pass_on in H. rewrite run_bind in H. unfold ask in H. cbn [run] in H.
    unfold ex, hexec in H. cbn [fst snd] in H. rewrite X in H.
    destruct (handle (pr_hw x) (pr_name x) (i (S (S n))) (as_message (plain "cmp_status" c)) (pr_iface x)) as [s1 r1] eqn:E.
    pose proof (C96_reads _ _ _ (as_message (plain "cmp_status" c)) "cmp_status" _ _ _ eq_refl ltac:(cbn; tauto) E) as (D & _ & _ & L & V).
    assert (N : forall y p, p <> port -> put net port y p = net p)
      by (intros y p NP; unfold put; destruct (Z.eqb_spec p port); [contradiction|reflexivity]).
    assert (P : forall y, put net port y port = y) by (intros y; unfold put; rewrite Z.eqb_refl; reflexivity).
    destruct r1 as [rep|e].
    - destruct (picklable rep).
      + cbn [run] in H. injection H as <- <-. cbn [snd]. split; [split; [apply N|]; rewrite P; exists x; cbn; auto 6|]. rewrite P.
        destruct (IfaceModel.dr_ok rep) eqn:O.
        * right. right. destruct (status_says _ _ _ _ _ _ _ _ E K O) as [l Q]. unfold as_reply. rewrite O, Q.
          split; [reflexivity|discriminate].
        * right. left. unfold as_reply. rewrite O. eexists. reflexivity.
      + cbn [run] in H. injection H as <- <-. cbn [snd]. split; [split; [apply N|rewrite P; exact I]|left; reflexivity].
    - destruct e; cbn [run] in H; injection H as <- <-; cbn [snd]; (split; [split; [apply N|rewrite P; exact I]|left; reflexivity]).
  Qed.

  Lemma rof_run n net x v r s' : net port = Some x -> kget (i_devmap (pr_iface x)) k = Some v ->
    run ex (running_or_force name false) (n, net) = (r, s') ->
    untouched port net (snd s') /\
    ((exists why, r = Ok (Some (PRefused why))) \/ (r = Ok None /\ v_running v = None /\ snd s' port <> None)).
  Proof.
    intros X K H. unfold running_or_force in H. rewrite run_bind in H.
    destruct (run ex (status name) (n, net)) as [a s1] eqn:E.
    destruct (status_run _ _ _ _ _ _ X K E) as [U [->|[[d ->]|[-> S]]]].
    - cbn in H. injection H as <- <-. split; [exact U|]. left. eexists. reflexivity.
    - cbn in H. injection H as <- <-. split; [exact U|]. left. eexists. reflexivity.
    - destruct (v_running v); cbn in H; injection H as <- <-; (split; [exact U|]); [left; eexists; reflexivity|right; auto].
  Qed.

  (** The change itself. *)
  Lemma pass_success q n net rep s' : run ex (pass_on port q) (n, net) = (Ok (PPassed (Some rep)), s') ->
    exists x s1 r1, net port = Some x /\
      handle (pr_hw x) (pr_name x) (i n) (as_message q) (pr_iface x) = (s1, Ok r1) /\ rep = as_reply r1 /\
      snd s' port = Some (mkProcess (pr_hw x) (pr_name x) s1).
  Proof.
    intros H. unfold pass_on in H. rewrite run_bind in H. unfold ask in H. cbn [run] in H. unfold ex, hexec in H. cbn [fst snd] in H.
    destruct (net port) as [x|] eqn:X; [|cbn in H; discriminate H].
    destruct (handle (pr_hw x) (pr_name x) (i n) (as_message q) (pr_iface x)) as [s1 [r1|e]] eqn:E.
    - destruct (picklable r1); [|discriminate H]. cbn [run] in H. injection H as <- <-.
      exists x, s1, r1. split; [reflexivity|]. split; [exact E|]. split; [reflexivity|].
      cbn. unfold put. rewrite Z.eqb_refl. reflexivity.
    - destruct e; discriminate H.
  Qed.
End Command.

(** What a success of the two changing requests means for the process. *)
Lemma set_success h dn i c a w s s' r :
  handle h dn i (as_message (mkQ "cmp_set_attr" (c_address c) (c_channel c) (Some a) (Some w))) s = (s', Ok r) ->
  IfaceModel.dr_ok r = true ->
  i_devmap s' = i_devmap s /\
  exists u, i_log s' = (i_log s ++ [EvSet (place c) a u])%list /\
    match i_ver s with V21 => coerce_val (h_parser h) (h_attrs h (place c)) a w = Ok u | V20 => u = w end.
Proof.
  intros H O.
  rewrite (component_dispatch h dn i (as_message (mkQ "cmp_set_attr" (c_address c) (c_channel c) (Some a) (Some w))) "cmp_set_attr" s
            eq_refl ltac:(cbn; tauto)) in H.
  change (match rq_params (as_message (mkQ "cmp_set_attr" (c_address c) (c_channel c) (Some a) (Some w))) with
          Some p => p | None => no_params end) with
    (mkRp None (Some (c_address c)) (Some (c_channel c)) (Some a) (Some w) None None None) in H.
  set (p := mkRp None (Some (c_address c)) (Some (c_channel c)) (Some a) (Some w) None None None) in H.
  assert (E : component_method h "cmp_set_attr" p s = match i_ver s with V21 => cmp_set_attr h p s | V20 => cmp_set_attr20 h p s end)
    by (unfold component_method; destruct (i_ver s); reflexivity).
  rewrite E in H. clear E. destruct (i_ver s) eqn:V.
  - unfold cmp_set_attr20, log_errors, in_devmap in H. cbn [rp_key p rp_address rp_channel rp_attr rp_val need_arg] in H. rewrite V in H.
    destruct (kget (i_devmap s) (Some (c_address c), Some (c_channel c))) eqn:K; [|injection H as <- <-; discriminate O].
    unfold mbind, ret, device_at in H. rewrite K in H. cbn in H.
    match type of H with context [h_set20 h ?n ?k ?x ?y] => destruct (h_set20 h n k x y) as [u|e] end.
    + injection H as <- <-. split; [reflexivity|]. exists w. split; reflexivity.
    + destruct e; try discriminate H; injection H as <- <-; discriminate O.
  - unfold cmp_set_attr, log_errors, in_devmap in H. cbn [rp_key p rp_address rp_channel rp_attr rp_val need_arg] in H. rewrite V in H.
    destruct (kget (i_devmap s) (Some (c_address c), Some (c_channel c))) eqn:K; [|injection H as <- <-; discriminate O].
    unfold mbind, ret, device_at, mres in H. rewrite K in H. cbn [fst snd] in H. unfold place.
    destruct (coerce_val (h_parser h) (h_attrs h (Some (c_address c), Some (c_channel c))) a w) as [u|e] eqn:C.
    + cbn in H. match type of H with context [h_set h ?n ?k ?x ?y] => destruct (h_set h n k x y) as [[]|e] end.
      * injection H as <- <-. split; [reflexivity|]. exists u. split; reflexivity.
      * destruct e; try discriminate H; injection H as <- <-; discriminate O.
    + destruct e; try discriminate H; injection H as <- <-; discriminate O.
Qed.
