(** * P_ByHand: passata commands, end to end with the driver processes (C123) *)
From Coq Require Import List String ZArith QArith Bool Lia.
From Verif Require Import Base BaseFacts Types Prog ProgFacts World AttrModel SpecAttr IfaceModel SpecIface IfaceProofs2 ExWorld
  P_Iface3 WireModel SpecWire WireProofs PassataModel ByHandModel SpecByHand ByHandProofs.
From Verif Require P_Wire P_Iface P_Attr.
Import ListNotations.
Open Scope string_scope.
Open Scope Z_scope.

(** Without [force], neither a reset nor a new value reaches a component that runs something:
    the command is refused, the component stays as it was and nothing is set.  (The question
    that comes first may end the process, if the code of the driver raises.) *)
Theorem C123_running : forall cmps table i net name c port x v p r net',
  registered_at cmps table net name c port x v -> v_running v <> None ->
  p = reset name false \/ (exists a w, p = set_attr name a w false) ->
  by_hand (Some cmps) table i p net = (r, net') ->
  (exists why, r = Ok (PRefused why)) /\ untouched port net net'.
Proof.
  intros cmps table i net name c port x v p r net' (C & T & X & K) R P H.
  assert (G : exists q, by_hand (Some cmps) table i p net =
      let (r, s) := run (hexec (Some cmps) table i)
        (x <- running_or_force name false;; match x with Some r0 => Ret r0 | None => pass_on port q end)%prog (2%nat, net) in (r, snd s)).
  { destruct P as [->|(a & w & ->)].
    - exists (plain "cmp_reset" c). unfold by_hand, reset. rewrite (run_with cmps table i name c port C T). reflexivity.
    - exists (mkQ "cmp_set_attr" (c_address c) (c_channel c) (Some a) (Some w)).
      unfold by_hand, set_attr. rewrite (run_with cmps table i name c port C T). reflexivity. }
  destruct G as [q G]. rewrite G, run_bind in H. clear G.
  destruct (run (hexec (Some cmps) table i) (running_or_force name false) (2%nat, net)) as [a s1] eqn:E.
  destruct (rof_run cmps table i name c port C T _ _ _ _ _ _ X K E) as [U [[why ->]|(_ & N & _)]]; [|contradiction].
  cbn in H. injection H as <- <-. split; [eexists; reflexivity|exact U].
Qed.
Print Assumptions C123_running.

(** Every command changes nothing but the component it is about. *)
Theorem C123_others : forall cmps table i net name c port p r net',
  dget cmps name = Some c -> table (c_driver c) = Some (Some port) -> command name p ->
  by_hand (Some cmps) table i p net = (r, net') -> only_there port (place c) net net'.
Proof.
  intros cmps table i net name c port p r net' C T P H.
  unfold by_hand in H. destruct (run (hexec (Some cmps) table i) p (0%nat, net)) as [r0 s0] eqn:E.
  injection H as -> <-.
  destruct P as [P|[[f ->]|[(a & w & f & ->)|(l & ->)]]].
  - cbn [In] in P. unfold status, attrs, capabilities, constants, get_last_data, measure in P.
    destruct P as [<-|[<-|[<-|[<-|[<-|[<-|[<-|[]]]]]]]];
      try solve [eapply (simple_limited cmps table i name c port C T); [|exact E]; cbn; tauto].
    unfold PassataModel.register in E. rewrite run_bind in E.
    assert (N : run (hexec (Some cmps) table i) (name_to_cmp name) (0%nat, net) = (Ok (inr (c, Some port)), (2%nat, net))).
    { unfold name_to_cmp, pact. rewrite run_bind, run_do. cbn [hexec fst snd]. rewrite C, run_bind, run_do. cbn [hexec fst snd].
      rewrite T. reflexivity. }
    rewrite N in E.
    eapply (pass_limited cmps table i c port); [|exact E]. repeat split. right. reflexivity.
  - unfold reset in E.
    eapply (guarded_limited cmps table i name c port C T (plain "cmp_reset" c) f); [repeat split; left; cbn; tauto|].
    rewrite (run_with cmps table i name c port C T) in *. exact E.
  - unfold set_attr in E.
    eapply (guarded_limited cmps table i name c port C T (mkQ "cmp_set_attr" (c_address c) (c_channel c) (Some a) (Some w)) f);
      [repeat split; left; cbn; tauto|].
    rewrite (run_with cmps table i name c port C T) in *. exact E.
  - unfold get_attrs in E. rewrite (run_with cmps table i name c port C T) in E.
    eapply (each_limited cmps table i c port). exact E.
Qed.
Print Assumptions C123_others.

(** A reset that is reported as a success leaves the component idle. *)
Theorem C123_reset : forall cmps table i net name c port f rep net',
  dget cmps name = Some c -> table (c_driver c) = Some (Some port) ->
  by_hand (Some cmps) table i (reset name f) net = (Ok (PPassed (Some rep)), net') -> c_ok rep = true ->
  exists y v, net' port = Some y /\ kget (i_devmap (pr_iface y)) (place c) = Some v /\ idle v.
Proof.
  intros cmps table i net name c port f rep net' C T H O.
  unfold by_hand, reset in H. rewrite (run_with cmps table i name c port C T), run_bind in H. cbn [fst snd] in H.
  destruct (run (hexec (Some cmps) table i) (running_or_force name f) (2%nat, net)) as [a [n1 net1]] eqn:E.
  assert (A : a = Ok None).
  { unfold running_or_force in E. destruct f; [cbn in E; injection E as <- _ _; reflexivity|]. rewrite run_bind in E.
    destruct (run (hexec (Some cmps) table i) (status name) (2%nat, net)) as [[[kk|[[[] []]|]|l]|e] s1];
      cbn in E; try (destruct running; cbn in E); injection E as <- ->; try reflexivity; try discriminate H. }
  subst a. destruct (run (hexec (Some cmps) table i) (pass_on port (plain "cmp_reset" c)) (n1, net1)) as [r2 s2] eqn:Q.
  injection H as -> <-. destruct (pass_success cmps table i port _ _ _ _ _ Q) as (x & s1 & r1 & X & S & -> & Y).
  change (as_message (plain "cmp_reset" c)) with (message (CReset (c_address c) (c_channel c))) in S.
  destruct (reset_step _ _ _ _ _ _ _ _ S) as (_ & _ & M & D).
  exists (mkProcess (pr_hw x) (pr_name x) s1). cbn [pr_iface].
  destruct (kget (i_devmap s1) (at_ (c_address c) (c_channel c))) as [v|] eqn:K.
  - exists v. split; [exact Y|]. split; [exact K|exact (D v eq_refl)].
  - exfalso. pose proof (proj2 M eq_refl) as K0. clear M K D.
    rewrite (component_dispatch _ _ _ (message (CReset (c_address c) (c_channel c))) "cmp_reset" _ eq_refl ltac:(cbn; tauto)) in S.
    destruct (i_ver (pr_iface x)) eqn:V.
    + rewrite unknown_method20 in S; [|exact V|exact K0]. injection S as _ <-. discriminate O.
    + rewrite unknown_method in S; [|exact V|exact K0]. injection S as _ <-. discriminate O.
Qed.
Print Assumptions C123_reset.

(** With [force], a registered component is always reset, whatever it does. *)
Theorem C123_forced : forall cmps table i net name c port x v,
  registered_at cmps table net name c port x v ->
  exists net' y v', by_hand (Some cmps) table i (reset name true) net = (Ok (PPassed (Some (mkC true CNone))), net') /\
    net' port = Some y /\ kget (i_devmap (pr_iface y)) (place c) = Some v' /\ idle v' /\ v_serial v' = v_serial v.
Proof.
  intros cmps table i net name c port x v (C & T & X & K).
  destruct (C96_answers (pr_hw x) (pr_name x) (i 2%nat) (as_message (plain "cmp_reset" c)) "cmp_reset" (pr_iface x) v _ _ eq_refl K eq_refl)
    as (s1 & E & K1 & _).
  exists (put net port (Some (mkProcess (pr_hw x) (pr_name x) s1))), (mkProcess (pr_hw x) (pr_name x) s1). eexists.
  split.
  - unfold by_hand, reset. rewrite (run_with cmps table i name c port C T), run_bind. cbn [fst snd running_or_force run].
    unfold pass_on. rewrite run_bind. unfold ask. cbn [run hexec fst snd]. rewrite X, E. reflexivity.
  - split; [unfold put; rewrite Z.eqb_refl; reflexivity|]. split; [exact K1|].
    destruct (i_ver (pr_iface x)); (split; [|reflexivity]); repeat split; reflexivity.
Qed.
Print Assumptions C123_forced.

(** A value whose setting is reported as a success was handed to the code of the driver once --
    with interface 2.1 as the value of the attribute's type and unit that [coerce_val] makes of it
    -- and what the component runs, has waiting or has measured is as before. *)
Theorem C123_set : forall cmps table i net name c port x v a w f rep net',
  registered_at cmps table net name c port x v ->
  by_hand (Some cmps) table i (set_attr name a w f) net = (Ok (PPassed (Some rep)), net') -> c_ok rep = true ->
  (f = true \/ v_running v = None) /\
  exists y u, net' port = Some y /\ i_devmap (pr_iface y) = i_devmap (pr_iface x) /\
    i_log (pr_iface y) = (i_log (pr_iface x) ++ [EvSet (place c) a u])%list /\
    match i_ver (pr_iface x) with
    | V21 => coerce_val (h_parser (pr_hw x)) (h_attrs (pr_hw x) (place c)) a w = Ok u
    | V20 => u = w
    end.
Proof.
  intros cmps table i net name c port x v a w f rep net' (C & T & X & K) H O.
  unfold by_hand, set_attr in H. rewrite (run_with cmps table i name c port C T), run_bind in H. cbn [fst snd] in H.
  destruct (run (hexec (Some cmps) table i) (running_or_force name f) (2%nat, net)) as [b [n1 net1]] eqn:E.
  assert (A : b = Ok None /\ (f = true \/ v_running v = None) /\ exists x1, net1 port = Some x1 /\ pr_hw x1 = pr_hw x /\
    i_devmap (pr_iface x1) = i_devmap (pr_iface x) /\ i_log (pr_iface x1) = i_log (pr_iface x) /\ i_ver (pr_iface x1) = i_ver (pr_iface x)).
  { destruct f.
    - cbn in E. injection E as <- <- <-. split; [reflexivity|]. split; [left; reflexivity|]. exists x. auto 6.
    - destruct (rof_run cmps table i name c port C T _ _ _ _ _ _ X K E) as [[_ U] [[why ->]|(-> & N & S)]]; [discriminate H|].
      split; [reflexivity|]. split; [right; exact N|]. cbn [snd] in U, S. destruct (net1 port) as [y|]; [|contradiction].
      destruct U as (x0 & X0 & U1 & _ & U2 & U3 & U4). rewrite X in X0. injection X0 as <-. exists y. auto 6. }
  destruct A as (-> & F & x1 & X1 & A1 & A2 & A3 & A4). split; [exact F|].
  match type of H with context [run ?e ?p ?s] => destruct (run e p s) as [r2 s2] eqn:Q end. injection H as -> <-.
  destruct (pass_success cmps table i port _ _ _ _ _ Q) as (x2 & s1 & r1 & X2 & S & -> & Y).
  rewrite X1 in X2. injection X2 as <-.
  destruct (set_success _ _ _ _ _ _ _ _ _ S O) as (D & u & L & V).
  exists (mkProcess (pr_hw x1) (pr_name x1) s1), u. cbn [pr_iface].
  rewrite D, L, A2, A3. rewrite A4, A1 in V. auto.
Qed.
Print Assumptions C123_set.

(** Two counters: one runs a task, for the other one a task is waiting to be begun. *)
Definition exb_wait : device := mkDev 2 None [ITask exw_task] [] None true true.
Definition exb_net : nodes := fun port =>
  if Z.eqb port 7001 then
    Some (mkProcess (P_Wire.exn_hw ["count"]) "example_counter"
            (P_Wire.exn_iface [((Some "addr1", Some "1"), P_Wire.exn_busy); ((Some "addr1", Some "2"), exb_wait)]))
  else None.
Definition exb_table (n : string) : option (option Z) := if String.eqb n "example_counter" then Some (Some 7001) else None.
Definition exb_cmps : dict component := [("c1", mkComponent "c1" "dev1" "example_counter" "addr1" "1");
  ("c2", mkComponent "c2" "dev1" "example_counter" "addr1" "2")].
Definition exb_see {A} (x : res A * nodes) : res A * option (list (key * device) * list IfaceModel.event) :=
  (fst x, option_map (fun y => (i_devmap (pr_iface y), i_log (pr_iface y))) (snd x 7001)).
Definition exb_do {A} (p : ppgm A) := exb_see (by_hand (Some exb_cmps) exb_table (fun _ => P_Iface.exi_idle 0) p exb_net).
Definition exb_k (c : string) : key := (Some "addr1", Some c).
Definition exb_before := Some ([(exb_k "1", P_Wire.exn_busy); (exb_k "2", exb_wait)], @nil IfaceModel.event).
Example C123_ex :
  (* the first runs: refused; everything as before *)
  exb_do (reset "c1" false) = (Ok (PRefused KRunning), exb_before) /\
  exb_do (set_attr "c1" "gain" (VInt 3) false) = (Ok (PRefused KRunning), exb_before) /\
  (* unless forced *)
  exb_do (set_attr "c1" "gain" (VInt 3) true) =
    (Ok (PPassed (Some (mkC true (COther (VFloat (FFin 3%Q)))))),
     Some ([(exb_k "1", P_Wire.exn_busy); (exb_k "2", exb_wait)], [EvSet (exb_k "1") "gain" (VFloat (FFin 3%Q))])) /\
  exb_do (reset "c1" true) =
    (Ok (PPassed (Some (mkC true CNone))),
     Some ([(exb_k "1", mkDev 1 None [] [] (Some 5) true false); (exb_k "2", exb_wait)], [])) /\
  (* a value the attribute does not take *)
  exb_do (set_attr "c2" "gain" (VInt 300) false) = (Ok (PPassed (Some (mkC false CNone))), exb_before).
Proof. repeat split; vm_compute; reflexivity. Qed.

(** "A component with a task is not reset unless forced" is false: the question is only whether
    something runs, and a task that was accepted but not yet begun is dropped. *)
Theorem C123_refuted : exists cmps table i net name c port x v net' y v' t,
  registered_at cmps table net name c port x v /\ v_tasks v = [ITask t] /\
  by_hand (Some cmps) table i (reset name false) net = (Ok (PPassed (Some (mkC true CNone))), net') /\
  net' port = Some y /\ kget (i_devmap (pr_iface y)) (place c) = Some v' /\ v_tasks v' = [] /\ v_running v' = None.
Proof.
  exists exb_cmps, exb_table, (fun _ => P_Iface.exi_idle 0), exb_net, "c2", (mkComponent "c2" "dev1" "example_counter" "addr1" "2"), 7001.
  assert (E : exb_do (reset "c2" false) = (Ok (PPassed (Some (mkC true CNone))),
    Some ([(exb_k "1", P_Wire.exn_busy); (exb_k "2", mkDev 2 None [] [] None true false)], []))) by (vm_compute; reflexivity).
  unfold exb_do, exb_see in E.
  destruct (by_hand (Some exb_cmps) exb_table (fun _ => P_Iface.exi_idle 0) (reset "c2" false) exb_net) as [r net'] eqn:H.
  cbn [fst snd] in E. destruct (net' 7001) as [y|] eqn:Y; [|discriminate E]. cbn [option_map] in E. injection E as -> M _.
  eexists _, exb_wait, net', y, (mkDev 2 None [] [] None true false), exw_task.
  split; [split; [reflexivity|]; split; [reflexivity|]; split; reflexivity|].
  split; [reflexivity|]. split; [reflexivity|]. split; [exact Y|]. split; [rewrite M; reflexivity|]. split; reflexivity.
Qed.
Print Assumptions C123_refuted.
