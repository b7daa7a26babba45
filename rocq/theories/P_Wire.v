(** * P_Wire: what matching and freeing mean for the equipment (C120, C121) *)
From Coq Require Import List String Ascii ZArith Bool Lia.
From Verif Require Import Base BaseFacts PyStr Types Prog World WorldFacts Replies AttrModel SpecAttr PipModel JobModel SpecJob
  MatchProofs JobProofs CancelProofs ExWorld P_Job IfaceModel SpecIface P_Attr P_Iface WireModel SpecWire WireProofs.
Import ListNotations.
Open Scope string_scope.
Open Scope Z_scope.

(** ** C120 *)

(** When the drivers of the world are processes with an interface object, the pipelines found
    for a method are exactly those that have, for every task, a component in the role of the
    task that is registered with its driver, knows the technique, and whose attributes take all
    the parameters; in the order of the devices file. *)
Theorem C120_matching : forall net w d method l w',
  answered_by w net -> steady net ->
  run exec (find_matching_pipelines d method) w = (Ok l, w') ->
  exists ps, selected (fully_equipped net w d method) (dvals (df_pipelines (dm_df d))) ps /\
             l = map pp_name ps.
Proof.
  intros net w d method l w' A S R.
  destruct (C26_matching d method w _ w' R) as (_ & M & _). destruct (M l eq_refl) as (ps & (f & F & E) & L).
  exists ps. split; [|exact L]. exists f. split; [|exact E].
  intros p I. rewrite (F p I). apply can_run_iff; assumption.
Qed.
Print Assumptions C120_matching.

(** Such a component then accepts the task when the process of the job asks it to start: the
    task is put at the end of its queue.  (A component of interface 2.0 whose thread was
    started before does not take another one, see C96.) *)
Theorem C120_accepted : forall net w d method p t,
  steady net -> fully_equipped net w d method p -> In t method ->
  exists cn cmp port x v, In (t_role t, cn) (pp_components p) /\ component_port w d cn cmp port /\
    net port = Some x /\
    kget (i_devmap (pr_iface x)) (Some (c_address cmp), Some (c_channel cmp)) = Some v /\
    (i_ver (pr_iface x) = V21 \/ v_run v = true -> forall i, exists s' v',
       handle (pr_hw x) (pr_name x) i (start_message t (c_address cmp) (c_channel cmp)) (pr_iface x)
         = (s', Ok (mkReply true (RTask t))) /\
       kget (i_devmap s') (Some (c_address cmp), Some (c_channel cmp)) = Some v' /\
       v_tasks v' = (v_tasks v ++ [ITask t])%list).
Proof.
  intros net w d method p t S F I.
  destruct (F t I) as (cn & R & cmp & port & x & v & caps & P & N & K & C & Q).
  exists cn, cmp, port, x, v. split; [exact R|]. split; [exact P|]. split; [exact N|]. split; [exact K|].
  intros V i. apply (start_accepted i (pr_hw x) (pr_name x) (pr_iface x) t _ _ v caps); auto.
  intros n. rewrite (S port x n 0%nat _ N). exact C.
Qed.
Print Assumptions C120_accepted.

(** The second question of [find_matching_pipelines] makes the first one redundant: a pipeline
    whose components accept the tasks of their roles has all the techniques. *)
Theorem C120_redundant : forall net w d method p,
  answered_by w net -> steady net ->
  (forall t, In t method -> exists cn, In (t_role t, cn) (pp_components p) /\ accepts w d cn t) ->
  can_run w d method p.
Proof.
  intros net w d method p A S H. apply (can_run_iff net); [assumption..|].
  intros t I. destruct (H t I) as (cn & R & Q). exists cn. split; [exact R|]. apply accepts_iff; assumption.
Qed.
Print Assumptions C120_redundant.

(** Two processes: that of the counters has the component on channel 2 of "addr1" registered, but
    not that on channel 1; that of "psutil" has its component.  The counters know "count" and have
    the attributes of [ex_attrs]. *)
Definition exn_hw (caps : list string) : hw :=
  mkHw ex_parser (fun _ _ => Ok tt) (fun _ _ => Ok caps) (fun _ => ex_attrs)
       (fun _ _ _ _ => Ok tt) (fun _ _ _ => Ok (VInt 1)) (fun _ _ => None) (fun _ => None) (fun _ _ _ v => Ok v).
Definition exn_iface (l : list (key * device)) : iface := mkIface V21 l [] None None 0 [].
Definition exn_busy : device := mkDev 1 (Some (ITask exw_task)) [IMeasure] [4; 5] (Some 5) true true.
Definition exn_net (l : list string) : network := fun port =>
  if Z.eqb port 7001 then
    Some (mkProcess (exn_hw ["count"; "hold"]) "example_counter"
            (exn_iface (map (fun c => ((Some "addr1", Some c), exn_busy)) l)))
  else if Z.eqb port 7002 then
    Some (mkProcess (exn_hw ["random"]) "psutil" (exn_iface [((Some "addr2", Some "10"), new_device 0)]))
  else None.
Definition exn_world (net : network) (w : world) : world :=
  mkWorld (w_jobs w) (w_seq w) (w_pips w) (w_drvs w) (w_daemon w) (w_files w) (w_dirs w)
    (w_jobdata w) (w_spawned w) (w_procs w)
    (fun p c => match net p with Some x => reply_of (exi_idle 0) x c | None => None end)
    (w_main w) (w_merge w) (w_crate w) (w_outdir w) (w_now w) (w_perf w) (w_log w).
Definition exn_method (v : pyval) : list task :=
  [mkTask "counter" "hold" (Some [("voltage", v); ("gain", VInt 5)]) None None None 1 10].

Lemma exn_answered net w : answered_by (exn_world net w) net.
Proof. intros port c _. cbn [w_driver exn_world]. destruct (net port); [exists (exi_idle 0)|]; reflexivity. Qed.
Lemma exn_steady l : steady (exn_net l).
Proof.
  intros port x n m k H. unfold exn_net in H.
  destruct (Z.eqb port 7001); [injection H as <-; reflexivity|].
  destruct (Z.eqb port 7002); [injection H as <-; reflexivity|discriminate H].
Qed.

Definition exn_found (l : list string) (method : list task) : res (list string) :=
  fst (run exec (find_matching_pipelines exw_daemon method) (exn_world (exn_net l) exw_up)).
Example C120_ex :
  answered_by (exn_world (exn_net ["2"]) exw_up) (exn_net ["2"]) /\ steady (exn_net ["2"]) /\
  (* both counters registered: three pipelines have one in the role *)
  exn_found ["1"; "2"] (exn_method (VStr "500 mV")) = Ok ["pip-both"; "pip-1"; "pip-2"] /\
  (* only that on channel 2 *)
  exn_found ["2"] (exn_method (VStr "500 mV")) = Ok ["pip-both"; "pip-2"] /\
  (* a value the attribute does not take; a technique of the other component of the pipeline *)
  exn_found ["1"; "2"] (exn_method (VStr "1 bar")) = Ok [] /\
  exn_found ["1"; "2"] [mkTask "counter" "random" None None None None 1 10] = Ok [].
Proof.
  split; [apply exn_answered|]. split; [apply exn_steady|]. repeat split; vm_compute; reflexivity.
Qed.

(** ** C121 *)

Lemma freed_name P : forall l l', Forall2 (fun p p' : pipstate => p' = p \/ (P p /\ p' = freed p)) l l' ->
  NoDup (map p_name l) -> forall n p p', get_pip l n = Some p -> get_pip l' n = Some p' -> p' <> p -> P p.
Proof.
  intros l l' F. induction F as [|a b l l' H F IH]; intros N n p p' G G' D; [discriminate G|].
  inversion N; subst. assert (E : p_name b = p_name a) by (destruct H as [->|[_ ->]]; reflexivity).
  cbn in G, G'. rewrite E in G'. destruct (String.eqb (p_name a) n).
  - injection G as <-. injection G' as <-. destruct H as [->|[H _]]; [now destruct D|exact H].
  - exact (IH H3 n p p' G G' D).
Qed.

(** Whatever the driver processes are, and whatever they are told meanwhile: after a pass of
    the pipeline manager, every registered component of a pipeline that held a job before the
    pass and holds none after it is idle -- it runs nothing, nothing waits in its queue, and no
    data of the previous job is left.  [new] is what the pass added to the log. *)
Theorem C121_idle : forall d w x w' new n p p',
  w_daemon w = Some d -> NoDup (map p_name (w_pips w)) ->
  (forall q, In q (w_pips w) -> has_char "'" (p_name q) = false) ->
  run exec pip_pass w = (x, w') -> w_log w' = (new ++ w_log w)%list ->
  get_pip (w_pips w) n = Some p -> get_pip (w_pips w') n = Some p' ->
  p_jobid p <> None -> p_jobid p' = None ->
  exists pl, dget (df_pipelines (dm_df d)) n = Some pl /\
    forall rc, In rc (pp_components pl) -> exists cmp port, component_port w d (snd rc) cmp port /\
      forall (net : network) i y v, net port = Some y ->
        kget (i_devmap (pr_iface (deal i 0 y (sent_to port new)))) (Some (c_address cmp), Some (c_channel cmp)) = Some v ->
        idle v.
Proof.
  intros d w x w' new n p p' D N Q R L G G' J J'.
  destruct (C36_free d w x w' D N Q R) as (pips' & es & E & F & A & _). subst w'.
  assert (LL : new = rev es).
  { rewrite ae_log in L. apply app_inv_tail in L. symmetry. exact L. }
  subst new. rewrite ae_pips in G'. cbn [set_pips w_pips] in G'.
  pose proof (freed_name (fun q => orphaned w q /\ exists pl, dget (df_pipelines (dm_df d)) (p_name q) = Some pl /\
      forall rc, In rc (pp_components pl) -> exists cmp port, component_port w d (snd rc) cmp port /\
        In (EvRequest port (CReset (c_address cmp) (c_channel cmp))) es) (w_pips w) pips') as F'.
  assert (F2 : Forall2 (fun q q' : pipstate => q' = q \/ ((orphaned w q /\ exists pl, dget (df_pipelines (dm_df d)) (p_name q) = Some pl /\
      forall rc, In rc (pp_components pl) -> exists cmp port, component_port w d (snd rc) cmp port /\
        In (EvRequest port (CReset (c_address cmp) (c_channel cmp))) es) /\ q' = freed q)) (w_pips w) pips').
  { clear - F. induction F as [|a b l l' H F IH]; constructor; [|exact IH]. destruct H as [H|(O & H & X)]; [left|right]; auto. }
  specialize (F' F2 N n p p' G G'). cbn beta in F'.
  destruct (get_pip_In _ _ _ G) as [I E]. rewrite E in F'.
  destruct F' as (_ & pl & P & H); [congruence|].
  exists pl. split; [exact P|]. intros rc C. destruct (H rc C) as (cmp & port & CP & X).
  exists cmp, port. split; [exact CP|]. intros net i y v Y K.
  assert (RS : forall c, In c (sent_to port (rev es)) -> is_reset c).
  { intros c O. apply sent_In, in_rev in O. destruct (A _ O) as (q & _ & _ & pl' & rc' & cmp' & port' & _ & _ & _ & T).
    injection T as _ ->. eexists _, _. reflexivity. }
  destruct (deal_facts i (sent_to port (rev es)) 0 y RS) as (_ & _ & _ & Z).
  destruct (Z (Some (c_address cmp), Some (c_channel cmp))) as (_ & _ & Z3 & _).
  apply (Z3 v (c_address cmp) (c_channel cmp) eq_refl); [|exact K].
  apply sent_In. apply -> in_rev. exact X.
Qed.
Print Assumptions C121_idle.

(** The rest is left alone: a component that is different after the pass belongs to a pipeline
    whose job is over; no component is registered or forgotten. *)
Theorem C121_others : forall d w x w' new port (net : network) i y k,
  w_daemon w = Some d -> NoDup (map p_name (w_pips w)) ->
  (forall q, In q (w_pips w) -> has_char "'" (p_name q) = false) ->
  run exec pip_pass w = (x, w') -> w_log w' = (new ++ w_log w)%list -> net port = Some y ->
  let y' := deal i 0 y (sent_to port new) in
  (kget (i_devmap (pr_iface y)) k = None <-> kget (i_devmap (pr_iface y')) k = None) /\
  (kget (i_devmap (pr_iface y')) k = kget (i_devmap (pr_iface y)) k \/
   exists p pl rc cmp, In p (w_pips w) /\ orphaned w p /\
     dget (df_pipelines (dm_df d)) (p_name p) = Some pl /\ In rc (pp_components pl) /\
     component_port w d (snd rc) cmp port /\ k = (Some (c_address cmp), Some (c_channel cmp))).
Proof.
  intros d w x w' new port net i y k D N Q R L Y y'.
  destruct (C36_free d w x w' D N Q R) as (pips' & es & E & F & A & _). subst w'.
  assert (LL : new = rev es).
  { rewrite ae_log in L. apply app_inv_tail in L. symmetry. exact L. }
  subst new.
  assert (RS : forall c, In c (sent_to port (rev es)) -> is_reset c).
  { intros c O. apply sent_In, in_rev in O. destruct (A _ O) as (q & _ & _ & pl' & rc' & cmp' & port' & _ & _ & _ & T).
    injection T as _ ->. eexists _, _. reflexivity. }
  destruct (deal_facts i (sent_to port (rev es)) 0 y RS) as (_ & _ & _ & Z).
  destruct (Z k) as (Z1 & _ & _ & Z4). split; [exact Z1|].
  assert (DD : (exists c, In c (sent_to port (rev es)) /\ exists a ch, k = at_ a ch /\ c = CReset a ch) \/
    (forall a ch, k = at_ a ch -> ~ In (CReset a ch) (sent_to port (rev es)))).
  { destruct k as [[a|] [ch|]]; [|right; intros ? ? T; discriminate T..].
    assert (DE : {In (CReset a ch) (sent_to port (rev es))} + {~ In (CReset a ch) (sent_to port (rev es))}).
    { clear - RS. induction (sent_to port (rev es)) as [|c l IH]; [right; intros []|].
      destruct IH as [IH|IH]; [intros c' I'; apply RS; right; exact I'|left; right; exact IH|].
      assert (DC : {c = CReset a ch} + {c <> CReset a ch}).
      { destruct c; try (right; discriminate).
        destruct (string_dec addr a), (string_dec ch0 ch); subst;
          [left; reflexivity|right; congruence..]. }
      destruct DC as [->|DC]; [left; left; reflexivity|right]. intros [T|T]; [congruence|contradiction]. }
    destruct DE as [DE|DE]; [left; eexists; split; [exact DE|]; eexists _, _; split; reflexivity|].
    right. intros a' ch' T. injection T as <- <-. exact DE. }
  destruct DD as [(c & O & a & ch & -> & ->)|DD]; [right|left; exact (Z4 DD)].
  apply sent_In, in_rev in O. destruct (A _ O) as (q & I & OR & pl & rc & cmp & port' & P & C & CP & T).
  injection T as <- -> ->. exists q, pl, rc, cmp. split; [exact I|]. split; [exact OR|]. split; [exact P|]. split; [exact C|]. split; [exact CP|reflexivity].
Qed.
Print Assumptions C121_others.

(** The process of job 2 is gone: pip-1 is freed, the counter on channel 1, which was busy, is
    idle; that on channel 2, which was in the same state, goes on. *)
Definition exn_after : option (list (key * device)) :=
  let w := exn_world (exn_net ["1"; "2"]) exw_down in
  let w' := snd (run exec pip_pass w) in
  let new := firstn (List.length (w_log w') - List.length (w_log w)) (w_log w') in
  option_map (fun y => i_devmap (pr_iface (deal (fun _ => exi_idle 0) 0 y (sent_to 7001 new)))) (exn_net ["1"; "2"] 7001).
Example C121_ex :
  map (fun p => (p_name p, p_jobid p)) (w_pips exw_down) = [("pip-both", None); ("pip-1", Some 2); ("pip-2", None)] /\
  map (fun p => (p_name p, p_jobid p)) (w_pips (snd (run exec pip_pass (exn_world (exn_net ["1"; "2"]) exw_down)))) =
    [("pip-both", None); ("pip-1", None); ("pip-2", None)] /\
  exn_after = Some [((Some "addr1", Some "1"), mkDev 1 None [] [] (Some 5) true false);
                    ((Some "addr1", Some "2"), exn_busy)].
Proof. repeat split; vm_compute; reflexivity. Qed.
