(** * P_Settings: the settings a driver works with (C125); the messages of passata (C123) *)
From Coq Require Import List String ZArith Bool Lia.
From Verif Require Import Base BaseFacts Types ConfigModel Prog ProgFacts World Replies CmdModel TomatoModel AttrModel IfaceModel
  SpecIface IfaceProofs IfaceProofs2 WireModel PassataModel ByHandModel SpecSettings ExWorld P_Iface.
Import ListNotations.
Open Scope string_scope.
Open Scope Z_scope.

(** ** C123: passata's requests are the messages *)

(** The two models of the requests of passata agree: what [PassataModel] sends is the message
    [WireModel] has for that request. *)
Theorem C123_messages : forall c a v,
  let ad := c_address c in let ch := c_channel c in
  as_message (plain "cmp_status" c) = message (CCmpStatus ad ch) /\
  as_message (plain "cmp_register" c) = message (CRegisterCmp ad ch) /\
  as_message (plain "cmp_attrs" c) = message (CAttrs ad ch) /\
  as_message (plain "cmp_capabilities" c) = message (CCapabilities ad ch) /\
  as_message (plain "cmp_constants" c) = message (CConstants ad ch) /\
  as_message (plain "cmp_last_data" c) = message (CLastData ad ch) /\
  as_message (plain "cmp_measure" c) = message (CMeasure ad ch) /\
  as_message (plain "cmp_reset" c) = message (CReset ad ch) /\
  as_message (mkQ "cmp_get_attr" ad ch (Some a) None) = message (CGetAttr a ad ch) /\
  as_message (mkQ "cmp_set_attr" ad ch (Some a) (Some v)) = message (CSetAttr a v ad ch).
Proof. intros c a v ad ch. repeat split. Qed.
Print Assumptions C123_messages.

Example C123_ex_messages :
  message (CGetAttr "voltage" "a1" "1") =
    mkReq (Some "cmp_get_attr") (Some (mkRp None (Some "a1") (Some "1") (Some "voltage") None None None None)) /\
  message (CMeasure "a1" "1") =
    mkReq (Some "cmp_measure") (Some (mkRp None (Some "a1") (Some "1") None None None None None)) /\
  seen_data RView = DdDict 0.
Proof. repeat split. Qed.

(** ** C125 *)

Lemma tomato_no_settings : forall q, of_tomato q -> rq_cmd q <> Some "settings".
Proof.
  intros q [(c & ->)|[(n & p & I & ->)|(r & I & ->)]].
  - destruct c; discriminate.
  - cbn [rq_cmd]. intros E. injection E as ->. cbn [In job_requests] in I.
    repeat (destruct I as [I|I]; [discriminate|]). exact I.
  - cbn [rq_cmd as_message]. intros E. injection E as E. rewrite E in I. cbn [In hand_requests] in I.
    repeat (destruct I as [I|I]; [discriminate|]). exact I.
Qed.

Definition same_imi (s s' : iface) : Prop := i_imi s' = i_imi s /\ i_class_imi s' = i_class_imi s.
Lemma same_imi_refl : forall s, same_imi s s.
Proof. split; reflexivity. Qed.
Lemma same_imi_trans : forall a b c, same_imi a b -> same_imi b c -> same_imi a c.
Proof. intros a b c [A B] [C D]. split; congruence. Qed.
Lemma no_round_same : forall s s', no_round s s' -> same_imi s s'.
Proof. intros s s' (_ & A & B & _). split; [exact A|exact B]. Qed.

Lemma idle_same : forall h now last s s' r,
  idle_measurements h now last s = (s', r) -> same_imi s s'.
Proof.
  intros h now last s s' r H. unfold idle_measurements in H. unfold mbind at 1, mget in H.
  destruct (interval_of s) as [d|]; [|injection H as <- _; apply same_imi_refl].
  destruct (match last with Some t => now - t <? d | None => false end);
    [injection H as <- _; apply same_imi_refl|].
  unfold mbind at 1, mput in H. unfold mbind at 1 in H.
  match type of H with context [mfor ?l ?f ?s0] => destruct (mfor l f s0) as [s1 x] eqn:E end.
  pose proof (no_round_same _ _ (measures_no_round _ _ _ _ _ E)) as N.
  assert (N' : same_imi s s1) by (destruct N as [A B]; split; [exact A|exact B]).
  destruct x; injection H as <- _; exact N'.
Qed.

Lemma turn_same : forall h driver p i p' a f,
  (forall q, ti_req i = Some q -> rq_cmd q <> Some "settings") ->
  dturn h driver p i = (p', a, f) -> same_imi (dp_iface p) (dp_iface p').
Proof.
  intros h driver p i p' a f NS H. unfold dturn in H.
  set (s0 := worked (ti_work i) (dp_iface p)) in *.
  assert (W : same_imi (dp_iface p) s0) by (split; reflexivity).
  assert (IT : forall s f1 p1, idle_turn h i (IfaceModel.mkProc s (dp_last p)) = (p1, f1) ->
                same_imi s (dp_iface p1)).
  { intros s f1 p1 E. unfold idle_turn in E. cbn [dp_iface dp_last] in E.
    destruct (idle_measurements h (ti_clock i) (dp_last p) s) as [s1 r] eqn:EI.
    pose proof (idle_same _ _ _ _ _ _ EI) as N.
    destruct r as [t|e]; [|destruct e]; injection E as <- _; exact N. }
  unfold main_turn in H. cbn [dp_iface dp_last] in H.
  destruct (ti_req i) as [q|].
  - destruct (handle h driver i q s0) as [s r] eqn:HD.
    pose proof (no_round_same _ _ (handle_no_round _ _ _ _ _ _ _ HD (NS q eq_refl))) as N.
    pose proof (same_imi_trans _ _ _ W N) as N2.
    destruct r as [rep|e]; [|injection H as <- _ _; exact N2].
    destruct (negb (picklable rep)); [injection H as <- _ _; exact N2|].
    destruct (match rq_cmd q with Some c => _ | None => false end); [injection H as <- _ _; exact N2|].
    destruct (idle_turn h i _) as [p1 f1] eqn:EI. injection H as <- _ _.
    exact (same_imi_trans _ _ _ N2 (IT _ _ _ EI)).
  - destruct (idle_turn h i _) as [p1 f1] eqn:EI. injection H as <- _ _.
    exact (same_imi_trans _ _ _ W (IT _ _ _ EI)).
Qed.

(** Whatever tomato sends to a driver process, and whatever the driver's code does, the
    interval the process works with is the one it was started with. *)
Theorem C125_kept : forall h driver l p p' a f, only_tomato l ->
  dturns h driver p l = (p', a, f) -> interval_of (dp_iface p') = interval_of (dp_iface p).
Proof.
  intros h driver l p p' a f OT H.
  assert (S : same_imi (dp_iface p) (dp_iface p')).
  { revert p p' a f H. induction l as [|i l IH]; intros p p' a f H; cbn in H.
    - injection H as <- _ _. apply same_imi_refl.
    - destruct (dturn h driver p i) as [[p1 a1] f1] eqn:E.
      assert (N : same_imi (dp_iface p) (dp_iface p1)).
      { apply (turn_same h driver p i p1 a1 f1); [|exact E].
        intros q Q. apply tomato_no_settings. apply (OT i q); [left; reflexivity|exact Q]. }
      destruct f1; try (injection H as <- _ _; exact N).
      destruct (dturns h driver p1 l) as [[p2 a2] f2] eqn:E2. injection H as <- _ _.
      apply (same_imi_trans _ _ _ N). apply (IH (fun j q I => OT j q (or_intror I)) _ _ _ _ E2). }
  unfold interval_of. destruct S as [-> ->]. reflexivity.
Qed.
Print Assumptions C125_kept.

(** A driver started with settings that have an interval measures, between tasks, that many
    seconds apart, for as long as only tomato talks to it. *)
Theorem C125_rounds : forall h driver v settings n c l p a f,
  interval_in settings = Some (Some n) ->
  (v = V21 -> plain_measure h) -> only_tomato l ->
  dturns h driver (new_proc v (interval_in settings) c) l = (p, a, f) ->
  spaced n (rounds (dp_iface p)).
Proof.
  intros h driver v st n c l p a f E PM OT H.
  pose proof (C71_spaced_partial h driver v (interval_in st) c l p a f PM) as S.
  rewrite E in S, H. apply S; [|exact H].
  intros i I (q & Q & R). exact (tomato_no_settings q (OT i q I Q) R).
Qed.
Print Assumptions C125_rounds.

(** The settings of a driver in the configuration in force. *)
Definition settings_in_force (w : world) (name : string) : option (dict sval) :=
  match w_daemon w with
  | Some d => match dget (df_drivers (dm_df d)) name with Some x => Some (dr_settings x) | None => None end
  | None => None
  end.

(** The files of the example with another interval for psutil. *)
Definition exs_cfg : cfgfiles :=
  mkCfg (Some (mkSettings "/jobs" "/devices.yml" [("backup", "/repo")]
                 (Some [("psutil", [("idle_measurement_interval", SvInt 20)])])))
        (fun p => if String.eqb p "/devices.yml" then Some exw_file else None).
Definition exs_w : world :=
  mkWorld (w_jobs exw_up) (w_seq exw_up) (w_pips exw_up) (w_drvs exw_up) (w_daemon exw_up) exs_cfg
    (w_dirs exw_up) (w_jobdata exw_up) (w_spawned exw_up) (w_procs exw_up) (w_driver exw_up)
    (w_main exw_up) (w_merge exw_up) (w_crate exw_up) (w_outdir exw_up) (w_now exw_up) (w_perf exw_up)
    (w_log exw_up).
Definition exs_turns : list turn_in :=
  [exi_turn "register" None 0; exi_idle 10; exi_turn "status" None 20; exi_idle 30].

(** A reload changes the interval of a driver whose process runs from 10 to 20: it is reported
    as successful, the new value is in the configuration in force, the process is sent nothing;
    whatever tomato sends to it afterwards, it keeps the old interval, and so measures at 0,
    10, 20, 30. *)
Theorem C125_refuted : exists w w' r old new,
  run exec (tomato_reload 1234) w = (Ok r, w') /\ r_ok r = true /\
  (exists x, In x (w_drvs w') /\ dv_name x = "psutil" /\ dv_pid x <> None) /\
  settings_in_force w "psutil" = Some old /\ settings_in_force w' "psutil" = Some new /\
  interval_in old = Some (Some 10) /\ interval_in new = Some (Some 20) /\
  w_log w' = w_log w /\
  (forall h v c l p a f, only_tomato l ->
     dturns h "psutil" (new_proc v (interval_in old) c) l = (p, a, f) ->
     interval_of (dp_iface p) = Some 10) /\
  only_tomato exs_turns /\
  let '(p, _, f) := dturns exi_good "psutil" (new_proc V21 (interval_in old) None) exs_turns in
  rounds (dp_iface p) = [0; 10; 20; 30] /\ f = DServing.
Proof.
  set (x := run exec (tomato_reload 1234) exs_w).
  exists exs_w, (snd x).
  destruct (fst x) as [r|e] eqn:E; [|vm_compute in E; discriminate].
  exists r, [("idle_measurement_interval", SvInt 10)], [("idle_measurement_interval", SvInt 20)].
  split; [unfold x in E |- *; destruct (run exec (tomato_reload 1234) exs_w); cbn in *; now rewrite E|].
  split; [vm_compute in E; injection E as <-; reflexivity|].
  split.
  { exists (exw_drv "psutil" 7002). split; [vm_compute; right; left; reflexivity|split; [reflexivity|discriminate]]. }
  repeat (split; [vm_compute; reflexivity|]).
  split.
  { intros h v c l p a f OT H. rewrite (C125_kept h "psutil" l _ p a f OT H). reflexivity. }
  split.
  { intros i q I Q. left. cbn [In exs_turns] in I.
    destruct I as [<-|[<-|[<-|[<-|[]]]]]; cbn in Q; try discriminate; injection Q as <-.
    - exists World.CRegister. reflexivity.
    - exists World.CStatus. reflexivity. }
  vm_compute. split; reflexivity.
Qed.
Print Assumptions C125_refuted.

(** The request "settings", which nobody sends, would have changed the interval. *)
Example C125_ex :
  let '(p, _, f) := dturns exi_good "psutil" (new_proc V21 (Some (Some 10)) None)
    [exi_turn "register" None 0; exi_turn "settings" (Some (mkRp None None None None None None None (Some (Some 20)))) 5;
     exi_idle 10; exi_idle 20; exi_idle 30] in
  (rounds (dp_iface p), f) = ([0; 20], DServing).
Proof. vm_compute. reflexivity. Qed.
