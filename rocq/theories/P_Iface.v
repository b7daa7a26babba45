(** * P_Iface: properties of the driver process (C48, C51, C71, C72) *)
From Coq Require Import List String ZArith QArith Bool Lia.
From Verif Require Import Base BaseFacts Types AttrModel IfaceModel SpecIface IfaceProofs IfaceProofs2.
Import ListNotations.
Open Scope string_scope.
Open Scope Z_scope.

(** ** A driver used in the examples *)
Definition exi_parser : parser :=
  mkParser (fun _ => None) (fun _ => None) (fun _ => Err ValueError) (fun _ => "...") (fun _ => Err TypeError) (Err TypeError).
Definition exi_attrs : dict attr :=
  [("gain", mkAttr TFloat true true None (Some (BNum (FFin 100%Q))) (Some (BNum (FFin 1%Q))) None)].
(** [make] is the outcome of DeviceFactory, [meas] an override of cmp_measure. *)
Definition exi_hw (make : nat -> key -> res unit) (meas : nat -> key -> option exn) : hw :=
  mkHw exi_parser make (fun _ _ => Ok ["hold"]) (fun _ => exi_attrs)
       (fun _ _ _ _ => Ok tt) (fun _ _ _ => Ok (VInt 1)) meas (fun _ => None)
       (fun _ _ _ v => Ok v).
Definition exi_good : hw := exi_hw (fun _ _ => Ok tt) (fun _ _ => None).
Definition exi_dead : hw := exi_hw (fun _ _ => Err RuntimeError) (fun _ _ => None).
Definition exi_key : key := (Some "a1", Some "1").
Definition exi_comps : list dcomp := [mkDcomp "psu" "a1" "1"; mkDcomp "other" "a1" "1"].
Definition exi_params : rparams := mkRp None (Some "a1") (Some "1") None None None None None.
Definition exi_turn (c : string) (p : option rparams) (t : Z) : turn_in :=
  mkTurn (Some (mkReq (Some c) p)) exi_comps (Some (mkReply true ROther)) t (fun _ d => d).
Definition exi_idle (t : Z) : turn_in := mkTurn None exi_comps None t (fun _ d => d).
Definition exi_new : dproc := new_proc V21 None None.

(** ** C48 *)

(** The count is compared with three by equality, so an attempt made on request when
    the count is three re-opens automatic registration, for any number of attempts. *)
Lemma retry_again : forall s, i_ver s = V21 -> i_devmap s = [] -> 4 <= retries_of s exi_key ->
  interval_of s = None ->
  exists s' a, dturn exi_dead "psu" (mkProc s None) (exi_turn "register" None 0) = (mkProc s' None, Some a, DServing) /\
    i_ver s' = V21 /\ i_devmap s' = [] /\ 4 <= retries_of s' exi_key /\ interval_of s' = None /\
    attempts exi_key s' = S (attempts exi_key s).
Proof.
  intros [v d r im ci n lg] V D R I. cbn in V, D, I. subst v d.
  unfold dturn, main_turn. cbn [ti_req exi_turn].
  set (s0 := mkIface V21 [] r im ci n lg) in *.
  assert (H : handle exi_dead "psu" (exi_turn "register" None 0) (mkReq (Some "register") None) s0 =
    let s1 := mkIface V21 [] (kset r exi_key (retries_of s0 exi_key + 1)) im ci (S n)
                (lg ++ [EvRegister true exi_key]) in
    (s1, Ok (mkReply (negb (existsb (fun kn => negb (snd kn =? 0)) (i_retries s1))) (RRetries (i_retries s1))))).
  { unfold handle. cbn [rq_cmd]. change (String.eqb "register" "register") with true. cbv iota.
    unfold bootstrap. cbn [exi_turn ti_comps exi_comps mfor].
    assert (E : retries_of s0 exi_key =? 3 = false) by (apply Z.eqb_neq; lia).
    unfold exi_key in E.
    unfold mbind at 1, boot_component at 1. cbn [dc_driver dc_address dc_channel].
    change (String.eqb "psu" "psu") with true. cbn [negb]. unfold mbind at 1 2, mget.
    cbn [i_devmap s0 kget i_ver]. fold s0. rewrite E. reflexivity. }
  change (dp_iface (mkProc (worked (ti_work (exi_turn "register" None 0)) (dp_iface (mkProc s0 None)))
                      (dp_last (mkProc s0 None)))) with s0. rewrite H. cbn zeta.
  eexists _, _. split.
  - cbn [dp_iface dp_last picklable dr_data negb rq_cmd].
    change (String.eqb "register" "stop") with false. cbv iota.
    unfold idle_turn, idle_measurements, mbind, mget. cbn [dp_iface dp_last].
    change (interval_of (mkIface V21 [] (kset r exi_key (retries_of s0 exi_key + 1)) im ci (S n)
                (lg ++ [EvRegister true exi_key]))) with (interval_of s0).
    rewrite I. reflexivity.
  - split; [reflexivity|]. split; [reflexivity|]. split.
    + unfold retries_of at 1. cbn [i_retries]. rewrite kget_kset, key_eqb_refl. lia.
    + split; [exact I|]. unfold attempts. cbn [i_log]. rewrite rev_app_distr. reflexivity.
Qed.

Theorem C48_refuted : forall n, exists l p a,
  dturns exi_dead "psu" exi_new l = (p, a, DServing) /\ (n <= attempts exi_key (dp_iface p))%nat.
Proof.
  assert (P : forall n s, i_ver s = V21 -> i_devmap s = [] -> 4 <= retries_of s exi_key -> interval_of s = None ->
    exists l p a, dturns exi_dead "psu" (mkProc s None) l = (p, a, DServing) /\ (n <= attempts exi_key (dp_iface p))%nat /\
      (attempts exi_key s <= attempts exi_key (dp_iface p))%nat /\ (List.length l = n)%nat /\
      (attempts exi_key s + n = attempts exi_key (dp_iface p))%nat).
  { induction n as [|n IH]; intros s V D R I.
    - exists [], (mkProc s None), []. cbn. repeat split; lia.
    - destruct (retry_again s V D R I) as (s' & a & T & V' & D' & R' & I' & A').
      destruct (IH s' V' D' R' I') as (l & p & al & E & _ & _ & LL & AA).
      exists (exi_turn "register" None 0 :: l), p, (Some a :: al). split.
      + cbn [dturns]. rewrite T, E. reflexivity.
      + rewrite A' in AA. cbn [List.length]. repeat split; lia. }
  intros n.
  set (l0 := [exi_turn "register" None 0; exi_turn "register" None 0; exi_turn "register" None 0;
              exi_turn "cmp_register" (Some exi_params) 0]).
  assert (D0 : exists s a, dturns exi_dead "psu" exi_new l0 = (mkProc s None, a, DServing) /\
            i_ver s = V21 /\ i_devmap s = [] /\ retries_of s exi_key = 4 /\ interval_of s = None).
  { eexists _, _. split; [vm_compute; reflexivity|]. repeat split. }
  destruct D0 as (s0 & a0 & E0 & V & D & R & I).
  destruct (P n s0 V D ltac:(lia) I) as (l & p & a & E & A & _).
  exists (l0 ++ l)%list, p, (a0 ++ a)%list. split; [|exact A].
  clear - E0 E. generalize dependent a0. generalize exi_new as q.
  induction l0 as [|i l0 IH]; intros q a0 E0.
  - cbn in E0. injection E0 as -> <-. exact E.
  - cbn [app dturns] in *. destruct (dturn exi_dead "psu" q i) as [[q1 b] f].
    destruct f; try discriminate.
    destruct (dturns exi_dead "psu" q1 l0) as [[q2 bl] f2] eqn:E1.
    injection E0 as -> <- ->. rewrite (IH _ _ E1). reflexivity.
Qed.
Print Assumptions C48_refuted.

(** Without requests to register a single component, whatever else the driver is
    asked and however registration fails, it tries a component at most three times
    since it was last registered successfully. *)
Theorem C48_attempts_partial : forall h driver imi c l p a f,
  (forall i, In i l -> ~ asks "cmp_register" i) ->
  dturns h driver (new_proc V21 imi c) l = (p, a, f) ->
  forall k, (attempts k (dp_iface p) <= 3)%nat.
Proof.
  intros h driver imi c l p a f N H. exact (dturns_counted _ _ _ _ _ _ _ H N (new_counted imi c)).
Qed.
Print Assumptions C48_attempts_partial.

(** Automatic registration leaves registered components alone. *)
Theorem C48_untouched : forall h driver l s s' r k d,
  bootstrap h driver l s = (s', r) -> kget (i_devmap s) k = Some d ->
  kget (i_devmap s') k = Some d.
Proof. exact bootstrap_keeps. Qed.
Print Assumptions C48_untouched.
Theorem C48_skip : forall h driver c s d,
  kget (i_devmap s) (Some (dc_address c), Some (dc_channel c)) = Some d ->
  boot_component h driver c s = (s, Ok tt).
Proof. exact boot_skips. Qed.
Print Assumptions C48_skip.

(** A successful registration resets the count. *)
Theorem C48_success_resets : forall h p s s' rep, i_ver s = V21 ->
  cmp_register h p s = (s', Ok rep) -> dr_ok rep = true ->
  retries_of s' (rp_address p, rp_channel p) = 0 /\
  attempts (rp_address p, rp_channel p) s' = 0%nat.
Proof. exact register_resets. Qed.
Print Assumptions C48_success_resets.

(** A failed registration can leave the component in the device map: when the device
    was created but its capabilities could not be read.  It is then never tried again,
    and the reply to every later register request is a failure. *)
Definition exi_nocaps : hw :=
  mkHw exi_parser (fun _ _ => Ok tt) (fun _ _ => Err RuntimeError) (fun _ => exi_attrs)
       (fun _ _ _ _ => Ok tt) (fun _ _ _ => Ok (VInt 1)) (fun _ _ => None) (fun _ => None)
       (fun _ _ _ v => Ok v).
Theorem C48_half_registered : exists h driver s s' rep,
  cmp_register h exi_params s = (s', Ok rep) /\ dr_ok rep = false /\ registered s' exi_key /\
  forall c, dc_driver c = driver -> (Some (dc_address c), Some (dc_channel c)) = exi_key ->
    boot_component h driver c s' = (s', Ok tt).
Proof.
  exists exi_nocaps, "psu", (new_iface V21 None None). eexists _, _.
  split; [vm_compute; reflexivity|]. split; [reflexivity|]. split; [eexists; left; reflexivity|].
  intros c D K. eapply boot_skips. rewrite K. reflexivity.
Qed.
Print Assumptions C48_half_registered.

Example C48_ex : let '(p, a, f) :=
    dturns exi_dead "psu" exi_new
      [exi_turn "register" None 0; exi_turn "register" None 0; exi_turn "register" None 0;
       exi_turn "register" None 0; exi_turn "register" None 0] in
  (attempts exi_key (dp_iface p), f, map (option_map dr_ok) a) =
  (3%nat, DServing, [Some false; Some false; Some false; Some false; Some false]).
Proof. vm_compute. reflexivity. Qed.
(** Two failures, then success. *)
Example C48_ex_success : let '(p, a, f) :=
    dturns (exi_hw (fun n _ => if Nat.ltb n 2 then Err RuntimeError else Ok tt) (fun _ _ => None)) "psu" exi_new
      [exi_turn "register" None 0; exi_turn "register" None 0; exi_turn "register" None 0] in
  (attempts exi_key (dp_iface p), map fst (i_devmap (dp_iface p)), map (option_map dr_ok) a) =
  (0%nat, [exi_key], [Some false; Some false; Some true]).
Proof. vm_compute. reflexivity. Qed.

(** ** C51 *)

(** A driver with the 2.1 interface refuses every component request for a component
    that is not registered, and its interface does not change. *)
Theorem C51_unknown_partial : forall h driver i q name s,
  i_ver s = V21 -> rq_cmd q = Some name -> In name component_methods ->
  ~ registered s (target q) ->
  handle h driver i q s = (s, Ok (mkReply false RNone)).
Proof. exact unknown_refused. Qed.
Print Assumptions C51_unknown_partial.

(** With the 2.0 interface it is false: the reply contains a dict view, which cannot
    be sent, and the driver process ends. *)
Theorem C51_refuted : exists h driver p i q name p' a f,
  ti_req i = Some q /\ rq_cmd q = Some name /\ In name component_methods /\
  ~ registered (dp_iface p) (target q) /\ i_ver (dp_iface p) = V20 /\
  dturn h driver p i = (p', a, f) /\ a = None /\ f = DDied RuntimeError.
Proof.
  exists exi_good, "psu", (new_proc V20 None None), (exi_turn "task_status" (Some exi_params) 0).
  eexists _, "task_status", _, _, _. split; [reflexivity|]. split; [reflexivity|].
  split; [apply mem_In; reflexivity|]. split; [intros [d []]|]. split; [reflexivity|].
  split; [vm_compute; reflexivity|]. split; reflexivity.
Qed.
Print Assumptions C51_refuted.

(** The 2.0 interface never answers such a request in any state: every component
    request for an unknown component ends the driver. *)
Theorem C51_dies20 : forall h driver i q name s,
  i_ver s = V20 -> rq_cmd q = Some name -> In name component_methods ->
  ~ registered s (target q) ->
  exists r, handle h driver i q s = (s, r) /\
    (r = Ok (mkReply false RView) \/ r = Err SystemExit) .
Proof.
  intros h driver i q name s V C I N.
  rewrite (component_dispatch _ _ _ _ _ _ C I).
  rewrite unknown_method20; [|exact V|apply kget_registered; unfold target in N; destruct (rq_params q); exact N].
  destruct (rp_key _); eexists; (split; [reflexivity|]); [right|left]; reflexivity.
Qed.
Print Assumptions C51_dies20.

Example C51_ex : forall name, In name component_methods ->
  let '(p, a, f) := dturns exi_good "psu" exi_new
    [exi_turn "register" None 0;
     exi_turn name (Some (mkRp None (Some "a1") (Some "2") None None None None None)) 1] in
  (map (option_map dr_ok) a, f, List.length (i_devmap (dp_iface p))) = ([Some true; Some false], DServing, 1%nat).
Proof.
  intros name I. cbn in I.
  repeat (destruct I as [<-|I]; [vm_compute; reflexivity|]). destruct I.
Qed.
Example C51_ex_known : let '(p, a, f) := dturns exi_good "psu" exi_new
    [exi_turn "register" None 0; exi_turn "cmp_measure" (Some exi_params) 1] in
  map (option_map dr_ok) a = [Some true; Some true].
Proof. vm_compute. reflexivity. Qed.

(** ** C71 *)

(** If a driver's own cmp_measure raises ValueError, the round is repeated in the next
    turn: [t_last] is not updated. *)
Theorem C71_refuted : exists h driver l p a d,
  dturns h driver (new_proc V21 (Some (Some d)) None) l = (p, a, DServing) /\ 0 < d /\
  ~ spaced d (rounds (dp_iface p)).
Proof.
  exists (exi_hw (fun _ _ => Ok tt) (fun _ _ => Some ValueError)), "psu",
    [exi_turn "register" None 0; exi_idle 1; exi_idle 2]. eexists _, _, 60.
  split; [vm_compute; reflexivity|]. split; [lia|].
  vm_compute. intros [H _]. destruct (H eq_refl).
Qed.
Print Assumptions C71_refuted.

(** With the class's own cmp_measure, and as long as the settings are not changed, the
    rounds are at least the configured interval apart, whatever the clock readings and
    requests; there are none without an interval. *)
Theorem C71_spaced_partial : forall h driver v imi c l p a f,
  (v = V21 -> plain_measure h) ->
  (forall i, In i l -> ~ asks "settings" i) ->
  dturns h driver (new_proc v imi c) l = (p, a, f) ->
  match (match imi with Some x => x | None => c end) with
  | Some d => spaced d (rounds (dp_iface p))
  | None => rounds (dp_iface p) = []
  end.
Proof.
  intros h driver v imi c l p a f PM NS H.
  exact (dturns_timed h driver _ l (new_proc v imi c) p a f PM NS (new_timed v imi c) H).
Qed.
Print Assumptions C71_spaced_partial.

Example C71_ex : let '(p, a, f) := dturns exi_good "psu" (new_proc V21 (Some (Some 60)) None)
    [exi_turn "register" None 0; exi_idle 1; exi_idle 59; exi_idle 60; exi_turn "status" None 100; exi_idle 125] in
  (rounds (dp_iface p), f) = ([0; 60; 125], DServing).
Proof. vm_compute. reflexivity. Qed.
(** Settings override the class attribute, also by None. *)
Example C71_ex_none : let '(p, a, f) := dturns exi_good "psu" (new_proc V21 (Some None) (Some 10))
    [exi_turn "register" None 0; exi_idle 100] in rounds (dp_iface p) = [].
Proof. vm_compute. reflexivity. Qed.

(** ** C72 *)

(** Registering on request is done outside the try block: a ValueError raised there
    ends the driver without a reply. *)
Theorem C72_refuted : exists h driver p i s' e,
  i_ver (dp_iface p) = V21 /\ asks "cmp_register" i /\
  cmp_register h exi_params (dp_iface p) = (s', Err e) /\ e = ValueError /\
  exists p', dturn h driver p i = (p', None, DDied RuntimeError).
Proof.
  exists (exi_hw (fun _ _ => Err ValueError) (fun _ _ => None)), "psu", exi_new,
    (exi_turn "cmp_register" (Some exi_params) 0).
  eexists _, _. split; [reflexivity|]. split; [eexists; split; reflexivity|].
  split; [vm_compute; reflexivity|]. split; [reflexivity|].
  eexists. vm_compute. reflexivity.
Qed.
Print Assumptions C72_refuted.

(** A driver with the 2.0 interface ends, without reply, whenever it is asked to
    register its components, because the interface has no attribute [retries]. *)
Theorem C72_register20 : forall h driver i p a p' f,
  i_ver (dp_iface p) = V20 -> asks "register" i ->
  dturn h driver p i = (p', a, f) -> a = None /\ f <> DServing /\ f <> DLeft.
Proof. exact register20_dies. Qed.
Print Assumptions C72_register20.

(** Every other bad request is answered with a failure and the driver keeps serving:
    requests without command or with an unknown one, and requests for an attribute of
    the interface whose call raises ValueError or AttributeError. *)
Theorem C72_survives_partial : forall h driver i q p,
  plain_measure h -> i_ver (dp_iface p) = V21 -> ti_req i = Some q ->
  senseless h V21 q \/ raises_value_error h (worked (ti_work i) (dp_iface p)) q ->
  exists p' d, dturn h driver p i = (p', Some (mkReply false d), DServing).
Proof. exact bad_request_survives. Qed.
Print Assumptions C72_survives_partial.

(** Setting an attribute out of range raises ValueError inside the driver. *)
Definition exi_set (v : pyval) : turn_in :=
  exi_turn "cmp_set_attr" (Some (mkRp None (Some "a1") (Some "1") (Some "gain") (Some v) None None None)) 5.
Example C72_ex : let '(p, a, f) := dturns exi_good "psu" exi_new
    [exi_turn "register" None 0; exi_turn "no_such_command" None 1;
     mkTurn (Some (mkReq None None)) [] None 2 (fun _ d => d); exi_set (VInt 1000); exi_set (VInt 50);
     exi_turn "stop" None 6; exi_idle 7] in
  (map (option_map dr_ok) a, f) =
  ([Some true; Some false; Some false; Some false; Some true; Some true], DLeft).
Proof. vm_compute. reflexivity. Qed.
(** Other errors are fatal: a value that cannot be converted to a float. *)
Example C72_ex_fatal : let '(p, a, f) := dturns exi_good "psu" exi_new
    [exi_turn "register" None 0; exi_set (VList [1; 2]); exi_idle 7] in
  (map (option_map dr_ok) a, f) = ([Some true; None], DDied SystemExit).
Proof. vm_compute. reflexivity. Qed.
(** So is asking for a data attribute, or a request to change the settings without
    parameters. *)
Example C72_ex_data : snd (dturns exi_good "psu" exi_new [exi_turn "devmap" None 0]) = DDied RuntimeError /\
  snd (dturns exi_good "psu" exi_new [exi_turn "settings" None 0]) = DDied RuntimeError.
Proof. split; vm_compute; reflexivity. Qed.
