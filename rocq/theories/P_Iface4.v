(** * P_Iface4: requests that end a driver (C101) *)
From Coq Require Import List String ZArith QArith Bool Lia.
From Verif Require Import Base BaseFacts Types AttrModel SpecAttr IfaceModel SpecIface SpecDie IfaceProofs IfaceProofs2
  IfaceProofs3 IfaceProofs4 IfaceProofs5 IfaceProofs6 P_Attr P_Iface.
Import ListNotations.
Open Scope string_scope.
Open Scope Z_scope.

(** A component with the attributes of P_Attr. *)
Definition exd_hw : hw :=
  mkHw ex_parser (fun _ _ => Ok tt) (fun _ _ => Ok ["hold"]) (fun _ => ex_attrs)
       (fun _ _ _ _ => Ok tt) (fun _ _ _ => Ok (VInt 1)) (fun _ _ => None) (fun _ => None)
       (fun _ _ _ v => Ok v).
Definition exd_start (l : dict pyval) : turn_in :=
  exi_turn "task_start" (Some (mkRp (Some exi_key) None None None None (Some (ex_task "hold" l)) None None)) 0.
Definition exd_set (a : string) (v : pyval) : turn_in :=
  exi_turn "cmp_set_attr" (Some (mkRp (Some exi_key) None None (Some a) (Some v) None None None)) 0.

(** A task with a list for a number ends the driver, instead of being refused: the requests
    that follow are not answered.  All calls of the driver's own code succeed. *)
Theorem C101_refuted : exists h driver l1 i l2 p a,
  working h /\ Forall (proper_turn h) l1 /\ Forall (proper_turn h) l2 /\ l2 <> [] /\
  (exists q, ti_req i = Some q /\ rq_cmd q = Some "task_start" /\ rp_task (params_of q) <> None) /\
  dturns h driver (new_proc V21 None None) (l1 ++ i :: l2)%list = (p, a, DDied SystemExit) /\
  (List.length a <= List.length (l1 ++ [i])%list)%nat.
Proof.
  exists exd_hw, "psu", [exi_turn "register" None 0], (exd_start [("count", VList [1; 2])]), [exi_turn "status" None 1].
  eexists _, _. split; [|split; [|split; [|split; [|split; [|split]]]]].
  - repeat split; intros; cbn; auto. eexists. reflexivity.
  - constructor; [|constructor]. intros q [= <-]. right. exists "register". cbn. tauto.
  - constructor; [|constructor]. intros q [= <-]. right. exists "status". cbn. tauto.
  - discriminate.
  - eexists. split; [reflexivity|]. split; [reflexivity|discriminate].
  - vm_compute. reflexivity.
  - vm_compute. repeat constructor.
Qed.
Print Assumptions C101_refuted.

(** As long as the requests are among those that tomato itself makes, with all their
    arguments and with values that can be turned into the type of their attribute, or make no
    sense at all, the driver serves, and every request is answered: whether or not the
    components are registered, the values are in range, the attributes exist, and whatever
    the worker threads do.  Missing are lists for quantities. *)
Theorem C101_serves_partial : forall h driver imi c l,
  working h -> Forall (proper_turn h) l ->
  exists p a, dturns h driver (new_proc V21 imi c) l = (p, a, DServing) /\ Forall2 answered l a.
Proof. intros h driver imi c l W P. apply turns_total; [exact W|reflexivity|exact P]. Qed.
Print Assumptions C101_serves_partial.

(** A value that cannot be turned into the type of the attribute ends the driver, without an
    answer, in any state with the component registered.  (Second case: the conversion itself
    does not come back.) *)
Theorem C101_value_dies : forall h driver p i q a v props,
  i_ver (dp_iface p) = V21 -> kget (i_devmap (dp_iface p)) (target q) <> None ->
  ti_req i = Some q -> rq_cmd q = Some "cmp_set_attr" ->
  rp_attr (params_of q) = Some a -> rp_val (params_of q) = Some v ->
  dget (h_attrs h (target q)) a = Some props -> at_rw props = true -> spoils (h_parser h) (at_type props) v ->
  exists p' f, dturn h driver p i = (p', None, f) /\ (f = DDied SystemExit \/ f = DHung).
Proof. exact value_dies_lemma. Qed.
Print Assumptions C101_value_dies.

(** The same for the parameters of a task, if those before it are accepted. *)
Theorem C101_task_dies : forall h driver p i q name t l1 a v l2 props,
  i_ver (dp_iface p) = V21 -> kget (i_devmap (dp_iface p)) (target q) <> None ->
  ti_req i = Some q -> rq_cmd q = Some name -> name = "task_start" \/ name = "task_validate" ->
  rp_task (params_of q) = Some t ->
  (forall n, exists caps, h_caps h n (target q) = Ok caps /\ In (t_technique t) caps) ->
  t_params t = Some (l1 ++ (a, v) :: l2)%list ->
  Forall (fun x => validate_param (h_parser h) (h_attrs h (target q)) (fst x) (snd x) = Ok true) l1 ->
  dget (h_attrs h (target q)) a = Some props -> at_rw props = true -> spoils (h_parser h) (at_type props) v ->
  exists p' f, dturn h driver p i = (p', None, f) /\ (f = DDied SystemExit \/ f = DHung).
Proof. exact task_dies_lemma. Qed.
Print Assumptions C101_task_dies.

(** A request without the argument it needs ends the driver too. *)
Theorem C101_missing_dies : forall h driver p i q name,
  i_ver (dp_iface p) = V21 -> kget (i_devmap (dp_iface p)) (target q) <> None ->
  ti_req i = Some q -> rq_cmd q = Some name ->
  (In name ["cmp_set_attr"; "cmp_get_attr"] /\ rp_attr (params_of q) = None) \/
  (name = "cmp_set_attr" /\ rp_val (params_of q) = None) \/
  (In name ["task_start"; "task_validate"] /\ rp_task (params_of q) = None) ->
  exists p', dturn h driver p i = (p', None, DDied SystemExit).
Proof. exact missing_dies_lemma. Qed.
Print Assumptions C101_missing_dies.

(** ** Examples *)
Definition exd_run (l : list turn_in) : list (option bool) * dfate :=
  match dturns exd_hw "psu" exi_new (exi_turn "register" None 0 :: l) with
  | (_, a, f) => (map (option_map dr_ok) a, f)
  end.
(** Bad values that are refused, a task that is refused, one that is accepted, and requests
    about components that are not there: the driver goes on. *)
Example C101_ex_serves :
  exd_run [exd_set "gain" (VInt 1000); exd_set "nothing" (VInt 1); exd_set "count" (VStr "x");
           exd_set "gain" (VInt 10); exd_start [("mode", VStr "medium")]; exd_start [("count", VInt 3)];
           exi_turn "task_stop" None 0; exi_idle 1; exi_turn "sing" None 1; exi_turn "cmp_teardown" (Some (with_key exi_key)) 2] =
  ([Some true; Some false; Some false; Some false; Some true; Some false; Some true; Some false; None; Some false; Some true], DServing).
Proof. vm_compute. reflexivity. Qed.
Example C101_ex_proper :
  Forall (proper_turn exd_hw) [exd_set "gain" (VInt 1000); exd_start [("count", VInt 3)]; exi_turn "task_stop" None 0].
Proof.
  assert (D : forall n v props, dget ex_attrs n = Some props -> ~ spoils ex_parser (at_type props) v ->
    (at_type props = TQty -> False) -> (at_type props = TStr -> False) -> harmless_value ex_parser ex_attrs n v).
  { intros n v props E NS NQ NT props' E'. rewrite E in E'. injection E' as <-.
    split; [|split; [exact NS|intros H; elim NQ; exact H]]. split; [intros H; elim NQ; exact H|].
    intros b _. unfold comparable. destruct (at_type props); try exact I; [elim NT|elim NQ]; reflexivity. }
  constructor; [|constructor; [|constructor; [|constructor]]]; intros q [= <-]; right; eexists; (split; [reflexivity|]); left; (split; [cbn; tauto|]).
  - repeat split; try discriminate.
    + intros _. exists "gain", (VInt 1000). split; [reflexivity|]. split; [reflexivity|].
      eapply D; [reflexivity|cbn; tauto|discriminate|discriminate].
    + intros [H|H]; discriminate.
  - repeat split; try discriminate.
    intros _. eexists. split; [reflexivity|]. intros l n v [= <-] [[= <- <-]|[]].
    eapply D; [reflexivity|cbn; tauto|discriminate|discriminate].
  - repeat split; try discriminate. intros [H|H]; discriminate.
Qed.
(** An infinite number, a quantity for a number, a list; and a missing argument. *)
Example C101_ex_dies :
  exd_run [exd_set "count" (VFloat FPosInf); exi_turn "status" None 1] = ([Some true; None], DDied SystemExit) /\
  exd_run [exd_set "count" (VQty (mkQty (FFin 1) ex_volt)); exi_turn "status" None 1] = ([Some true; None], DDied SystemExit) /\
  exd_run [exd_start [("gain", VInt 2); ("count", VList [])]; exi_turn "status" None 1] = ([Some true; None], DDied SystemExit) /\
  exd_run [exi_turn "task_start" (Some (with_key exi_key)) 0; exi_turn "status" None 1] = ([Some true; None], DDied SystemExit).
Proof. repeat split; vm_compute; reflexivity. Qed.
Example C101_ex_spoils : spoils ex_parser TInt (VFloat FPosInf) /\ spoils ex_parser TFloat (VList []) /\
  spoils ex_parser TQty (VBool true) /\ ~ spoils ex_parser TInt (VStr "x") /\ ~ spoils ex_parser TFloat (VFloat FPosInf).
Proof. repeat split; cbn; try tauto. - left; reflexivity. - intros [H|H]; discriminate. Qed.
