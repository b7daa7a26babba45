(** * P_Iface2: requests in the two versions of the interface (C49, C84, C85, C86) *)
From Coq Require Import List String ZArith QArith Bool Lia.
From Verif Require Import Base BaseFacts Types AttrModel SpecAttr IfaceModel SpecIface IfaceProofs IfaceProofs2
  IfaceProofs3 IfaceProofs4 P_Attr P_Iface.
Import ListNotations.
Open Scope string_scope.
Open Scope Z_scope.

(** ** C49: whole runs of a driver process *)

(** In every run of a driver with the 2.1 interface, whatever it is asked and whatever its
    worker threads do, only values that [coerce_val] produced are passed on by requests to
    set an attribute. *)
Theorem C49_runs : forall h driver imi c l p a f,
  dturns h driver (new_proc V21 imi c) l = (p, a, f) -> only_coerced h (dp_iface p).
Proof. exact all_coerced. Qed.
Print Assumptions C49_runs.

(** The 2.0 interface passes on anything, even for attributes that do not exist. *)
Theorem C49_v20_unchecked : forall h driver i q p s d name v w,
  i_ver s = V20 -> rq_cmd q = Some "cmp_set_attr" -> rq_params q = Some p ->
  rp_attr p = Some name -> rp_val p = Some v -> kget (i_devmap s) (target q) = Some d ->
  h_set20 h (i_calls s) (target q) name v = Ok w ->
  exists s', handle h driver i q s = (s', Ok (mkReply true (RVal w))) /\
    In (EvSet (target q) name v) (i_log s').
Proof.
  intros h driver i q p s d name v w V C P A W K H.
  rewrite (component_dispatch _ _ _ _ _ _ C) by (apply mem_In; reflexivity). rewrite P.
  rewrite (target_key q p P) in *. set (k := match rp_key p with Some k => k | None => _ end) in *.
  exists (count_call (note (EvSet k name v) s)).
  split; [|apply in_app_iff; right; left; reflexivity].
  assert (E : component_method h "cmp_set_attr" p s = (count_call (note (EvSet k name v) s), Ok (mkReply true (RVal w)))).
  { unfold component_method. rewrite V. change (method20 h "cmp_set_attr" p) with (cmp_set_attr20 h p).
    unfold cmp_set_attr20. apply logged_ok. rewrite (wrapped _ _ s k d K) by reflexivity. rewrite A, W.
    rewrite (mbind_ok _ _ (need_arg (Some name)) _ s s name eq_refl), (mbind_ok _ _ (need_arg (Some v)) _ s s v eq_refl).
    rewrite (mbind_ok _ _ _ _ _ _ _ (device_at_some _ _ _ K)).
    unfold mbind, mput, call, ret. cbn [i_calls note]. rewrite H. reflexivity. }
  rewrite E. reflexivity.
Qed.
Print Assumptions C49_v20_unchecked.

Definition exi_new20 : dproc := new_proc V20 None None.
Definition exi_reg : turn_in := exi_turn "cmp_register" (Some exi_params) 0.
Definition exi_busy_set (name : string) (v : pyval) : turn_in :=
  exi_turn "cmp_set_attr" (Some (mkRp None (Some "a1") (Some "1") (Some name) (Some v) None None None)) 5.
Definition sets (p : dproc) : list (string * pyval) :=
  flat_map (fun e => match e with EvSet _ n v => [(n, v)] | _ => [] end) (i_log (dp_iface p)).
(** The same requests to a 2.1 and to a 2.0 driver. *)
Example C49_ex_runs :
  let go p := let '(p', a, f) := dturns exi_good "psu" p
                [exi_reg; exi_busy_set "gain" (VInt 5); exi_busy_set "gain" (VInt 1000); exi_busy_set "no" (VInt 1)] in
              (sets p', map (option_map dr_ok) a, f) in
  go exi_new = ([("gain", VFloat (FFin 5%Q))], [Some true; Some true; Some false; Some false], DServing) /\
  go exi_new20 = ([("gain", VInt 5); ("gain", VInt 1000); ("no", VInt 1)],
                  [Some true; Some true; Some true; Some true], DServing).
Proof. split; vm_compute; reflexivity. Qed.

(** ** C84 *)

(** The two versions do not validate the same tasks: 2.0 takes None for a string. *)
Theorem C84_refuted : exists p caps attrs t,
  task_validate20 p caps attrs t = Ok true /\ task_validate p caps attrs t = Ok false.
Proof.
  exists ex_parser, ["hold"], ex_attrs, (ex_task "hold" [("mode", VNone)]).
  split; vm_compute; reflexivity.
Qed.
Print Assumptions C84_refuted.

(** Every task that passes in 2.1 passes in 2.0, for all declarations and values. *)
Theorem C84_newer_is_stricter : forall p caps attrs t,
  task_validate p caps attrs t = Ok true -> task_validate20 p caps attrs t = Ok true.
Proof. exact validated_both. Qed.
Print Assumptions C84_newer_is_stricter.

(** Without None among the values and without options the results are the same, including
    the exceptions. *)
Theorem C84_same_partial : forall p caps attrs t, ordinary attrs t ->
  task_validate20 p caps attrs t = task_validate p caps attrs t.
Proof. exact validated_same. Qed.
Print Assumptions C84_same_partial.

(** None for a number is a refusal in 2.1 and the end of the driver in 2.0. *)
Example C84_ex_none :
  task_validate ex_parser ["hold"] ex_attrs (ex_task "hold" [("count", VNone)]) = Ok false /\
  task_validate20 ex_parser ["hold"] ex_attrs (ex_task "hold" [("count", VNone)]) = Err TypeError.
Proof. split; vm_compute; reflexivity. Qed.
Example C84_ex_same : ordinary ex_attrs (ex_task "hold" [("voltage", VStr "500 mV"); ("gain", VInt 0)]) /\
  task_validate20 ex_parser ["hold"] ex_attrs (ex_task "hold" [("voltage", VStr "500 mV"); ("gain", VInt 0)]) = Ok false /\
  task_validate20 ex_parser ["hold"] ex_attrs (ex_task "hold" [("voltage", VStr "500 mV"); ("gain", VInt 5)]) = Ok true.
Proof.
  split; [|split; vm_compute; reflexivity].
  intros l name v [= <-] [[= <- <-]|[[= <- <-]|[]]]; (split; [discriminate|]);
  intros a D; vm_compute in D; injection D as <-; reflexivity.
Qed.

(** ** C85 *)

(** A driver with the 2.1 interface answers a request to start a task whatever the component
    is doing: a valid task goes to the end of the queue, nothing else changes. *)
Theorem C85_queued_partial : forall h driver i q s d t caps b, i_ver s = V21 -> asks_start q t ->
  kget (i_devmap s) (target q) = Some d -> h_caps h (i_calls s) (target q) = Ok caps ->
  task_validate (h_parser h) caps (h_attrs h (target q)) t = Ok b ->
  exists s', handle h driver i q s = (s', Ok (mkReply b (if b then RTask t else RNone))) /\
    kget (i_devmap s') (target q) = Some (if b then with_task t d else d) /\ others_same (target q) s s'.
Proof.
  intros h driver i q s d t caps [|] V A K C T.
  - exact (start21 h driver i q s d t caps V A K C T).
  - exists (count_call s). split; [exact (start_refused V21 h driver i q s d t caps V A K C T)|].
    split; [exact K|]. intros k' _. reflexivity.
Qed.
Print Assumptions C85_queued_partial.

(** With the 2.0 interface every valid task ends the driver, without reply, if the thread of
    the component has been started before (for a task or a measurement) and not been replaced. *)
Theorem C85_dies20 : forall h driver i q p d t caps, i_ver (dp_iface p) = V20 ->
  ti_req i = Some q -> asks_start q t ->
  let s := worked (ti_work i) (dp_iface p) in
  kget (i_devmap s) (target q) = Some d -> v_run d = false ->
  h_caps h (i_calls s) (target q) = Ok caps ->
  task_validate20 (h_parser h) caps (h_attrs h (target q)) t = Ok true ->
  exists p', dturn h driver p i = (p', None, DDied SystemExit).
Proof.
  intros h driver i q p d t caps V RQ A s K R C T.
  destruct (start20 h driver i q s d t caps V A K C T) as (s' & _ & H). rewrite R in H.
  unfold dturn, main_turn. rewrite RQ. cbn [dp_iface]. fold s. rewrite H. eexists. reflexivity.
Qed.
Print Assumptions C85_dies20.

Definition exi_start (t : Z) (w : key -> device -> device) : turn_in :=
  mkTurn (Some (mkReq (Some "task_start")
    (Some (mkRp None (Some "a1") (Some "1") None None (Some (ex_task "hold" [("gain", VInt 5)])) None None))))
    exi_comps None t w.
(** What the thread of a 2.0 component does at its start: [self.running = True]. *)
Definition exi_begun (_ : key) (d : device) : device :=
  mkDev (v_serial d) (if v_run d then None else Some IMeasure) [] (v_data d) (v_last d) (v_run d) (v_run_task d).

Theorem C85_refuted : exists h driver l p a,
  dturns h driver exi_new20 l = (p, a, DDied SystemExit) /\
  map (option_map dr_ok) a = [Some true; Some true; None] /\
  (forall i, In i l -> asks "cmp_register" i \/ asks "task_start" i).
Proof.
  exists exi_good, "psu", [exi_reg; exi_start 1 (fun _ d => d); exi_start 2 exi_begun]. eexists _, _.
  split; [vm_compute; reflexivity|]. split; [reflexivity|].
  intros i [<-|[<-|[<-|[]]]]; [left|right|right]; eexists; split; reflexivity.
Qed.
Print Assumptions C85_refuted.

(** A 2.0 component that is not in use starts the task. *)
Theorem C85_idle20_partial : forall h driver i q s d t caps, i_ver s = V20 -> asks_start q t ->
  kget (i_devmap s) (target q) = Some d -> v_run d = true ->
  h_caps h (i_calls s) (target q) = Ok caps ->
  task_validate20 (h_parser h) caps (h_attrs h (target q)) t = Ok true ->
  exists s', handle h driver i q s = (s', Ok (mkReply true (RTask t))) /\ others_same (target q) s s' /\
    kget (i_devmap s') (target q) =
      Some (mkDev (v_serial d) (v_running d) (v_tasks d ++ [ITask t]) (v_data d) (v_last d) false true).
Proof.
  intros h driver i q s d t caps V A K R C T.
  destruct (start20 h driver i q s d t caps V A K C T) as (s' & O & H). rewrite R in H.
  destruct H as [H K']. exists s'. split; [exact H|]. split; [exact O|exact K'].
Qed.
Print Assumptions C85_idle20_partial.

(** The same requests to a 2.1 driver. *)
Example C85_ex : let '(p, a, f) := dturns exi_good "psu" exi_new
    [exi_reg; exi_start 1 (fun _ d => d); exi_start 2 (fun _ d => d)] in
  (map (option_map dr_ok) a, f, map (fun kd => List.length (v_tasks (snd kd))) (i_devmap (dp_iface p)))
  = ([Some true; Some true; Some true], DServing, [2%nat]).
Proof. vm_compute. reflexivity. Qed.

(** ** C86 *)

(** In every run of either version no component is listed twice, *)
Theorem C86_unique : forall h driver v imi c l p a f,
  dturns h driver (new_proc v imi c) l = (p, a, f) -> unique_keys (dp_iface p).
Proof. exact dturns_unique. Qed.
Print Assumptions C86_unique.

(** and tearing down a registered component removes it and changes no other one, whatever
    the component is doing. *)
Theorem C86_teardown : forall h driver i q s d, asks_teardown q -> unique_keys s ->
  kget (i_devmap s) (target q) = Some d ->
  exists s', handle h driver i q s = (s', Ok (mkReply true RNone)) /\
    ~ registered s' (target q) /\ others_same (target q) s s' /\ i_ver s' = i_ver s.
Proof. exact teardown_works. Qed.
Print Assumptions C86_teardown.

(** Hence the 2.1 interface refuses every later component request for it. *)
Theorem C86_refused_afterwards : forall h driver i j q q' name s d, i_ver s = V21 ->
  asks_teardown q -> unique_keys s -> kget (i_devmap s) (target q) = Some d ->
  rq_cmd q' = Some name -> In name component_methods -> target q' = target q ->
  let s' := fst (handle h driver i q s) in
  handle h driver j q' s' = (s', Ok (mkReply false RNone)).
Proof.
  intros h driver i j q q' name s d V A U K C I T s'.
  destruct (teardown_works h driver i q s d A U K) as (s1 & E & N & _ & V1).
  unfold s'. rewrite E. cbn [fst]. apply (unknown_refused h driver j q' name s1); [congruence|exact C|exact I|].
  rewrite T. exact N.
Qed.
Print Assumptions C86_refused_afterwards.

Definition exi_two : list turn_in :=
  [exi_reg; exi_turn "cmp_register" (Some (mkRp None (Some "a1") (Some "2") None None None None None)) 0;
   exi_start 1 (fun _ d => d); exi_turn "cmp_teardown" (Some exi_params) 2].
Example C86_ex :
  let go p := let '(p', a, f) := dturns exi_good "psu" p exi_two in
              (map fst (i_devmap (dp_iface p')), map (option_map dr_ok) a, f) in
  go exi_new = ([(Some "a1", Some "2")], [Some true; Some true; Some true; Some true], DServing) /\
  go exi_new20 = ([(Some "a1", Some "2")], [Some true; Some true; Some true; Some true], DServing).
Proof. split; vm_compute; reflexivity. Qed.
(** A teardown request with an argument for [reset] ends a 2.1 driver: the argument is given
    twice (140-142). *)
Example C86_ex_argument : snd (dturns exi_good "psu" exi_new
    [exi_reg; exi_turn "cmp_teardown" (Some (mkRp None (Some "a1") (Some "1") None None None (Some true) None)) 1])
  = DDied SystemExit.
Proof. vm_compute. reflexivity. Qed.
