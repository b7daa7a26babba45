(** * P_Iface3: what requests about a component do (C96) *)
From Coq Require Import List String ZArith QArith Bool Lia.
From Verif Require Import Base BaseFacts Types AttrModel SpecAttr IfaceModel SpecIface IfaceProofs IfaceProofs2
  IfaceProofs3 IfaceProofs4 IfaceProofs5 P_Attr P_Iface.
Import ListNotations.
Open Scope string_scope.
Open Scope Z_scope.

(** A request about a component changes no other component, whatever it is answered, whether
    its component is registered or not, in both versions of the interface. *)
Theorem C96_others : forall h driver i q name s s' r,
  rq_cmd q = Some name -> In name component_requests ->
  handle h driver i q s = (s', r) -> others_same (target q) s s'.
Proof. exact C96_others_lemma. Qed.
Print Assumptions C96_others.

(** A request that only asks changes no component at all, and passes no value on. *)
Theorem C96_reads : forall h driver i q name s s' r,
  rq_cmd q = Some name -> In name questions -> handle h driver i q s = (s', r) ->
  i_devmap s' = i_devmap s /\ i_retries s' = i_retries s /\ i_imi s' = i_imi s /\
  i_log s' = i_log s /\ i_ver s' = i_ver s.
Proof.
  intros h driver i q name s s' r C I H. destruct (C96_reads_lemma _ _ _ _ _ _ _ _ C I H) as (? & ? & ? & ? & ?).
  repeat split; congruence.
Qed.
Print Assumptions C96_reads.

(** What a registered component answers to requests that need no code of the particular
    driver, and what becomes of it, is as [expected] (SpecIface.v) says. *)
Theorem C96_answers : forall h driver i q name s d d' reply,
  rq_cmd q = Some name -> kget (i_devmap s) (target q) = Some d ->
  expected (i_ver s) (h_attrs h (target q)) name
           (match rq_params q with Some p => p | None => no_params end) d = Some (d', reply) ->
  exists s', handle h driver i q s = (s', Ok reply) /\ kget (i_devmap s') (target q) = Some d' /\
    others_same (target q) s s' /\
    i_ver s' = i_ver s /\ i_retries s' = i_retries s /\ i_imi s' = i_imi s /\ i_log s' = i_log s.
Proof. exact C96_answers_lemma. Qed.
Print Assumptions C96_answers.

(** Hence nothing is answered twice: data that has been fetched is gone, *)
Theorem C96_data_once : forall h driver i j q s d, rq_cmd q = Some "task_data" ->
  kget (i_devmap s) (target q) = Some d ->
  snd (handle h driver i q s) = Ok (mkReply (any (v_data d)) (points (v_data d))) /\
  snd (handle h driver j q (fst (handle h driver i q s))) = Ok (mkReply false RNone).
Proof.
  intros h driver i j q s d C K.
  destruct (C96_answers h driver i q "task_data" s d _ _ C K eq_refl) as (s' & E & K' & _ & V & _).
  rewrite E. cbn [fst snd]. split; [reflexivity|].
  destruct (C96_answers h driver j q "task_data" s' _ _ _ C K' eq_refl) as (s2 & E2 & _).
  rewrite E2. reflexivity.
Qed.
Print Assumptions C96_data_once.

(** while the last point stays available however often it is asked for. *)
Theorem C96_last_stays : forall h driver i q s d x, rq_cmd q = Some "cmp_last_data" ->
  kget (i_devmap s) (target q) = Some d -> v_last d = Some x ->
  exists s', handle h driver i q s = (s', Ok (mkReply true (RPoints [x]))) /\
    kget (i_devmap s') (target q) = Some d.
Proof.
  intros h driver i q s d x C K L.
  destruct (C96_answers h driver i q "cmp_last_data" s d _ _ C K eq_refl) as (s' & E & K' & _).
  rewrite L in E. exists s'. split; [exact E|exact K'].
Qed.
Print Assumptions C96_last_stays.

(** A measurement is accepted by a component that runs nothing and has nothing queued, and
    is then the one thing in its queue; any other component refuses it and stays as it was.
    This is the 2.1 interface, for drivers that keep the class's own [cmp_measure]. *)
Theorem C96_measure : forall h driver i q s d, plain_measure h -> rq_cmd q = Some "cmp_measure" ->
  kget (i_devmap s) (target q) = Some d -> i_ver s = V21 ->
  exists s' b, handle h driver i q s = (s', Ok (mkReply b RNone)) /\
    (b = true <-> v_running d = None /\ v_tasks d = []) /\
    kget (i_devmap s') (target q) = Some (mkDev (v_serial d) (v_running d) (v_tasks d ++ if b then [IMeasure] else [])
                                              (v_data d) (v_last d) (v_run d) (v_run_task d)).
Proof. exact C96_measure_lemma. Qed.
Print Assumptions C96_measure.

(** Asked for its status, a driver lists its components. *)
Theorem C96_status : forall h driver i s,
  handle h driver i (mkReq (Some "status") None) s = (s, Ok (mkReply true (RKeys (map fst (i_devmap s))))).
Proof. exact C96_status_lemma. Qed.
Print Assumptions C96_status.

(** What a driver's code says about its capabilities and attributes is what is answered. *)
Theorem C96_driver : forall h driver i q s d p, kget (i_devmap s) (target q) = Some d -> rq_params q = Some p ->
  (forall caps, rq_cmd q = Some "cmp_capabilities" -> h_caps h (i_calls s) (target q) = Ok caps ->
     snd (handle h driver i q s) = Ok (mkReply true (RNames caps))) /\
  (forall a v, rq_cmd q = Some "cmp_get_attr" -> rp_attr p = Some a -> h_get h (i_calls s) (target q) a = Ok v ->
     snd (handle h driver i q s) = Ok (mkReply true (RVal v))).
Proof. exact C96_driver_lemma. Qed.
Print Assumptions C96_driver.

(** Two components of a driver: the first has measured two points and runs a task. *)
Definition c96_k (c : string) : key := (Some "a1", Some c).
Definition c96_d1 : device := mkDev 1 (Some (ITask (mkTask "r" "hold" None None None None 1 60))) [IMeasure] [10; 11] (Some 11) true true.
Definition c96_d2 : device := mkDev 2 None [] [20] (Some 20) true false.
Definition c96_s (v : version) : iface := mkIface v [(c96_k "1", c96_d1); (c96_k "2", c96_d2)] [] None None 0 [].
Definition c96_ask (v : version) (c name : string) : list (key * device) * res dreply :=
  let '(s, r) := handle exi_good "psu" (exi_idle 0)
     (mkReq (Some name) (Some (mkRp None (Some "a1") (Some c) (Some "v") None None None None))) (c96_s v) in
  (i_devmap s, r).
Example C96_ex :
  c96_ask V21 "1" "task_data" = ([(c96_k "1", without_data c96_d1); (c96_k "2", c96_d2)], Ok (mkReply true (RPoints [10; 11]))) /\
  c96_ask V20 "1" "task_stop" =
    ([(c96_k "1", mkDev 1 (v_running c96_d1) [IMeasure] [] (Some 11) true true); (c96_k "2", c96_d2)],
     Ok (mkReply true (RPoints [10; 11]))) /\
  c96_ask V21 "1" "task_stop" =
    ([(c96_k "1", mkDev 1 (v_running c96_d1) [IMeasure] [] (Some 11) true false); (c96_k "2", c96_d2)],
     Ok (mkReply true (RPoints [10; 11]))) /\
  c96_ask V20 "2" "cmp_reset" =
    ([(c96_k "1", c96_d1); (c96_k "2", mkDev 2 None [] [] (Some 20) true false)], Ok (mkReply true RNone)) /\
  snd (c96_ask V20 "1" "task_status") = Ok (mkReply true (RTaskStatus true false)) /\
  snd (c96_ask V21 "1" "task_status") = Ok (mkReply true (RTaskStatus true true)) /\
  snd (handle exi_good "psu" (exi_idle 0) (mkReq (Some "status") None) (c96_s V21)) = Ok (mkReply true (RKeys [c96_k "1"; c96_k "2"])) /\
  c96_ask V21 "1" "cmp_measure" = (i_devmap (c96_s V21), Ok (mkReply false RNone)) /\
  snd (c96_ask V21 "2" "cmp_measure") = Ok (mkReply true RNone).
Proof. repeat split; vm_compute; reflexivity. Qed.
