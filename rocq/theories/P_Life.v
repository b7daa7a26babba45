(** * P_Life: the end of a driver process (C124) *)
From Coq Require Import List String ZArith Bool Lia.
From Verif Require Import Base BaseFacts Types Prog ProgFacts World AttrModel IfaceModel SpecIface IfaceProofs IfaceProofs2 IfaceProofs3 IfaceProofs7
  WireModel SpecWire WireProofs LifeModel SpecLife DrvModel SpecQuit SpecSys P_Attr P_Iface P_Iface2 P_Iface4.
From Verif Require P_Quit ExWorld.
Import ListNotations.
Open Scope string_scope.
Open Scope Z_scope.

Lemma reset_all_idle s : unique_keys s -> all_idle (fst (iface_reset no_params s)).
Proof.
  intros U. rewrite (iface_reset_eq s U). cbn [fst]. intros k v K. cbn [with_map i_devmap] in K.
  revert K. generalize (i_devmap s). induction l as [|[k' v'] l IH]; cbn; [discriminate|].
  cbn in IH. destruct (key_eqb k k'); [|exact IH]. intros [= <-]. destruct (i_ver s); repeat split; reflexivity.
Qed.
Lemma worked_unique g s : unique_keys s -> unique_keys (worked g s).
Proof. intros U. unfold unique_keys. rewrite worked_keys. exact U. Qed.

Lemma rested_keys s v l : map fst (i_devmap (with_map s (map (rested v) l))) = map fst l.
Proof. unfold with_map, set_devmap. cbn [i_devmap]. rewrite map_map. apply map_ext. intros [k d]. reflexivity. Qed.

(** However a driver was used: when it was told to stop, [quit] succeeds, the same components
    are registered as before, and all of them are idle. *)
Theorem C124_stop : forall h driver v imi c l g s a r,
  driver_life h driver (new_proc v imi c) l g = (s, a, EndQuit r) ->
  r = Ok (mkReply true RNone) /\ all_idle s /\
  exists p a', dturns h driver (new_proc v imi c) l = (p, a', DLeft) /\ map fst (i_devmap s) = map fst (i_devmap (dp_iface p)).
Proof.
  intros h driver v imi c l g s a r H. unfold driver_life in H.
  destruct (dturns h driver (new_proc v imi c) l) as [[p a'] f] eqn:E. destruct f; try discriminate H.
  pose proof (worked_unique g _ (C86_unique _ _ _ _ _ _ _ _ _ E)) as U. pose proof (reset_all_idle _ U) as I.
  rewrite (iface_reset_eq _ U) in *. injection H as <- <- <-. split; [reflexivity|]. split; [exact I|].
  exists p, a'. split; [reflexivity|].
  rewrite rested_keys. apply worked_keys.
Qed.
Print Assumptions C124_stop.

Lemma stop_left h driver p i : stop_turn i ->
  exists a, dturn h driver p i = (mkProc (worked (ti_work i) (dp_iface p)) (dp_last p), Some a, DLeft).
Proof.
  intros (q & Q & C). unfold dturn, main_turn. rewrite Q. unfold handle. rewrite C. cbn. eexists. reflexivity.
Qed.
Lemma idle_not_left h i p : snd (idle_turn h i p) <> DLeft.
Proof.
  unfold idle_turn. destruct (idle_measurements h (ti_clock i) (dp_last p) (dp_iface p)) as [s [t|e]]; [discriminate|].
  destruct e; discriminate.
Qed.
Lemma left_stop h driver p i p' a : dturn h driver p i = (p', a, DLeft) -> stop_turn i.
Proof.
  unfold dturn, main_turn. destruct (ti_req i) as [q|] eqn:Q.
  - destruct (handle h driver i q _) as [s [r|e]]; [|destruct e; discriminate].
    destruct (negb (picklable r)); [discriminate|].
    destruct (rq_cmd q) as [c|] eqn:C.
    + destruct (String.eqb_spec c "stop").
      * intros _. exists q. subst c. auto.
      * pose proof (idle_not_left h i {| dp_iface := s; dp_last := dp_last p |}) as N. cbn [dp_last] in *.
        destruct (idle_turn h i _) as [p1 f]. intros [= _ _ ->]. now destruct N.
    + pose proof (idle_not_left h i {| dp_iface := s; dp_last := dp_last p |}) as N. cbn [dp_last] in *.
      destruct (idle_turn h i _) as [p1 f]. intros [= _ _ ->]. now destruct N.
  - match goal with |- context [idle_turn h i ?x] => pose proof (idle_not_left h i x) as N; destruct (idle_turn h i x) as [p1 f] end.
    intros [= _ _ ->]. now destruct N.
Qed.
Lemma turns_left h driver : forall l p, (exists p' a, dturns h driver p l = (p', a, DLeft)) <->
  exists l1 i l2 p1 a1, l = (l1 ++ i :: l2)%list /\ stop_turn i /\ dturns h driver p l1 = (p1, a1, DServing).
Proof.
  induction l as [|i l IH]; intros p.
  - split; [intros (p' & a & H); discriminate H|]. intros (l1 & i & l2 & p1 & a1 & E & _). destruct l1; discriminate E.
  - cbn [dturns]. destruct (dturn h driver p i) as [[p1 a1] f] eqn:T. split.
    + intros (p' & a & H). destruct f; try discriminate H.
      * destruct (dturns h driver p1 l) as [[p2 a2] f2] eqn:D. injection H as <- <- ->.
        destruct (proj1 (IH p1)) as (l1 & j & l2 & p3 & a3 & -> & S & D1); [eauto|].
        exists (i :: l1), j, l2, p3. eexists. split; [reflexivity|]. split; [exact S|]. cbn [dturns]. rewrite T, D1. reflexivity.
      * exists [], i, l. exists p, []. split; [reflexivity|]. split; [exact (left_stop _ _ _ _ _ _ T)|reflexivity].
    + intros (l1 & j & l2 & p2 & a2 & E & S & D). destruct l1 as [|i' l1]; injection E as -> ->.
      * destruct (stop_left h driver p j S) as [b B]. rewrite B in T. injection T as <- <- <-. eauto.
      * cbn [dturns] in D. rewrite T in D. destruct f; try discriminate D.
        destruct (dturns h driver p1 l1) as [[p3 a3] f3] eqn:D1. injection D as <- _ ->.
        destruct (proj2 (IH p1)) as (p4 & a4 & R); [exists l1, j, l2, p3, a3; auto|]. rewrite R. eauto.
Qed.

(** It comes to that exactly when a request to stop is dealt with: nothing else makes a driver
    leave its loop, and no request before was one it died of. *)
Theorem C124_exact : forall h driver p l g,
  (exists s a r, driver_life h driver p l g = (s, a, EndQuit r)) <->
  exists l1 i l2 p1 a1, l = (l1 ++ i :: l2)%list /\ stop_turn i /\ dturns h driver p l1 = (p1, a1, DServing).
Proof.
  intros h driver p l g. rewrite <- turns_left. unfold driver_life.
  destruct (dturns h driver p l) as [[p' a] f]. split.
  - intros (s & b & r & H). destruct f; try discriminate H. eauto.
  - intros (p2 & b & H). injection H as -> -> ->. destruct (iface_reset no_params _) as [s r]. eauto.
Qed.
Print Assumptions C124_exact.

Lemma stops_sent p : forall l, NoDup (flat_map (fun d => match dv_port d with Some p => [p] | None => [] end) l) ->
  forall d, In d l -> dv_port d = Some p -> sent_to p (rev (stops l)) = [CStop].
Proof.
  unfold sent_to. intros l N d I P. rewrite rev_involutive.
  assert (Z0 : forall l, ~ In p (flat_map (fun d => match dv_port d with Some p => [p] | None => [] end) l) ->
    flat_map (fun e => match e with EvRequest p0 c => if Z.eqb p0 p then [c] else [] | _ => [] end) (stops l) = []).
  { clear. induction l as [|a l IH]; intros N; [reflexivity|]. cbn [stops flat_map] in *. destruct (dv_port a) as [q|]; [|exact (IH N)].
    cbn [app flat_map] in *. destruct (Z.eqb_spec q p) as [->|]; [destruct N; left; reflexivity|]. apply IH. intros H. apply N. right. exact H. }
  revert N d I P. induction l as [|a l IH]; intros N d I P; [destruct I|].
  cbn [stops flat_map] in *. destruct I as [->|I].
  - rewrite P in *. cbn [app flat_map] in *. rewrite Z.eqb_refl. inversion N; subst. cbn. f_equal. apply Z0. assumption.
  - destruct (dv_port a) as [q|] eqn:A; [|exact (IH N d I P)]. cbn [app flat_map] in *. inversion N; subst.
    destruct (Z.eqb_spec q p) as [->|].
    + exfalso. apply H1. apply in_flat_map. exists d. rewrite P. split; [exact I|left; reflexivity].
    + cbn. exact (IH H2 d I P).
Qed.

(** When the daemon stops and all drivers with a port answer, each of them is sent one message,
    and of that message its process -- whatever it was doing -- ends with all its components
    idle. *)
Theorem C124_daemon : forall w dm, w_daemon w = Some dm -> port_pid w -> drivers_answer w -> own_ports w ->
  exists w' new, run exec drv_quit w = (Ok tt, w') /\ w_log w' = (new ++ w_log w)%list /\
  forall d p, In d (w_drvs w) -> dv_port d = Some p -> sent_to p new = [CStop] /\
    forall h driver v imi c l0 p0 a0 i g,
      dturns h driver (new_proc v imi c) l0 = (p0, a0, DServing) -> ti_req i = Some (message CStop) ->
      exists s a, driver_life h driver p0 [i] g = (s, a, EndQuit (Ok (mkReply true RNone))) /\ all_idle s.
Proof.
  intros w dm D PP A O. destruct (P_Quit.C97_once w dm D PP A) as (w' & R & L & _).
  exists w', (rev (stops (w_drvs w))). split; [exact R|]. split; [exact L|]. intros d p I P.
  split; [exact (stops_sent p _ O d I P)|]. intros h driver v imi c l0 p0 a0 i g T Q.
  destruct (stop_left h driver p0 i) as [a E]; [exists (message CStop); auto|].
  unfold driver_life. cbn [dturns]. rewrite E.
  pose proof (worked_unique g _ (worked_unique (ti_work i) _ (C86_unique _ _ _ _ _ _ _ _ _ T))) as U.
  cbn [dp_iface]. pose proof (reset_all_idle _ U) as II.
  rewrite (iface_reset_eq _ U) in *. eexists _, _. split; [reflexivity|exact II].
Qed.
Print Assumptions C124_daemon.

(** A component runs a task and another one is waiting when the driver is told to stop. *)
Definition exl_work (k : key) (d : device) : device :=
  mkDev (v_serial d) (hd_error (v_tasks d)) (List.tl (v_tasks d)) [7] (Some 7) (v_run d) (v_run_task d).
Definition exl_busy : list turn_in :=
  [exi_turn "register" None 0; exd_start [("count", VInt 1)]; exd_start [("count", VInt 2)]].
Definition exl_with (c : string) (p : option rparams) : turn_in :=
  mkTurn (Some (mkReq (Some c) p)) exi_comps (Some (mkReply true ROther)) 0 exl_work.
Definition exl_see (x : iface * list (option dreply) * dend) :=
  (map (fun kd => (v_running (snd kd), v_tasks (snd kd), v_data (snd kd))) (i_devmap (fst (fst x))), snd x).
Example C124_ex :
  exl_see (driver_life exd_hw "psu" exi_new (exl_busy ++ [exl_with "status" None])%list (fun _ d => d)) =
    ([(Some (ITask (ex_task "hold" [("count", VInt 1)])), [ITask (ex_task "hold" [("count", VInt 2)])], [7])], EndServing) /\
  exl_see (driver_life exd_hw "psu" exi_new (exl_busy ++ [exl_with "stop" None; exi_idle 5])%list exl_work) =
    ([(None, [], [])], EndQuit (Ok (mkReply true RNone))).
Proof. split; vm_compute; reflexivity. Qed.

(** The daemon with two drivers. *)
Example C124_ex_daemon :
  own_ports ExWorld.exw_up /\ drivers_answer ExWorld.exw_up /\ port_pid ExWorld.exw_up /\
  map dv_port (w_drvs ExWorld.exw_up) = [Some 7001; Some 7002] /\
  (let (r, w') := run exec drv_quit ExWorld.exw_up in
   r = Ok tt /\ w_log w' = ([EvRequest 7002 CStop; EvRequest 7001 CStop] ++ w_log ExWorld.exw_up)%list).
Proof.
  split; [vm_compute; repeat constructor; intros H; repeat (destruct H as [H|H]; [discriminate H|]); exact H|].
  split; [intros d p I P; vm_compute in I; repeat (destruct I as [<-|I]; [vm_compute; discriminate|]); destruct I|].
  split; [intros d I; vm_compute in I; repeat (destruct I as [<-|I]; [vm_compute; try discriminate; auto|]); destruct I|].
  split; vm_compute; [reflexivity|split; reflexivity].
Qed.

(** "However a driver process ends, its components are at rest" is false: [quit] is not called
    when the process dies of a request -- here of one for the value of an attribute without the
    name of the attribute, sent while a task runs.  What the component was set to stays set. *)
Theorem C124_refuted : exists h driver l g s a k v t,
  (forall n k x, exists y, h_get h n k x = Ok y) /\
  driver_life h driver (new_proc V21 None None) l g = (s, a, EndDied SystemExit) /\
  kget (i_devmap s) k = Some v /\ v_running v = Some (ITask t).
Proof.
  exists exd_hw, "psu", (exl_busy ++ [exl_with "cmp_get_attr" (Some (with_key exi_key))])%list, (fun _ d => d).
  eexists _, _, exi_key, _, (ex_task "hold" [("count", VInt 1)]).
  split; [intros n k x; eexists; reflexivity|].
  split; [vm_compute; reflexivity|]. split; [vm_compute; reflexivity|]. vm_compute. reflexivity.
Qed.
Print Assumptions C124_refuted.
