(** * P_Iface5: resetting a driver (C105), requests about the driver that end it (C72) *)
From Coq Require Import List String ZArith Bool Lia.
From Verif Require Import Base BaseFacts Types AttrModel IfaceModel SpecIface IfaceProofs IfaceProofs2 IfaceProofs3
  IfaceProofs4 IfaceProofs5 IfaceProofs7 P_Attr P_Iface P_Iface4
  DeviceModel SpecDevice DeviceProofs DeviceProofs4 DeviceProofs5 P_Device.
Import ListNotations.
Open Scope string_scope.
Open Scope Z_scope.

(** ** C105 *)

(** A request to reset the driver (or to quit, which is the same) succeeds and changes
    nothing but the components: all of them, in the same order, stay registered, and are idle,
    without waiting tasks and without data; [last_data] is kept. *)
Theorem C105_reset : forall h driver i q s, unique_keys s -> bare q ->
  rq_cmd q = Some "reset" \/ rq_cmd q = Some "quit" ->
  handle h driver i q s =
    (set_devmap (map (fun kd => (fst kd, at_rest (i_ver s) (snd kd)))) s, Ok (mkReply true RNone)).
Proof. exact C105_reset_lemma. Qed.
Print Assumptions C105_reset.

(** In 2.1 it tells the new worker threads to end at once, [do_run=False].  A component reset
    like this does nothing until it is reset again: it begins no task, measures nothing and
    never says that it is running. *)
Theorem C105_off : forall s l1 e l2,
  can_reach s -> d_log s = (l1 ++ e :: l2)%list -> last_restart l2 = Some false -> ~ activity e.
Proof. exact C105_off_lemma. Qed.
Print Assumptions C105_off.

(** And yet it accepts tasks, so the property is false: a component that was reset in this way
    says that it is ready, accepts a task, and unless it is reset (the task being lost) nothing
    is begun or measured ever after. *)
Definition ex_off : list move :=
  [Ask (AReset false); Work 0 false; Work 0 false; Go; Go; Go; Go; Go; Go; Ask AStatus].
Theorem C105_refuted : exists l s s1, dsteps l dev_new = Some s /\ d_main s = MIdle /\
  hd_error (d_log s) = Some (LStatus false) /\
  dsteps [Ask (AStart 1 1)] s = Some s1 /\ In 0%nat (accepted (d_log s1)) /\
  (forall l' s', no_reset l' -> dsteps l' s1 = Some s' ->
     begun (d_log s') = [] /\ measured (d_log s') = []).
Proof.
  exists ex_off. eexists. eexists. split; [vm_compute; reflexivity|]. split; [reflexivity|]. split; [reflexivity|].
  split; [vm_compute; reflexivity|]. split; [vm_compute; tauto|]. intros l' s' N H.
  match type of H with dsteps _ ?s = _ => destruct (off_never l' s s') as [B P] end;
    [exists (ex_off ++ [Ask (AStart 1 1)])%list; vm_compute; reflexivity|reflexivity|reflexivity|exact N|exact H|].
  rewrite B, P. split; reflexivity.
Qed.
Print Assumptions C105_refuted.

(** The same by messages: after the driver was asked to reset, the component still answers that
    it is ready, and accepts a task. *)
Definition exr_ask (c : string) : turn_in := exi_turn c (Some (with_key exi_key)) 0.
Example C105_ex21 : let '(p, a, f) := dturns exd_hw "psu" exi_new
    [exi_turn "register" None 0; exd_start [("count", VInt 1)]; exi_turn "reset" None 0;
     exr_ask "task_status"; exd_start [("count", VInt 1)]] in
  (map (option_map dr_ok) (skipn 1 a), f, nth_error a 3) =
  ([Some true; Some true; Some true; Some true], DServing, Some (Some (mkReply true (RTaskStatus false true)))) /\
  map (fun kd => (v_run (snd kd), List.length (v_tasks (snd kd)))) (i_devmap (dp_iface p)) = [(false, 1%nat)].
Proof. vm_compute. split; reflexivity. Qed.
(** In 2.0 a thread is started for the task. *)
Definition exr_reg : turn_in :=
  mkTurn (Some (mkReq (Some "cmp_register") (Some exi_params))) [] (Some (mkReply true ROther)) 0 (fun _ d => d).
Example C105_ex20 : let '(p, a, f) := dturns exd_hw "psu" (new_proc V20 None None)
    [exr_reg; exi_turn "reset" None 0; exr_ask "task_status"; exd_start [("count", VInt 1)]] in
  (map (option_map dr_ok) a, f) = ([Some true; Some true; Some true; Some true], DServing) /\
  map (fun kd => (v_run (snd kd), v_run_task (snd kd), List.length (v_tasks (snd kd)))) (i_devmap (dp_iface p)) =
  [(false, true, 1%nat)].
Proof. vm_compute. split; reflexivity. Qed.

(** ** C72 *)

(** Whatever the state, these requests end the driver without an answer: changing the settings
    or registering a component without parameters; asking the driver for its status, or to
    reset or quit, with parameters; asking for a device object, with or without key; asking
    for something that is not a function. *)
Theorem C72_fatal : forall h driver p i q,
  ti_req i = Some q -> fatal_request h (i_ver (dp_iface p)) q ->
  exists p' e, dturn h driver p i = (p', None, DDied e).
Proof. exact C72_fatal_lemma. Qed.
Print Assumptions C72_fatal.

(** With parameters the settings are changed. *)
Theorem C72_settings : forall h driver i q s p, rq_cmd q = Some "settings" -> rq_params q = Some p ->
  handle h driver i q s = (set_imi (rp_imi p) s, Ok (mkReply true ROther)).
Proof. exact settings_lemma. Qed.
Print Assumptions C72_settings.

Example C72_ex_fatal_requests :
  Forall (fun qp => snd (dturns exi_good "psu" exi_new [exi_turn "register" None 0; exi_turn (fst qp) (snd qp) 1]) <> DServing)
    [("settings", None); ("cmp_register", None); ("status", Some exi_params); ("reset", Some exi_params);
     ("quit", Some (with_key exi_key)); ("DeviceFactory", None); ("DeviceFactory", Some (with_key exi_key));
     ("version", None); ("retries", None); ("devmap", Some exi_params); ("constants", None)] /\
  Forall (fun qp => snd (dturns exi_good "psu" exi_new [exi_turn "register" None 0; exi_turn (fst qp) (snd qp) 1]) = DServing)
    [("settings", Some no_params); ("status", None); ("reset", None); ("quit", Some no_params); ("no_such", None)].
Proof. split; repeat constructor; try discriminate; vm_compute; reflexivity. Qed.
