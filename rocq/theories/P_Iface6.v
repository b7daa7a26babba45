(** * P_Iface6: failing requests and measurements (C71, C72, C96) *)
From Coq Require Import List String ZArith Bool Lia QArith.
From Verif Require Import Base Types AttrModel IfaceModel SpecIface SpecIface2 IfaceProofs8 P_Iface P_Iface2 P_Iface3.
Import ListNotations.
Open Scope string_scope.
Open Scope Z_scope.

(** ** C72 *)

(** Whatever the state, a request about a registered component with an argument too few or
    too many ends the driver without an answer, in both versions of the interface. *)
Theorem C72_fatal_component : forall h driver p i q,
  ti_req i = Some q -> registered (dp_iface p) (target q) -> wrong_arguments h (i_ver (dp_iface p)) q ->
  exists p', dturn h driver p i = (p', None, DDied SystemExit).
Proof. exact wrong_turn. Qed.
Print Assumptions C72_fatal_component.

Definition exi_ask (c : string) (a : option string) (v : option pyval) (r : option bool) : turn_in :=
  exi_turn c (Some (mkRp None (Some "a1") (Some "1") a v None r None)) 1.
Definition exi_fates (p : dproc) : list dfate :=
  map (fun t => snd (dturns exi_good "psu" p [exi_reg; t]))
    [exi_ask "cmp_get_attr" None None None; exi_ask "cmp_set_attr" (Some "gain") None None;
     exi_ask "task_start" None None None; exi_ask "task_validate" None None None;
     exi_ask "cmp_status" (Some "gain") None None; exi_ask "cmp_teardown" None None (Some true);
     exi_ask "cmp_get_attr" (Some "gain") None None; exi_ask "cmp_status" None None None].
Example C72_ex_component :
  exi_fates exi_new = (repeat (DDied SystemExit) 6 ++ [DServing; DServing])%list /\
  exi_fates exi_new20 = (repeat (DDied SystemExit) 5 ++ [DServing; DServing; DServing])%list.
Proof. vm_compute. split; reflexivity. Qed.

(** ** C96 *)

(** 2.0 interface: a measurement is started, in a new thread, exactly when nothing runs;
    whatever waits in the list of tasks does not matter (in 2.1 it does, [C96_measure]). *)
Theorem C96_measure20 : forall h driver i q s d, plain_measure h -> rq_cmd q = Some "cmp_measure" ->
  kget (i_devmap s) (target q) = Some d -> i_ver s = V20 ->
  exists s' b, handle h driver i q s = (s', Ok (mkReply b RNone)) /\ (b = true <-> v_running d = None) /\
    kget (i_devmap s') (target q) = Some (if b then mkDev (v_serial d) None (v_tasks d) (v_data d) (v_last d) false true else d).
Proof. exact measure20_lemma. Qed.
Print Assumptions C96_measure20.

(** Both versions: the status of a component has the current value of every attribute that
    is declared part of the status, of no other, and tells whether something runs; asking
    changes nothing. *)
Theorem C96_component_status : forall h driver i q s d value,
  rq_cmd q = Some "cmp_status" -> rp_attr (params q) = None ->
  kget (i_devmap s) (target q) = Some d -> NoDup (map fst (h_attrs h (target q))) ->
  (forall n x, h_get h n (target q) x = Ok (value x)) ->
  exists s', handle h driver i q s =
      (s', Ok (mkReply true (RStatus (status_of (h_attrs h (target q)) value) (is_some (v_running d)))))
    /\ i_devmap s' = i_devmap s.
Proof. exact status_lemma. Qed.
Print Assumptions C96_component_status.

Definition exs_attr (status : bool) : attr := mkAttr TFloat true status None None None None.
Definition exs_hw : hw :=
  mkHw exi_parser (fun _ _ => Ok tt) (fun _ _ => Ok ["hold"])
       (fun _ => [("gain", exs_attr true); ("offset", exs_attr false); ("temperature", exs_attr true)])
       (fun _ _ _ _ => Ok tt) (fun _ _ n => Ok (VStr n)) (fun _ _ => None) (fun _ => None) (fun _ _ _ v => Ok v).
Definition exs_ask (v : version) (c name : string) : list (key * device) * res dreply :=
  let '(s, r) := handle exs_hw "psu" (exi_idle 0)
     (mkReq (Some name) (Some (mkRp None (Some "a1") (Some c) None None None None None))) (c96_s v) in
  (i_devmap s, r).
Example C96_ex_status :
  exs_ask V21 "1" "cmp_status" = (i_devmap (c96_s V21),
    Ok (mkReply true (RStatus [("gain", VStr "gain"); ("temperature", VStr "temperature")] true))) /\
  snd (exs_ask V20 "2" "cmp_status") =
    Ok (mkReply true (RStatus [("gain", VStr "gain"); ("temperature", VStr "temperature")] false)) /\
  exs_ask V20 "1" "cmp_measure" = (i_devmap (c96_s V20), Ok (mkReply false RNone)) /\
  exs_ask V20 "2" "cmp_measure" =
    ([(c96_k "1", c96_d1); (c96_k "2", mkDev 2 None [] [20] (Some 20) false true)], Ok (mkReply true RNone)).
Proof. repeat split; vm_compute; reflexivity. Qed.

(** ** C71 *)

(** A round of idle measurements is due, and the measurement of one component raises (2.1):
    the components before it are measured, those after it are not; [t_last] stays, so the
    round is repeated in the next turn; ValueError and AttributeError do not end the driver,
    every other exception does. *)
Theorem C71_failure : forall h driver p i l1 k l2 e,
  i_ver (dp_iface p) = V21 -> ti_req i = None -> due (dp_iface p) (dp_last p) (ti_clock i) ->
  map fst (i_devmap (dp_iface p)) = (l1 ++ k :: l2)%list ->
  (forall n k', In k' l1 -> h_measure h n k' = None) -> (forall n, h_measure h n k = Some e) -> e <> Blocked ->
  exists s', (forall k', ~ In k' l1 -> kget (i_devmap s') k' = kget (i_devmap (dp_iface p)) k') /\
    main_turn h driver p i =
      (mkProc s' (dp_last p), None, match e with ValueError | AttributeError => DServing | _ => DDied SystemExit end).
Proof.
  intros h driver p i l1 k l2 e V Q D M Hn He B.
  destruct (idle_fail h p i l1 k l2 e V D M Hn He B) as (s' & S & E).
  exists s'. split; [exact S|]. unfold main_turn. rewrite Q, E. reflexivity.
Qed.
Print Assumptions C71_failure.

(** Three components, the second of which cannot be measured; none is busy. *)
Definition exf_hw (e : exn) : hw :=
  exi_hw (fun _ _ => Ok tt) (fun _ k => match snd k with Some "2" => Some e | _ => None end).
Definition exf_dev (n : nat) : device := mkDev n None [] [] None true false.
Definition exf_p : dproc :=
  mkProc (mkIface V21 [(c96_k "1", exf_dev 1); (c96_k "2", exf_dev 2); (c96_k "3", exf_dev 3)] [] (Some (Some 60)) None 0 []) None.
Definition exf_see (x : dproc * option dreply * dfate) :=
  let '(p, r, f) := x in (map (fun kd => List.length (v_tasks (snd kd))) (i_devmap (dp_iface p)), dp_last p, r, f).
Example C71_ex_failure :
  exf_see (main_turn (exf_hw ValueError) "psu" exf_p (exi_idle 7)) = ([1; 0; 0]%nat, None, None, DServing) /\
  exf_see (main_turn (exf_hw AttributeError) "psu" exf_p (exi_idle 7)) = ([1; 0; 0]%nat, None, None, DServing) /\
  exf_see (main_turn (exf_hw KeyError) "psu" exf_p (exi_idle 7)) = ([1; 0; 0]%nat, None, None, DDied SystemExit) /\
  exf_see (main_turn exi_good "psu" exf_p (exi_idle 7)) = ([1; 1; 1]%nat, Some 7, None, DServing).
Proof. vm_compute. repeat split; reflexivity. Qed.
