(** * P_Tend: which components of the configuration get registered with their driver (C122) *)
From Coq Require Import List String ZArith Bool Lia.
From Verif Require Import Base BaseFacts Types Prog World DrvModel ExWorld AttrModel IfaceModel SpecIface SpecDie IfaceProofs
  P_Attr P_Iface WireModel SpecWire WireProofs P_Wire SpecTend TendProofs.
Import ListNotations.
Open Scope string_scope.
Open Scope Z_scope.

Definition addressed (c : dcomp) : key := (Some (dc_address c), Some (dc_channel c)).

(** The driver manager asks a driver to register components only if it has none at all.  Once a
    driver has a component, the set of its components stays as it is, whatever is configured and
    however often the manager checks the driver. *)
Theorem C122_stuck : forall port x y, tended port x y -> known x <> [] -> known y = known x.
Proof. exact tended_known. Qed.
Print Assumptions C122_stuck.

(** In a check, a driver of interface 2.1 without components is asked to register them, and
    then has exactly those components of the configuration that its code can make.  [i 1] is the
    turn of the driver that deals with the second request; [ti_comps] is what the daemon answers
    the driver when it is asked for the configuration. *)
Theorem C122_registered_partial : forall d port t w x i c,
  status_from w port x -> known x = [] -> i_ver (pr_iface x) = V21 -> working (pr_hw x) ->
  In c (ti_comps (i 1%nat)) -> dc_driver c = pr_name x -> retries_of (pr_iface x) (addressed c) <> 3 ->
  (forall n, h_make (pr_hw x) n (addressed c) = h_make (pr_hw x) 0%nat (addressed c)) ->
  exists r w' new, run exec (drv_checked d port t) w = (r, w') /\ w_log w' = (new ++ w_log w)%list /\
    (In (addressed c) (known (deal i 0 x (sent_to port new))) <-> h_make (pr_hw x) 0%nat (addressed c) = Ok tt).
Proof.
  intros d port t w x i c S N V W I D R M.
  destruct (check_registers d port t w x S N) as (r & w' & H & L).
  exists r, w', [EvRequest port CRegister; EvRequest port CStatus]. split; [exact H|]. split; [exact L|].
  unfold sent_to. cbn [rev app flat_map]. rewrite Z.eqb_refl. cbn [app].
  rewrite deal_register. unfold known. cbn [pr_iface].
  destruct (bootstrap (pr_hw x) (pr_name x) (ti_comps (i 1%nat)) (pr_iface x)) as [s' rr] eqn:B. cbn [fst].
  assert (KI : In (addressed c) (map fst (i_devmap s')) <-> kget (i_devmap s') (addressed c) <> None).
  { assert (G : forall (A : Type) (l : list (key * A)) k, In k (map fst l) <-> kget l k <> None).
    { intros A l k. induction l as [|[k' a] l IH]; cbn; [tauto|]. destruct (key_eqb k k') eqn:E.
      - apply key_eqb_eq in E. subst. split; [discriminate|auto].
      - rewrite <- IH. apply key_eqb_neq in E. split; [intros [X|X]; [congruence|exact X]|auto]. }
    apply G. }
  rewrite KI. split.
  - intros X. destruct (h_make (pr_hw x) 0%nat (addressed c)) as [[]|e] eqn:Y; [reflexivity|]. exfalso. apply X.
    apply (bootstrap_fails (pr_hw x) (pr_name x) W (ti_comps (i 1%nat)) (pr_iface x) (addressed c) s' rr);
      [intros n; rewrite M; discriminate| |exact V|exact B].
    unfold known in N. destruct (i_devmap (pr_iface x)); [reflexivity|discriminate N].
  - intros Y. apply (bootstrap_makes (pr_hw x) (pr_name x) W (ti_comps (i 1%nat)) (pr_iface x) c V I D) with (r := rr);
      [intros n; rewrite <- Y; apply M|exact R|exact B].
Qed.
Print Assumptions C122_registered_partial.

(** As stated, for every component of the configuration, it is false.  A driver with two
    components, the second of which could not be made at the first attempt, but always later:
    the first check registers the first one, and the second is never tried again. *)
Definition ext_hw (bad : nat -> bool) : hw :=
  exi_hw (fun n _ => if bad n then Err RuntimeError else Ok tt) (fun _ _ => None).
Definition ext_comps : list dcomp := [mkDcomp "psu" "a1" "1"; mkDcomp "psu" "a1" "2"].
Definition ext_turn (l : list dcomp) : nat -> turn_in := fun _ => mkTurn None l None 0 (fun _ d => d).
Definition ext_new (bad : nat -> bool) : process := mkProcess (ext_hw bad) "psu" (new_iface V21 None None).

Lemma ext_working bad : working (ext_hw bad).
Proof.
  split; [|split; [|split; [|split]]].
  - intros n k. reflexivity.
  - intros n k. cbn. destruct (bad n); [right|left]; reflexivity.
  - intros n k. eexists. reflexivity.
  - intros n k a v. exact I.
  - intros n k a. exact I.
Qed.

Theorem C122_refuted : exists h driver comps c port,
  working h /\ In c comps /\ dc_driver c = driver /\
  (forall n, (3 <= n)%nat -> h_make h n (addressed c) = Ok tt) /\
  let x := mkProcess h driver (new_iface V21 None None) in
  forall y, tended port (deal (fun _ => mkTurn None comps None 0 (fun _ d => d)) 0 x [CStatus; CRegister]) y ->
    ~ In (addressed c) (known y).
Proof.
  exists (ext_hw (Nat.eqb 2)), "psu", ext_comps, (mkDcomp "psu" "a1" "2"), 7001.
  split; [apply ext_working|]. split; [right; left; reflexivity|]. split; [reflexivity|].
  split; [intros n L; cbn [h_make ext_hw exi_hw]; destruct (Nat.eqb_spec 2 n); [lia|reflexivity]|].
  intros x y T. apply tended_known in T; [|vm_compute; discriminate]. rewrite T. vm_compute.
  intros [X|[]]. discriminate X.
Qed.
Print Assumptions C122_refuted.

(** The same happens, without any failure, to a component that is added to the configuration of
    a driver that is in use: after a reload, the devices file has it, and no pass registers it. *)
Theorem C122_reload_refuted : exists h driver old comps c port,
  working h /\ (forall n k, h_make h n k = Ok tt) /\
  In c comps /\ ~ In c old /\ dc_driver c = driver /\ incl old comps /\
  let x := mkProcess h driver (new_iface V21 None None) in
  forall y, tended port (deal (fun _ => mkTurn None old None 0 (fun _ d => d)) 0 x [CStatus; CRegister]) y ->
    ~ In (addressed c) (known y).
Proof.
  exists (ext_hw (fun _ => false)), "psu", [mkDcomp "psu" "a1" "1"], ext_comps, (mkDcomp "psu" "a1" "2"), 7001.
  split; [apply ext_working|]. split; [reflexivity|]. split; [right; left; reflexivity|].
  split; [intros [X|[]]; discriminate X|]. split; [reflexivity|].
  split; [intros a [<-|[]]; left; reflexivity|].
  intros x y T. apply tended_known in T; [|vm_compute; discriminate]. rewrite T. vm_compute.
  intros [X|[]]. discriminate X.
Qed.
Print Assumptions C122_reload_refuted.

(** Without failures all components are registered in the first check; with a failure of the
    third call of the driver's code, only the first. *)
Example C122_ex :
  known (deal (ext_turn ext_comps) 0 (ext_new (fun _ => false)) [CStatus; CRegister]) =
    [(Some "a1", Some "1"); (Some "a1", Some "2")] /\
  known (deal (ext_turn ext_comps) 0 (ext_new (Nat.eqb 2)) [CStatus; CRegister]) = [(Some "a1", Some "1")] /\
  (* asked a second time, the driver would register the rest *)
  known (deal (ext_turn ext_comps) 0 (ext_new (Nat.eqb 2)) [CStatus; CRegister; CRegister]) =
    [(Some "a1", Some "1"); (Some "a1", Some "2")].
Proof. repeat split; vm_compute; reflexivity. Qed.

(** A pass over the two drivers of [exw_up], which are due for a check: the first has a component
    and is only asked for its status, the second has none and is told to register. *)
Definition ext_net : network := fun port =>
  if Z.eqb port 7001 then Some (deal (ext_turn ext_comps) 0 (ext_new (fun _ => false)) [CStatus; CRegister])
  else if Z.eqb port 7002 then Some (ext_new (fun _ => false)) else None.
Definition ext_world : world :=
  let w := exn_world ext_net exw_up in
  mkWorld (w_jobs w) (w_seq w) (w_pips w) (w_drvs w) (w_daemon w) (w_files w) (w_dirs w)
    (w_jobdata w) (w_spawned w) (w_procs w) (w_driver w)
    (w_main w) (w_merge w) (w_crate w) (w_outdir w) (w_now w) 20000000 (w_log w).
Example C122_pass :
  (forall port x, ext_net port = Some x -> status_from ext_world port x) /\
  let w' := snd (run exec drv_pass ext_world) in
  w_log w' = ([EvRequest 7002 CRegister; EvRequest 7002 CStatus; EvRequest 7001 CStatus] ++ w_log ext_world)%list.
Proof.
  split; [|vm_compute; reflexivity].
  intros port x H. exists (exi_idle 0). unfold ext_world, exn_world. cbn [w_driver]. rewrite H. reflexivity.
Qed.
