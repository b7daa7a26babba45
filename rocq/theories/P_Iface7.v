(** * P_Iface7: requests that end a driver with the 2.0 interface (C101) *)
From Coq Require Import List String ZArith QArith Bool Lia.
From Verif Require Import Base BaseFacts Types AttrModel SpecAttr IfaceModel SpecIface SpecDie SpecDie2
  IfaceProofs9 P_Attr P_Iface P_Iface2 P_Iface4.
Import ListNotations.
Open Scope string_scope.
Open Scope Z_scope.

(** A 2.0 driver whose own code never raises answers a request about a component and goes on
    if the component is registered, the arguments are there, the parameters of a task
    can be judged, and the thread of the component has not been used if the task is to be
    started.  In all other cases it does not answer and ends, or never comes back. *)
Theorem C101_v20_exact : forall h driver p i q name,
  faultless h -> i_ver (dp_iface p) = V20 ->
  ti_req i = Some q -> rq_cmd q = Some name -> In name component_requests ->
  let s := worked (ti_work i) (dp_iface p) in
  let ok := exists d, kget (i_devmap s) (target q) = Some d /\ needs h (i_calls s) name (target q) d (params_of q) in
  (ok -> exists p' r, dturn h driver p i = (p', Some r, DServing)) /\
  (~ ok -> exists p' f, dturn h driver p i = (p', None, f) /\ (f = DDied SystemExit \/ f = DDied RuntimeError \/ f = DHung)).
Proof. intros h driver p i q name F. exact (v20_lemma h F driver p i q name). Qed.
Print Assumptions C101_v20_exact.

(** Whole runs: the driver answers all of a list of requests about components, whatever its
    threads do in between, exactly if each finds what it needs when it arrives. *)
Theorem C101_v20_runs : forall h driver l p,
  faultless h -> i_ver (dp_iface p) = V20 -> Forall about_components l ->
  ((exists p' a, dturns h driver p l = (p', a, DServing) /\ Forall2 answered l a) <->
   (forall l1 i l2 p1 a1, l = (l1 ++ i :: l2)%list -> dturns h driver p l1 = (p1, a1, DServing) -> fits h p1 i)).
Proof. intros h driver l p F. exact (runs20 h F driver l p). Qed.
Print Assumptions C101_v20_runs.

(** ** Examples *)
Definition exd_run20 (l : list turn_in) : list (option bool) * dfate :=
  match dturns exd_hw "psu" exi_new20 (exi_reg :: l) with
  | (_, a, f) => (map (option_map dr_ok) a, f)
  end.
Definition exd_proc20 : dproc := fst (fst (dturns exd_hw "psu" exi_new20 [exi_reg])).
Definition exd_get (a : option string) : turn_in :=
  exi_turn "cmp_get_attr" (Some (mkRp (Some exi_key) None None a None None None None)) 0.
Example C101_ex_faultless : faultless exd_hw /\ i_ver (dp_iface exd_proc20) = V20.
Proof. split; [|reflexivity]. repeat split; intros; cbn; eauto. Qed.
(** Values that 2.1 would refuse are passed on, a task out of range is refused; the first
    task is started. *)
Example C101_v20_ex_serves :
  exd_run20 [exd_set "gain" (VInt 1000); exd_get (Some "gain"); exd_start [("gain", VInt 1000)]; exi_idle 1;
             exd_start [("count", VInt 3)]] =
  ([Some true; Some true; Some true; Some false; None; Some true], DServing).
Proof. vm_compute. reflexivity. Qed.
(** A missing argument, a list for a number, a second task, a component that is not there. *)
Example C101_v20_ex_dies :
  exd_run20 [exd_get None] = ([Some true; None], DDied SystemExit) /\
  exd_run20 [exd_start [("count", VList [1])]] = ([Some true; None], DDied SystemExit) /\
  exd_run20 [exd_start [("count", VInt 3)]; exd_start [("count", VInt 3)]] = ([Some true; Some true; None], DDied SystemExit) /\
  exd_run20 [exi_turn "task_stop" None 0] = ([Some true; None], DDied RuntimeError) /\
  exd_run20 [exi_turn "task_stop" (Some (with_key (None, None))) 0] = ([Some true; None], DDied SystemExit).
Proof. repeat split; vm_compute; reflexivity. Qed.
(** The condition holds for the first start and not for the second. *)
Example C101_v20_ex_fits :
  fits exd_hw exd_proc20 (exd_start [("count", VInt 3)]) /\
  ~ fits exd_hw (fst (fst (dturns exd_hw "psu" exi_new20 [exi_reg; exd_start [("count", VInt 3)]]))) (exd_start [("count", VInt 3)]).
Proof.
  split.
  - intros q [= <-]. eexists "task_start", _. split; [reflexivity|]. split; [vm_compute; reflexivity|].
    repeat split; try discriminate. intros _. eexists _, ["hold"], true.
    split; [reflexivity|]. split; [reflexivity|]. split; [vm_compute; reflexivity|]. reflexivity.
  - intros H. destruct (H _ eq_refl) as (name & d & C & K & _ & _ & _ & N). injection C as <-.
    destruct (N (or_introl eq_refl)) as (t & caps & b & T & CA & J & R).
    vm_compute in K. injection K as <-. injection T as <-. injection CA as <-. vm_compute in J. injection J as <-.
    specialize (R eq_refl eq_refl). discriminate R.
Qed.
