(** * P_Iface9: how the idle part of a turn can end (C71) *)
From Coq Require Import List String ZArith Bool Lia QArith.
From Verif Require Import Base Types AttrModel IfaceModel SpecIface SpecIface2 IfaceProofs8 P_Iface P_Iface2 P_Iface3 P_Iface6.
Import ListNotations.
Open Scope string_scope.
Open Scope Z_scope.

(** Exceptions that pass [log_errors]. *)
Definition passes (e : exn) : Prop := e = ValueError \/ e = AttributeError \/ e = SystemExit \/ e = Blocked.
Lemma logged : forall A (m : M A) s s' e, log_errors m s = (s', Err e) -> passes e.
Proof.
  intros A m s s' e H. unfold log_errors in H. unfold passes.
  destruct (m s) as [s1 [a|x]]; [discriminate|]. destruct x, (i_ver s); injection H as _ <-; auto.
Qed.
Lemma measured : forall h p s s' e, component_method h "cmp_measure" p s = (s', Err e) -> passes e.
Proof.
  intros h p s s' e H. unfold component_method in H. destruct (i_ver s); cbn -[cmp_measure cmp_measure20] in H;
    unfold cmp_measure, cmp_measure20 in H; exact (logged _ _ _ _ _ H).
Qed.
Lemma all_measured : forall h l s s' e,
  mfor l (fun k => mbind (component_method h "cmp_measure" (with_key k)) (fun _ => ret tt)) s = (s', Err e) -> passes e.
Proof.
  intros h l. induction l as [|k l IH]; intros s s' e H; cbn [mfor] in H; [discriminate|].
  unfold mbind in H. destruct (component_method h "cmp_measure" (with_key k) s) as [s1 [r|x]] eqn:E.
  - cbn in H. exact (IH _ _ _ H).
  - injection H as _ <-. exact (measured _ _ _ _ _ E).
Qed.

(** With any driver, in both versions and in all states: the idle measurements never end the
    driver in the way the main loop reports uncaught exceptions, as a RuntimeError; they end it
    with SystemExit, out of the reach of its handlers, or wait for ever, or let it go on.
    If the turn ends the driver, [t_last] stays. *)
Theorem C71_endings : forall h i p p' f, idle_turn h i p = (p', f) ->
  (f = DServing \/ f = DDied SystemExit \/ f = DHung) /\
  (f <> DServing -> dp_last p' = dp_last p).
Proof.
  intros h i p p' f H. unfold idle_turn in H.
  destruct (idle_measurements h (ti_clock i) (dp_last p) (dp_iface p)) as [s [t|e]] eqn:E.
  - injection H as <- <-. split; [auto|congruence].
  - assert (P : passes e).
    { unfold idle_measurements in E. unfold mbind at 1, mget in E. cbv beta iota in E.
      destruct (interval_of (dp_iface p)) as [imi|]; [|discriminate].
      match type of E with (if ?b then _ else _) _ = _ => destruct b end; [discriminate|].
      unfold mbind at 1, mput in E. cbv beta iota in E. unfold mbind at 1 in E.
      match type of E with context [mfor ?l ?g ?s0] => destruct (mfor l g s0) as [s1 [u|x]] eqn:E1 end; [discriminate|].
      injection E as _ <-. exact (all_measured _ _ _ _ _ E1). }
    destruct P as [->|[->|[->| ->]]]; injection H as <- <-; cbn; split; auto; congruence.
Qed.
Print Assumptions C71_endings.

(** A measurement that raises RuntimeError, which the main loop would catch, ends the driver all
    the same; ValueError does not (2.1), but ends a driver of version 2.0. *)
Definition exf_p20 : dproc :=
  mkProc (mkIface V20 [(c96_k "1", exf_dev 1); (c96_k "2", exf_dev 2); (c96_k "3", exf_dev 3)] [] (Some (Some 60)) None 0 []) None.
Definition exf_quiet : turn_in := mkTurn None [] None 100 (fun _ d => d).
Example C71_ex_endings :
  snd (idle_turn (exf_hw RuntimeError) exf_quiet exf_p) = DDied SystemExit /\
  snd (idle_turn (exf_hw ValueError) exf_quiet exf_p) = DServing /\
  snd (idle_turn (exf_hw ValueError) exf_quiet exf_p20) = DDied SystemExit /\
  snd (idle_turn (exf_hw Blocked) exf_quiet exf_p) = DHung.
Proof. vm_compute. repeat split. Qed.
