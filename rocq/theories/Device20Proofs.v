(** * Device20Proofs: stopping and resetting a component of the 2.0 interface *)
From Coq Require Import List ZArith Bool Lia.
From Verif Require Import Device20Model.
Import ListNotations.
Open Scope Z_scope.

Lemma xsteps_app l1 l2 s :
  xsteps (l1 ++ l2) s = match xsteps l1 s with Some s' => xsteps l2 s' | None => None end.
Proof.
  revert s; induction l1 as [|m l IH]; cbn; intros s; [reflexivity|].
  destruct (xstep m s); [apply IH | reflexivity].
Qed.

(** Stopping a task that runs changes nothing but the cached data. *)
Lemma set_thread_same i l t : nth_error l i = Some t -> set_thread i t l = l.
Proof.
  revert i; induction l as [|a l IH]; intros [|i] H; cbn in *; try discriminate H.
  - injection H as ->. reflexivity.
  - rewrite IH; auto.
Qed.

Lemma xstop_noop s th :
  nth_error (x_threads s) (x_cur s) = Some th -> xt_run th = true ->
  fst (xtask_stop s) = mkX (x_queue s) (x_open s) (x_running s) [] (x_cur s) (x_threads s) (x_points s) (x_log s).
Proof.
  intros H R. unfold xtask_stop. cbn [fst]. unfold set_run. rewrite H. rewrite set_thread_same; [reflexivity|].
  rewrite H. destruct th; cbn in R |- *; rewrite R; reflexivity.
Qed.

(** A task that is sampled once a second for [du] seconds, stopped right after it
    started: it still makes [n] measurements, for any [n]. *)
Definition started (du : Z) : list xmove :=
  [XTask (mkXT 1 du); XWork 0 0; XWork 0 0; XWork 0 0].
Fixpoint turns (k : Z) (n : nat) : list xmove :=
  match n with O => [] | S m => XWork 0 (k + 2) :: turns (k + 1) m end.

Lemma turns_go n : forall k du s,
  xt_pc (nth 0 (x_threads s) (mkXth XEnd false)) = XLoop (mkXT 1 du) 0 k ->
  xt_run (nth 0 (x_threads s) (mkXth XEnd false)) = true ->
  k + Z.of_nat n + 2 <= du ->
  exists s', xsteps (turns k n) s = Some s'
    /\ x_points s' = (x_points s + n)%nat
    /\ length (filter (fun e => Nat.eqb (fst e) 0) (x_log s')) = (n + length (filter (fun e => Nat.eqb (fst e) 0) (x_log s)))%nat.
Proof.
  induction n as [|n IH]; intros k du s Hp Hr Hd.
  - exists s. cbn. repeat split; lia.
  - cbn [turns xsteps xstep].
    destruct (x_threads s) as [|th r] eqn:E; [cbn in Hp; discriminate Hp|].
    cbn [nth] in Hp, Hr. unfold xwork. rewrite E. cbn [nth_error]. rewrite Hp, Hr. cbn [x_interval x_duration].
    replace (1 <? k + 2 - k) with true by (symmetry; apply Z.ltb_lt; lia).
    replace (du <? k + 2 - 0) with false by (symmetry; apply Z.ltb_ge; lia).
    edestruct (IH (k + 1) du) as (s' & A & B & C); cycle 3.
    + exists s'. split; [exact A|]. cbn in B, C. rewrite B, C. split; lia.
    + cbn. reflexivity.
    + cbn. reflexivity.
    + lia.
Qed.

Lemma xstop_goes_on n :
  exists s s', xsteps (started (Z.of_nat n + 2)) x_new = Some s /\ x_running s = true
    /\ xsteps (turns 0 n) (fst (xtask_stop s)) = Some s'
    /\ length (filter (fun e => Nat.eqb (fst e) 0) (x_log s')) = n.
Proof.
  eexists. 
  edestruct (turns_go n 0 (Z.of_nat n + 2)) as (s' & A & _ & C); cycle 3.
  - exists s'. split; [reflexivity|]. split; [reflexivity|]. split; [exact A|]. rewrite C. cbn. lia.
  - reflexivity.
  - reflexivity.
  - lia.
Qed.

(** After a reset the component says it is idle and takes a new task, while the old
    thread goes on measuring: two threads measure in turn into the same data. *)
Definition reset_race : list xmove :=
  [XTask (mkXT 1 100); XWork 0 0; XWork 0 0; XWork 0 0; XWork 0 2;
   XReset;
   XTask (mkXT 1 100); XWork 1 3; XWork 1 3; XWork 1 3;
   XWork 0 4; XWork 1 6; XWork 0 6; XWork 1 7].

(** ** After a one-off measurement that raised (C87) *)
Lemma set_thread_forall (P : xthread -> Prop) i t l : Forall P l -> P t -> Forall P (set_thread i t l).
Proof. intros F Pt; revert i; induction F; intros [|i]; cbn; constructor; auto. Qed.
Lemma set_thread_length i t l : List.length (set_thread i t l) = List.length l.
Proof. revert i; induction l as [|a l IH]; intros [|i]; cbn; auto. Qed.
Lemma set_thread_nth i t l a : nth_error l i = Some a -> nth_error (set_thread i t l) i = Some t.
Proof. revert i; induction l as [|b l IH]; intros [|i] H; cbn in *; try discriminate H; auto. Qed.

Definition xidle (th : xthread) : Prop := xt_pc th = XNew \/ xt_pc th = XEnd.
(** The component says it is running, its thread has ended, and no other thread is active. *)
Definition xstuck (s : xdev) : Prop :=
  x_running s = true /\ Forall xidle (x_threads s) /\
  exists th, nth_error (x_threads s) (x_cur s) = Some th /\ xt_pc th = XEnd.

Lemma xstuck_step m s s' : m <> XReset -> xstuck s -> xstep m s = Some s' -> xstuck s'.
Proof.
  intros N (R & F & th & T & E) H. destruct m; cbn [xstep] in H.
  1, 2: unfold xwork in H; destruct (nth_error (x_threads s) i) as [x|] eqn:X; [|discriminate H];
    apply nth_error_In in X; rewrite Forall_forall in F; destruct (F x X) as [Y|Y]; rewrite Y in H; discriminate H.
  - unfold xtask_start in H. rewrite T in H. destruct th as [p b]. cbn in E. subst p. discriminate H.
  - unfold xmeasure in H. rewrite R in H. injection H as <-. split; [exact R|]. split; [exact F|]. eauto.
  - injection H as <-. unfold xtask_stop, set_run. rewrite T. cbn. split; [exact R|].
    split; [apply set_thread_forall; [exact F|right; exact E]|].
    exists (mkXth (xt_pc th) true). split; [exact (set_thread_nth _ _ _ _ T)|exact E].
  - congruence.
Qed.

Lemma xstuck_steps l : forall s s', ~ In XReset l -> xstuck s -> xsteps l s = Some s' -> xstuck s'.
Proof.
  induction l as [|m l IH]; intros s s' N S H; cbn in H.
  - injection H as <-. exact S.
  - destruct (xstep m s) as [s1|] eqn:E; [|discriminate H].
    apply (IH s1 s'); [intros I; apply N; right; exact I| |exact H].
    apply (xstuck_step m s s1); [intros ->; apply N; left; reflexivity|exact S|exact E].
Qed.

Lemma xstuck_refuses s t : xstuck s -> xtask_start t s = None /\ xmeasure s = None.
Proof.
  intros (R & F & [p b] & T & E). cbn in E. subst p. unfold xtask_start, xmeasure. rewrite T, R. split; reflexivity.
Qed.

(** From an idle component: the measurement that fails. *)
Lemma xfail_stuck s : Forall xidle (x_threads s) -> x_running s = false ->
  exists s', xsteps [XMeas; XWork (List.length (x_threads s)) 0; XFail (List.length (x_threads s)) 0] s = Some s'
    /\ xstuck s'.
Proof.
  intros F R. set (n := List.length (x_threads s)).
  assert (Nn : nth_error (x_threads s ++ [mkXth XMeasBegin true]) n = Some (mkXth XMeasBegin true)).
  { unfold n. rewrite nth_error_app2, PeanoNat.Nat.sub_diag by apply le_n. reflexivity. }
  pose proof (set_thread_nth n (mkXth XMeasure true) _ _ Nn) as N2.
  pose proof (set_thread_nth n (mkXth XEnd true) _ _ N2) as N3.
  eexists. split.
  - cbn [xsteps xstep]. unfold xmeasure. rewrite R. unfold xwork, with_threads. cbn [x_threads]. fold n. rewrite Nn.
    cbn [xt_pc xt_run x_threads x_queue x_open x_running x_data x_cur x_points x_log]. rewrite N2.
    cbn [xt_pc xt_run]. reflexivity.
  - split; [reflexivity|]. cbn [x_threads x_cur]. split; [|exists (mkXth XEnd true); split; [exact N3|reflexivity]].
    assert (A : forall l (a b c : xthread), set_thread (List.length l) a (set_thread (List.length l) b (l ++ [c])) = l ++ [a]).
    { induction l as [|x l IH]; intros a b c; cbn; [reflexivity|]. rewrite IH. reflexivity. }
    unfold n. rewrite A. apply Forall_app. split; [exact F|]. constructor; [right; reflexivity|constructor].
Qed.
