(** * Device20Proofs2: sampling and exclusion in the 2.0 interface *)
From Coq Require Import List ZArith Bool Lia Arith.
From Verif Require Import Device20Model SpecDevice20 Device20Proofs.
Import ListNotations.
Open Scope Z_scope.

Lemma set_thread_other i j t l : i <> j -> nth_error (set_thread i t l) j = nth_error l j.
Proof.
  revert i j; induction l as [|b l IH]; intros [|i] [|j] N; cbn; try reflexivity; try congruence.
  apply IH. congruence.
Qed.
Lemma nth_snoc {A} (l : list A) a j x :
  nth_error (l ++ [a]) j = Some x -> nth_error l j = Some x \/ (j = List.length l /\ x = a).
Proof.
  intros H. destruct (Nat.lt_ge_cases j (List.length l)) as [L|L].
  - rewrite nth_error_app1 in H by exact L. left. exact H.
  - rewrite nth_error_app2 in H by exact L. destruct (j - List.length l)%nat as [|k] eqn:E.
    + cbn in H. injection H as <-. right. split; [lia|reflexivity].
    + cbn in H. destruct k; discriminate H.
Qed.
Lemma nth_snoc_old {A} (l : list A) a j x : nth_error l j = Some x -> nth_error (l ++ [a]) j = Some x.
Proof. intros H. rewrite nth_error_app1; [exact H|]. apply nth_error_Some. congruence. Qed.
Lemma nth_snoc_new {A} (l : list A) a : nth_error (l ++ [a]) (List.length l) = Some a.
Proof. rewrite nth_error_app2, Nat.sub_diag by apply le_n. reflexivity. Qed.

(** A thread of the new list is the changed one or an old one. *)
Lemma set_thread_inv i t l j x : nth_error (set_thread i t l) j = Some x ->
  (j = i /\ x = t /\ exists a, nth_error l i = Some a) \/ (j <> i /\ nth_error l j = Some x).
Proof.
  intros H. destruct (Nat.eq_dec i j) as [<-|N].
  - left. destruct (nth_error l i) as [a|] eqn:E.
    + rewrite (set_thread_nth _ _ _ _ E) in H. injection H as <-. eauto.
    + exfalso. apply nth_error_None in E.
      assert (X : nth_error (set_thread i t l) i = None) by (apply nth_error_None; rewrite set_thread_length; exact E).
      congruence.
  - right. split; [congruence|]. rewrite set_thread_other in H by exact N. exact H.
Qed.

Lemma set_run_inv i b l j x : nth_error (set_run i b l) j = Some x ->
  exists y, nth_error l j = Some y /\ xt_pc x = xt_pc y.
Proof.
  unfold set_run. destruct (nth_error l i) as [th|] eqn:E; intros H; [|eauto].
  apply set_thread_inv in H. destruct H as [(-> & -> & _)|(_ & H)]; eauto.
Qed.

Lemma set_thread_twice i a b l : set_thread i a (set_thread i b l) = set_thread i a l.
Proof. revert i; induction l as [|x l IH]; intros [|i]; cbn; try reflexivity. f_equal. apply IH. Qed.

(** ** Sampling *)
Definition Isample (s : xdev) : Prop := forall i th, nth_error (x_threads s) i = Some th ->
  match xt_pc th with
  | XNew | XBegin | XGet | XStart _ | XMeasBegin | XMeasure => measured_by i (x_log s) = 0%nat
  | XLoop t t0 tp => 0 <= x_interval t -> x_interval t * Z.of_nat (measured_by i (x_log s)) <= tp - t0
  | _ => True
  end.
(** Only threads that exist have measured. *)
Definition Ilog (s : xdev) : Prop := forall i, (List.length (x_threads s) <= i)%nat -> measured_by i (x_log s) = 0%nat.

Lemma measured_cons i j p l :
  measured_by i ((j, p) :: l) = ((if Nat.eqb j i then 1 else 0) + measured_by i l)%nat.
Proof. cbn. destruct (Nat.eqb j i); reflexivity. Qed.

Lemma set_run_length i b l : List.length (set_run i b l) = List.length l.
Proof. unfold set_run. destruct (nth_error l i); [apply set_thread_length|reflexivity]. Qed.

Lemma lt_of_nth {A} (l : list A) i a : nth_error l i = Some a -> (i < List.length l)%nat.
Proof. intros H. apply nth_error_Some. congruence. Qed.

Ltac xcase H := repeat match type of H with
  | context [match ?x with _ => _ end] => destruct x eqn:?
  end; try discriminate H; injection H as <-.

Lemma xwork_log i c f s s' : xwork i c f s = Some s' ->
  x_log s' = x_log s \/ x_log s' = (i, x_points s) :: x_log s.
Proof.
  unfold xwork. intros H. destruct (nth_error (x_threads s) i) as [th|]; [|discriminate H].
  destruct (xt_pc th) as [| | |t|t t0 tp| | | |]; try discriminate H.
  all: try (injection H as <-; cbn; auto; fail).
  - destruct (x_queue s); [discriminate H|]. injection H as <-. cbn. auto.
  - destruct (xt_run th); [|injection H as <-; cbn; auto].
    destruct (_ <? c - tp), f; cbn [andb negb] in H; injection H as <-; cbn; auto.
  - destruct (x_open s); injection H as <-; cbn; auto.
  - destruct f; injection H as <-; cbn; auto.
Qed.

Lemma xwork_length i c f s s' : xwork i c f s = Some s' -> (List.length (x_threads s) <= List.length (x_threads s'))%nat.
Proof.
  unfold xwork. intros H. destruct (nth_error (x_threads s) i) as [th|]; [|discriminate H].
  destruct (xt_pc th) as [| | |t|t t0 tp| | | |]; try discriminate H.
  all: try (injection H as <-; cbn; rewrite ?set_thread_length; auto; fail).
  - destruct (x_queue s); [discriminate H|]. injection H as <-. cbn. rewrite set_thread_length. auto.
  - injection H as <-. cbn. rewrite set_thread_length. destruct f; rewrite ?set_run_length; auto.
  - destruct (xt_run th); [|injection H as <-; cbn; rewrite set_thread_length; auto].
    destruct (_ <? c - tp), f; cbn [andb negb] in H; injection H as <-; cbn; rewrite set_thread_length; auto.
  - destruct (x_open s); injection H as <-; cbn; rewrite ?app_length, set_thread_length; lia.
  - destruct f; injection H as <-; cbn; rewrite ?app_length, set_thread_length; lia.
Qed.

Lemma Ilog_step m s s' : Ilog s -> xstep m s = Some s' -> Ilog s'.
Proof.
  intros I H.
  assert (W : forall i c f, xwork i c f s = Some s' -> Ilog s').
  { intros i c f E k K. pose proof (xwork_length _ _ _ _ _ E) as L.
    assert (Hi : (i < List.length (x_threads s))%nat).
    { unfold xwork in E. destruct (nth_error (x_threads s) i) eqn:X; [|discriminate E]. exact (lt_of_nth _ _ _ X). }
    destruct (xwork_log _ _ _ _ _ E) as [->| ->]; [apply I; lia|].
    rewrite measured_cons. destruct (Nat.eqb_spec i k); [lia|]. cbn. apply I. lia. }
  destruct m; cbn [xstep] in H; eauto.
  - unfold xtask_start in H. destruct (nth_error _ _) as [[p b]|]; [|discriminate H].
    destruct p; try discriminate H. injection H as <-. intros k K. cbn in *. rewrite set_thread_length in K. auto.
  - injection H as <-. unfold xmeasure. destruct (x_running s); [exact I|]. intros k K. cbn in *.
    rewrite app_length in K. apply I. lia.
  - injection H as <-. intros k K. cbn in *. rewrite set_run_length in K. auto.
  - injection H as <-. intros k K. cbn in *. rewrite app_length in K. apply I. lia.
Qed.

Lemma Isample_step m s s' : Ilog s -> Isample s -> xstep m s = Some s' -> Isample s'.
Proof.
  intros L I H.
  assert (Old : forall i j th, nth_error (x_threads s) j = Some th -> j <> i -> forall p,
    match xt_pc th with
    | XNew | XBegin | XGet | XStart _ | XMeasBegin | XMeasure => measured_by j ((i, p) :: x_log s) = 0%nat
    | XLoop t t0 tp => 0 <= x_interval t -> x_interval t * Z.of_nat (measured_by j ((i, p) :: x_log s)) <= tp - t0
    | _ => True
    end).
  { intros i j th E N p. specialize (I j th E). rewrite measured_cons.
    destruct (Nat.eqb_spec i j); [congruence|]. exact I. }
  assert (Len : measured_by (List.length (x_threads s)) (x_log s) = 0%nat) by (apply L; auto).
  assert (W : forall i c f, xwork i c f s = Some s' -> Isample s').
  { clear H. intros i c f H. unfold xwork in H.
    destruct (nth_error (x_threads s) i) as [th|] eqn:T; [|discriminate H].
    pose proof (I i th T) as Ii.
    destruct (xt_pc th) as [| | |t|t t0 tp| | | |] eqn:P; try discriminate H.
    - injection H as <-. intros j x X. cbn in X |- *. apply set_thread_inv in X.
      destruct X as [(-> & -> & _)|(N & X)]; [exact Ii|exact (I j x X)].
    - destruct (x_queue s) as [|t0 q0]; [discriminate H|]. injection H as <-. intros j x X. cbn in X |- *.
      apply set_thread_inv in X. destruct X as [(-> & -> & _)|(N & X)]; [exact Ii|exact (I j x X)].
    - injection H as <-. intros j x X. cbn in X |- *. apply set_thread_inv in X.
      destruct X as [(-> & -> & _)|(N & X)]; cbn.
      + rewrite Ii. lia.
      + destruct f; [|exact (I j x X)]. destruct (set_run_inv _ _ _ _ _ X) as (y & Y & ->). exact (I j y Y).
    - destruct (xt_run th).
      + destruct (x_interval t <? c - tp) eqn:D; destruct f; cbn [andb negb] in H; injection H as <-;
          intros j x X; cbn in X |- *; apply set_thread_inv in X;
          (destruct X as [(-> & -> & _)|(N & X)]; [|try exact (I j x X); exact (Old i j x X N (x_points s))]); cbn [xt_pc];
          (destruct (x_duration t <? c - t0); [exact Logic.I|]); intros Z0; specialize (Ii Z0);
          try rewrite Nat.eqb_refl; lia || nia.
      + injection H as <-. intros j x X. cbn in X |- *. apply set_thread_inv in X.
        destruct X as [(-> & -> & _)|(N & X)]; [exact Logic.I|exact (I j x X)].
    - destruct (x_open s); injection H as <-; intros j x X; cbn in X |- *.
      + apply set_thread_inv in X. destruct X as [(-> & -> & _)|(N & X)]; [exact Logic.I|exact (I j x X)].
      + apply nth_snoc in X. rewrite set_thread_length in X. destruct X as [X|[-> ->]]; [|exact Len].
        apply set_thread_inv in X. destruct X as [(-> & -> & _)|(N & X)]; [exact Logic.I|exact (I j x X)].
    - injection H as <-. intros j x X. cbn in X |- *. apply set_thread_inv in X.
      destruct X as [(-> & -> & _)|(N & X)]; [exact Ii|exact (I j x X)].
    - destruct f; injection H as <-; intros j x X; cbn in X |- *.
      + apply set_thread_inv in X. destruct X as [(-> & -> & _)|(N & X)]; [exact Logic.I|exact (I j x X)].
      + apply nth_snoc in X. rewrite set_thread_length in X. destruct X as [X|[-> ->]].
        * apply set_thread_inv in X. destruct X as [(-> & -> & _)|(N & X)]; [exact Logic.I|exact (Old i j x X N (x_points s))].
        * cbn. apply lt_of_nth in T. destruct (Nat.eqb_spec i (List.length (x_threads s))); [lia|exact Len]. }
  destruct m; cbn [xstep] in H; eauto.
  - unfold xtask_start in H. destruct (nth_error (x_threads s) (x_cur s)) as [[p b]|] eqn:T; [|discriminate H].
    destruct p; try discriminate H. injection H as <-. intros j x X. cbn in X |- *. apply set_thread_inv in X.
    destruct X as [(-> & -> & _)|(N & X)]; [exact (I _ _ T)|exact (I j x X)].
  - injection H as <-. unfold xmeasure. destruct (x_running s); [exact I|]. intros j x X. cbn in X |- *.
    apply nth_snoc in X. destruct X as [X|[-> ->]]; [exact (I j x X)|exact Len].
  - injection H as <-. intros j x X. cbn in X |- *. destruct (set_run_inv _ _ _ _ _ X) as (y & Y & ->). exact (I j y Y).
  - injection H as <-. intros j x X. cbn in X |- *.
    apply nth_snoc in X. destruct X as [X|[-> ->]]; [exact (I j x X)|exact Len].
Qed.

Lemma sample_steps l : forall s s', Ilog s -> Isample s -> xsteps l s = Some s' -> Ilog s' /\ Isample s'.
Proof.
  induction l as [|m l IH]; intros s s' L I H; cbn in H.
  - injection H as <-. auto.
  - destruct (xstep m s) as [s1|] eqn:E; [|discriminate H].
    exact (IH s1 s' (Ilog_step _ _ _ L E) (Isample_step _ _ _ L I E) H).
Qed.

Lemma sample_new : Ilog x_new /\ Isample x_new.
Proof.
  split; [intros i _; reflexivity|]. intros [|[|i]] th H; cbn in H; try discriminate H. injection H as <-. reflexivity.
Qed.

Lemma x_spacing l s i th t t0 tp c f s' :
  xsteps l x_new = Some s -> nth_error (x_threads s) i = Some th -> xt_pc th = XLoop t t0 tp ->
  0 <= x_interval t -> xwork i c f s = Some s' -> x_log s' <> x_log s ->
  x_interval t * Z.of_nat (S (measured_by i (x_log s))) < c - t0.
Proof.
  intros R T P Z0 H D. destruct (sample_steps l x_new s (proj1 sample_new) (proj2 sample_new) R) as [_ I].
  specialize (I i th T). rewrite P in I. specialize (I Z0).
  unfold xwork in H. rewrite T, P in H. destruct (xt_run th).
  - destruct (x_interval t <? c - tp) eqn:E.
    + apply Z.ltb_lt in E. lia.
    + cbn [andb] in H. injection H as <-. exfalso. apply D. reflexivity.
  - injection H as <-. exfalso. apply D. reflexivity.
Qed.

(** ** One thread at a time *)
Definition cur_ok (s : xdev) (p : xpc) : Prop :=
  match p with
  | XNew => x_running s = false /\ x_queue s = [] /\ x_open s = 0%nat
  | XBegin => x_running s = false /\ (exists t, x_queue s = [t]) /\ x_open s = 1%nat
  | XGet => x_running s = true /\ (exists t, x_queue s = [t]) /\ x_open s = 1%nat
  | XStart _ | XLoop _ _ _ | XDone => x_running s = true /\ x_queue s = [] /\ x_open s = 1%nat
  | XMeasBegin => x_running s = false /\ x_queue s = [] /\ x_open s = 0%nat
  | XMeasure => x_running s = true /\ x_queue s = [] /\ x_open s = 0%nat
  | XEnd => x_running s = true /\ x_queue s = [] /\ x_open s = 0%nat
  end.
Definition Isolo (s : xdev) : Prop :=
  (forall j th, nth_error (x_threads s) j = Some th -> j <> x_cur s -> ~ active th) /\
  exists th, nth_error (x_threads s) (x_cur s) = Some th /\ cur_ok s (xt_pc th).

Ltac same Same :=
  split; [exact (proj1 (Same _ _ eq_refl))|eexists; split; [exact (proj2 (Same _ _ eq_refl))|cbn]].

Lemma Isolo_work i c f s s' : Isolo s -> xwork i c f s = Some s' -> Isolo s'.
Proof.
  intros (O & th & T & C) H.
  assert (Hi : i = x_cur s).
  { destruct (Nat.eq_dec i (x_cur s)) as [E|N]; [exact E|]. exfalso. unfold xwork in H.
    destruct (nth_error (x_threads s) i) as [th'|] eqn:T'; [|discriminate H]. apply (O i th' T' N).
    unfold active. destruct (xt_pc th'); try discriminate H; exact Logic.I. }
  subst i. unfold xwork in H. rewrite T in H.
  assert (Same : forall th' l', l' = set_thread (x_cur s) th' (x_threads s) ->
    (forall j x, nth_error l' j = Some x -> j <> x_cur s -> ~ active x) /\ nth_error l' (x_cur s) = Some th').
  { intros th' l' ->. split; [|exact (set_thread_nth _ _ _ _ T)].
    intros j x X N. apply set_thread_inv in X. destruct X as [(-> & _)|(_ & X)]; [congruence|exact (O j x X N)]. }
  assert (Next : forall th', ~ active th' ->
    let l' := set_thread (x_cur s) th' (x_threads s) ++ [mkXth XNew false] in
    (forall j x, nth_error l' j = Some x -> j <> List.length (x_threads s) -> ~ active x) /\
    nth_error l' (List.length (x_threads s)) = Some (mkXth XNew false)).
  { intros th' A l'. destruct (Same th' _ eq_refl) as [S1 S2]. split.
    - intros j x X N. apply nth_snoc in X. rewrite set_thread_length in X. destruct X as [X|[-> _]]; [|congruence].
      destruct (Nat.eq_dec j (x_cur s)) as [->|M]; [|exact (S1 j x X M)]. rewrite S2 in X. injection X as <-. exact A.
    - unfold l'. rewrite <- (set_thread_length (x_cur s) th' (x_threads s)). apply nth_snoc_new. }
  unfold cur_ok in C.
  destruct (xt_pc th) as [| | |t|t t0 tp| | | |] eqn:P; try discriminate H; destruct C as (C1 & C2 & C3).
  - injection H as <-. same Same; auto.
  - destruct C2 as [t C2]. rewrite C2 in H. injection H as <-. same Same; auto.
  - assert (E : exists b, s' = mkX (x_queue s) (x_open s) (x_running s) [] (x_cur s)
        (set_thread (x_cur s) (mkXth (XLoop t c c) b) (x_threads s)) (x_points s) (x_log s)).
    { destruct f; injection H as <-; [|eexists; reflexivity]. eexists. f_equal. unfold set_run. rewrite T. apply set_thread_twice. }
    destruct E as [b ->]. destruct (Same (mkXth (XLoop t c c) b) _ eq_refl) as [S1 S2]. split; [exact S1|]. eexists. split; [exact S2|]. cbn. auto.
  - destruct (xt_run th).
    + destruct (x_interval t <? c - tp), f; cbn [andb negb] in H; injection H as <-; same Same;
        destruct (_ <? _); cbn; auto.
    + injection H as <-. same Same; auto.
  - rewrite C3 in H. injection H as <-. destruct (Next (mkXth XEnd (xt_run th)) (fun x => x)) as [S1 S2].
    split; [exact S1|]. eexists. split; [exact S2|]. cbn. auto.
  - injection H as <-. same Same; auto.
  - destruct f; injection H as <-.
    + same Same; auto.
    + destruct (Next (mkXth XEnd (xt_run th)) (fun x => x)) as [S1 S2].
      split; [exact S1|]. eexists. split; [exact S2|]. cbn. auto.
Qed.

Lemma Isolo_step m s s' : Isolo s -> (m = XMeas \/ m = XReset -> idle_now s) -> xstep m s = Some s' -> Isolo s'.
Proof.
  intros I M H. destruct m; cbn [xstep] in H; eauto using Isolo_work.
  - destruct I as (O & th & T & C). unfold xtask_start in H. rewrite T in H. destruct th as [p b].
    destruct p; try discriminate H. injection H as <-. cbn in C. destruct C as (C1 & C2 & C3).
    split.
    + intros j x X J. cbn in X, J. apply set_thread_inv in X. destruct X as [(-> & _)|(_ & X)]; [congruence|exact (O j x X J)].
    + cbn. eexists. split; [exact (set_thread_nth _ _ _ _ T)|]. cbn. rewrite C2, C3. split; [exact C1|]. split; [eexists; reflexivity|reflexivity].
  - injection H as <-. destruct I as (O & th & T & C). specialize (M (or_introl eq_refl)).
    unfold xmeasure. destruct (x_running s) eqn:R; [split; eauto|].
    assert (A : ~ active th) by exact (M _ _ T). split.
    + intros j x X J. cbn in X, J. apply nth_snoc in X. destruct X as [X|[-> _]]; [|congruence]. exact (M j x X).
    + cbn. eexists. split; [apply nth_snoc_new|]. cbn. unfold active, cur_ok in *. destruct (xt_pc th); try (exfalso; apply A; exact Logic.I).
      * destruct C as (_ & C2 & C3). auto.
      * destruct C as (C1 & _). congruence.
  - injection H as <-. destruct I as (O & th & T & C). split.
    + intros j x X J. cbn in X, J. destruct (set_run_inv _ _ _ _ _ X) as (y & Y & E).
      unfold active. rewrite E. exact (O j y Y J).
    + cbn. unfold set_run. rewrite T. eexists. split; [exact (set_thread_nth _ _ _ _ T)|exact C].
  - injection H as <-. specialize (M (or_intror eq_refl)). split.
    + intros j x X J. cbn in X, J. apply nth_snoc in X. destruct X as [X|[-> _]]; [exact (M j x X)|congruence].
    + cbn. eexists. split; [apply nth_snoc_new|]. cbn. auto.
Qed.

Lemma Isolo_steps l : forall s s', Isolo s -> polite l s -> xsteps l s = Some s' -> Isolo s'.
Proof.
  induction l as [|m l IH]; intros s s' I P H; cbn in H.
  - injection H as <-. exact I.
  - destruct (xstep m s) as [s1|] eqn:E; [|discriminate H]. destruct P as (M & P).
    exact (IH s1 s' (Isolo_step _ _ _ I M E) (P s1 E) H).
Qed.

Lemma Isolo_new : Isolo x_new.
Proof.
  split; [|exists (mkXth XNew false); split; [reflexivity|cbn; auto]].
  intros [|[|j]] th H N; cbn in *; try discriminate H; congruence.
Qed.
