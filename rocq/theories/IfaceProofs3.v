(** * IfaceProofs3: the two versions of the interface compared, values set, tearing down *)
From Coq Require Import List String ZArith Bool Lia.
From Verif Require Import Base BaseFacts Types AttrModel IfaceModel SpecIface IfaceProofs IfaceProofs2.
Import ListNotations.
Open Scope string_scope.
Open Scope Z_scope.

(** ** Validation in the two versions *)

Lemma param_both : forall p attrs name v,
  validate_param p attrs name v = Ok true -> validate_param20 p attrs name v = Ok true.
Proof.
  intros p attrs name v H. unfold validate_param, validate_param20 in *.
  destruct v; try discriminate;
  (destruct (dget attrs name) as [props|]; [|discriminate];
   destruct (negb (at_rw props)); [discriminate|];
   match type of H with context [if isinstance ?x ?y then ?a else ?b] =>
     destruct (if isinstance x y then a else b) as [w|e] end; [|destruct e; discriminate];
   match type of H with context [match at_options props with None => ?a | Some l => ?b l end] =>
     destruct (match at_options props with None => a | Some l => b l end) as [[|]|] end; [exact H|discriminate|discriminate]).
Qed.

Lemma param_same : forall p attrs name v, v <> VNone ->
  (forall a, dget attrs name = Some a -> at_options a = None) ->
  validate_param20 p attrs name v = validate_param p attrs name v.
Proof.
  intros p attrs name v N O. unfold validate_param, validate_param20.
  destruct v; try congruence;
  (destruct (dget attrs name) as [props|]; [|reflexivity];
   destruct (negb (at_rw props)); [reflexivity|];
   rewrite (O props eq_refl);
   match goal with |- context [if isinstance ?x ?y then ?a else ?b] =>
     destruct (if isinstance x y then a else b) as [w|e] end; [reflexivity|destruct e; reflexivity]).
Qed.

Lemma validated_both : forall p caps attrs t,
  task_validate p caps attrs t = Ok true -> task_validate20 p caps attrs t = Ok true.
Proof.
  intros p caps attrs t H. unfold task_validate, task_validate20 in *.
  destruct (negb (mem (t_technique t) caps)); [discriminate|].
  destruct (t_params t) as [l|]; [|reflexivity].
  induction l as [|[n v] l IH]; [reflexivity|]. cbn in *.
  destruct (validate_param p attrs n v) as [[|]|e] eqn:E; try discriminate.
  rewrite (param_both _ _ _ _ E). exact (IH H).
Qed.

Lemma validated_same : forall p caps attrs t, ordinary attrs t ->
  task_validate20 p caps attrs t = task_validate p caps attrs t.
Proof.
  intros p caps attrs t O. unfold task_validate, task_validate20.
  destruct (negb (mem (t_technique t) caps)); [reflexivity|].
  destruct (t_params t) as [l|] eqn:E; [|reflexivity].
  assert (G : forall n v, In (n, v) l -> validate_param20 p attrs n v = validate_param p attrs n v).
  { intros n v I. destruct (O l n v E I) as [N A]. exact (param_same p attrs n v N A). }
  clear E O. induction l as [|[n v] l IH]; [reflexivity|]. cbn.
  rewrite (G n v (or_introl eq_refl)). destruct (validate_param p attrs n v) as [[|]|e]; try reflexivity.
  apply IH. intros n' v' I. apply G. right. exact I.
Qed.

(** ** Values set by a 2.1 driver *)

Definition coercing (h : hw) (s s' : iface) : Prop :=
  i_ver s = V21 -> i_ver s' = V21 /\ (only_coerced h s -> only_coerced h s').
Lemma coercing_refl h : forall s, coercing h s s.
Proof. intros s V. split; [exact V|trivial]. Qed.
Lemma coercing_trans h : forall a b c, coercing h a b -> coercing h b c -> coercing h a c.
Proof.
  intros a b c H1 H2 V. destruct (H1 V) as [V1 S1]. destruct (H2 V1) as [V2 S2].
  split; [exact V2|]. intros S. exact (S2 (S1 S)).
Qed.
Lemma coercing_log h : forall s s', i_ver s' = i_ver s -> i_log s' = i_log s -> coercing h s s'.
Proof. intros s s' V L V0. split; [congruence|]. unfold only_coerced. rewrite L. trivial. Qed.
Lemma coercing_note h : forall s s' e, i_ver s' = i_ver s -> i_log s' = (i_log s ++ [e])%list ->
  (forall k n w, e = EvSet k n w -> exists v, coerce_val (h_parser h) (h_attrs h k) n v = Ok w) ->
  coercing h s s'.
Proof.
  intros s s' e V L X V0. split; [congruence|]. intros S k n w I. rewrite L in I.
  apply in_app_iff in I as [I|[E|[]]]; [exact (S k n w I)|exact (X k n w E)].
Qed.

Lemma set_attr_coercing : forall h p, frame (coercing h) (cmp_set_attr h p).
Proof.
  intros h p. unfold cmp_set_attr. apply frame_log_errors.
  apply (frame_in_devmap _ (coercing_refl h)). intros k p'.
  apply (frame_bind _ (coercing_trans h)); [apply (frame_need_arg _ (coercing_refl h))|]. intros name.
  apply (frame_bind _ (coercing_trans h)); [apply (frame_need_arg _ (coercing_refl h))|]. intros v.
  apply (frame_bind _ (coercing_trans h)); [apply (frame_device_at _ (coercing_refl h))|]. intros _.
  intros s s' r H. unfold mbind at 1, mres in H.
  destruct (coerce_val (h_parser h) (h_attrs h k) name v) as [w|e] eqn:E.
  2:{ injection H as <- _. apply coercing_refl. }
  revert s s' r H.
  change (frame (coercing h) (mbind (mput (note (EvSet k name w))) (fun _ =>
    mbind (call (fun n => h_set h n k name w)) (fun _ => ret (mkReply true (RVal w)))))).
  apply (frame_bind _ (coercing_trans h)).
  - apply frame_mput. intros s. apply (coercing_note h _ _ (EvSet k name w)); [reflexivity|reflexivity|].
    intros k' n' w' [= <- <- <-]. exists v. exact E.
  - intros _. apply (frame_bind _ (coercing_trans h)).
    + apply frame_call. intros s. apply coercing_log; reflexivity.
    + intros _. apply (frame_ret _ (coercing_refl h)).
Qed.

Lemma component_coercing : forall h name p, frame (coercing h) (component_method h name p).
Proof.
  intros h name p s s' r. unfold component_method. destruct (i_ver s) eqn:V.
  - intros _ V'. congruence.
  - revert s s' r V. cut (frame (coercing h) (method21 h name p)); [intros F s s' r _; apply F|].
    apply method21_frame; [apply coercing_refl|apply coercing_trans|..|apply set_attr_coercing];
    intros; apply coercing_log; reflexivity.
Qed.
Lemma call_coercing : forall h name p, frame (coercing h) (call_attribute h name p).
Proof.
  intros h name p. apply call_frame; [apply coercing_refl|apply coercing_trans|..|apply component_coercing];
  intros; apply coercing_log; reflexivity.
Qed.

(** ** What a turn does besides calling methods: a general frame for the main loop *)
Section Turns.
  Variable R : iface -> iface -> Prop.
  Hypothesis RR : forall s, R s s.
  Hypothesis RT : forall a b c, R a b -> R b c -> R a c.
  Variable h : hw.
  Hypothesis Rcall : forall name p, frame R (call_attribute h name p).
  Hypothesis Rcomp : forall name p, frame R (component_method h name p).
  Hypothesis Rreg : forall p, frame R (cmp_register h p).
  Hypothesis Rnote : forall a k s, R s (note (EvRegister a k) s).
  Hypothesis Rround : forall t s, R s (note (EvRound t) s).
  Hypothesis Rimi : forall x s, R s (set_imi x s).
  Hypothesis Rwork : forall f s, R s (worked f s).

  Lemma boot_frame : forall driver c, frame R (boot_component h driver c).
  Proof.
    intros driver c. unfold boot_component.
    destruct (negb _); [apply (frame_ret _ RR)|].
    apply (frame_bind _ RT); [apply (frame_mget _ RR)|]. intros s0.
    destruct (kget _ _); [apply (frame_ret _ RR)|].
    destruct (match i_ver s0 with V20 => _ | V21 => _ end); [apply (frame_ret _ RR)|].
    apply (frame_bind _ RT); [apply frame_mput; intros s; apply Rnote|]. intros _.
    apply (frame_bind _ RT); [apply Rreg|]. intros _. apply (frame_ret _ RR).
  Qed.

  Lemma handle_frame : forall driver i q, frame R (handle h driver i q).
  Proof.
    intros driver i q. unfold handle. destruct (rq_cmd q) as [cmd|]; [|apply (frame_ret _ RR)].
    destruct (String.eqb cmd "register").
    { apply (frame_bind _ RT).
      - unfold bootstrap. apply (frame_mfor _ RR RT). intros c. apply boot_frame.
      - intros _. apply (frame_bind _ RT); [apply (frame_mget _ RR)|]. intros s0.
        destruct (i_ver s0); [apply (frame_raise _ RR)|apply (frame_ret _ RR)]. }
    destruct (String.eqb cmd "stop"); [apply (frame_ret _ RR)|].
    destruct (String.eqb cmd "settings").
    { destruct (rq_params q); [|apply (frame_raise _ RR)].
      apply (frame_bind _ RT); [apply frame_mput; intros s; apply Rimi|]. intros _. apply (frame_ret _ RR). }
    destruct (String.eqb cmd "cmp_register").
    { destruct (rq_params q) as [p|]; [|apply (frame_raise _ RR)]. unfold manual_register.
      apply (frame_bind _ RT); [apply frame_mput; intros s; apply Rnote|]. intros _.
      apply (frame_bind _ RT); [apply Rreg|]. intros r.
      destruct (dr_ok r); [|apply (frame_ret _ RR)].
      destruct (ti_answer i); [apply (frame_ret _ RR)|apply (frame_raise _ RR)]. }
    apply (frame_bind _ RT); [apply (frame_mget _ RR)|]. intros s0.
    destruct (has_attribute h (i_ver s0) cmd); [|apply (frame_ret _ RR)].
    intros s s' r H.
    destruct (call_attribute h cmd _ s) as [s1 r1] eqn:CA.
    assert (s1 = s') by (destruct r1 as [x|[]]; injection H as <- _; reflexivity). subst s1.
    exact (Rcall _ _ _ _ _ CA).
  Qed.

  Lemma idle_frame : forall now last, frame R (idle_measurements h now last).
  Proof.
    intros now last. unfold idle_measurements.
    apply (frame_bind _ RT); [apply (frame_mget _ RR)|]. intros s0.
    destruct (interval_of s0); [|apply (frame_ret _ RR)].
    destruct (match last with Some t => _ | None => false end); [apply (frame_ret _ RR)|].
    apply (frame_bind _ RT); [apply frame_mput; intros s; apply Rround|]. intros _.
    apply (frame_bind _ RT); [|intros _; apply (frame_ret _ RR)].
    apply (frame_mfor _ RR RT). intros k.
    apply (frame_bind _ RT); [apply Rcomp|]. intros _. apply (frame_ret _ RR).
  Qed.

  Lemma idle_turn_frame : forall i p p' f, idle_turn h i p = (p', f) -> R (dp_iface p) (dp_iface p').
  Proof.
    intros i p p' f H. unfold idle_turn in H.
    destruct (idle_measurements h (ti_clock i) (dp_last p) (dp_iface p)) as [s [t|e]] eqn:I.
    - injection H as <- _. exact (idle_frame _ _ _ _ _ I).
    - assert (E : dp_iface p' = s) by (destruct e; injection H as <- _; reflexivity).
      rewrite E. exact (idle_frame _ _ _ _ _ I).
  Qed.

  Lemma dturn_frame : forall driver p i p' a f,
    dturn h driver p i = (p', a, f) -> R (dp_iface p) (dp_iface p').
  Proof.
    intros driver p i p' a f H. apply (RT _ (worked (ti_work i) (dp_iface p))); [apply Rwork|].
    unfold dturn in H. set (p0 := mkProc (worked (ti_work i) (dp_iface p)) (dp_last p)) in *.
    change (worked (ti_work i) (dp_iface p)) with (dp_iface p0). unfold main_turn in H.
    destruct (ti_req i) as [q|].
    - destruct (handle h driver i q (dp_iface p0)) as [s r] eqn:HD. apply handle_frame in HD.
      destruct r as [rep|e]; [|injection H as <- _ _; exact HD].
      destruct (negb (picklable rep)); [injection H as <- _ _; exact HD|].
      destruct (match rq_cmd q with Some c => _ | None => false end); [injection H as <- _ _; exact HD|].
      destruct (idle_turn h i (mkProc s (dp_last p0))) as [p2 f2] eqn:IT. injection H as <- _ _.
      apply idle_turn_frame in IT. exact (RT _ _ _ HD IT).
    - destruct (idle_turn h i p0) as [p2 f2] eqn:IT. injection H as <- _ _.
      exact (idle_turn_frame _ _ _ _ IT).
  Qed.

  Lemma dturns_frame : forall driver l p p' a f,
    dturns h driver p l = (p', a, f) -> R (dp_iface p) (dp_iface p').
  Proof.
    intros driver. induction l as [|i l IH]; intros p p' a f H.
    - injection H as <- _ _. apply RR.
    - cbn in H. destruct (dturn h driver p i) as [[p1 a1] f1] eqn:T. apply dturn_frame in T.
      destruct f1; try (injection H as <- _ _; exact T).
      destruct (dturns h driver p1 l) as [[p2 a2] f2] eqn:D. injection H as <- _ _.
      exact (RT _ _ _ T (IH _ _ _ _ D)).
  Qed.
End Turns.

Lemma register_coercing : forall h p, frame (coercing h) (cmp_register h p).
Proof.
  intros h p s s' r H. apply register_cases in H as (V & _ & _ & _ & H).
  destruct r as [rep|e]; [destruct H as [(_ & L & _)|(_ & L & _)]|].
  - apply (coercing_note h _ _ _ V L). discriminate.
  - exact (coercing_log h _ _ V L).
  - exact (coercing_log h _ _ V H).
Qed.

Lemma all_coerced : forall h driver imi c l p a f,
  dturns h driver (new_proc V21 imi c) l = (p, a, f) -> only_coerced h (dp_iface p).
Proof.
  intros h driver imi c l p a f H.
  assert (C : coercing h (dp_iface (new_proc V21 imi c)) (dp_iface p)).
  { revert H. apply (dturns_frame (coercing h) (coercing_refl h) (coercing_trans h) h).
    - apply call_coercing.
    - apply component_coercing.
    - apply register_coercing.
    - intros b k s. apply (coercing_note h _ _ (EvRegister b k)); [reflexivity|reflexivity|discriminate].
    - intros t s. apply (coercing_note h _ _ (EvRound t)); [reflexivity|reflexivity|discriminate].
    - intros x s. apply coercing_log; reflexivity.
    - intros g s. apply coercing_log; reflexivity. }
  destruct (C eq_refl) as [_ S]. apply S. intros k name w [].
Qed.

(** ** Components are listed once *)

Lemma kset_keys : forall A (d : list (key * A)) k a,
  map fst (kset d k a) = if is_some (kget d k) then map fst d else (map fst d ++ [k])%list.
Proof.
  induction d as [|[k0 b] r IH]; intros k a; cbn; [reflexivity|].
  destruct (key_eqb k k0); cbn; [reflexivity|]. rewrite IH. destruct (is_some (kget r k)); reflexivity.
Qed.
Lemma kget_in : forall A (d : list (key * A)) k, kget d k = None <-> ~ In k (map fst d).
Proof.
  induction d as [|[k0 b] r IH]; intros k; cbn; [tauto|].
  destruct (key_eqb k k0) eqn:E.
  - apply key_eqb_eq in E. subst. split; [discriminate|]. intros N. exfalso. apply N. left. reflexivity.
  - apply key_eqb_neq in E. rewrite IH. split; [intros N [->|I]; [congruence|exact (N I)]|tauto].
Qed.
Lemma kset_unique : forall A (d : list (key * A)) k a, NoDup (map fst d) -> NoDup (map fst (kset d k a)).
Proof.
  intros A d k a N. rewrite kset_keys. destruct (kget d k) eqn:E; cbn; [exact N|].
  apply kget_in in E. revert N E. generalize (map fst d) as l.
  induction l as [|x l IH]; intros N E; cbn; [constructor; [tauto|constructor]|].
  inversion N as [|? ? N1 N2]; subst. constructor.
  - rewrite in_app_iff. cbn. intros [I|[->|[]]]; [exact (N1 I)|]. apply E. left. reflexivity.
  - apply IH; [exact N2|]. intros I. apply E. right. exact I.
Qed.
Lemma kdel_incl : forall A (d : list (key * A)) k k', In k' (map fst (kdel d k)) -> In k' (map fst d).
Proof.
  induction d as [|[k0 b] r IH]; intros k k' I; cbn in *; [exact I|].
  destruct (key_eqb k k0); [right; exact I|]. destruct I as [E|I]; [left; exact E|right; exact (IH _ _ I)].
Qed.
Lemma kdel_unique : forall A (d : list (key * A)) k, NoDup (map fst d) -> NoDup (map fst (kdel d k)).
Proof.
  induction d as [|[k0 b] r IH]; intros k N; cbn; [constructor|].
  inversion N as [|? ? N1 N2]; subst. destruct (key_eqb k k0); [exact N2|]. cbn. constructor.
  - intros I. apply N1. exact (kdel_incl _ _ _ _ I).
  - apply IH. exact N2.
Qed.
Lemma kget_kdel : forall A (d : list (key * A)) k k', NoDup (map fst d) ->
  kget (kdel d k) k' = if key_eqb k' k then None else kget d k'.
Proof.
  induction d as [|[k0 b] r IH]; intros k k' N; cbn; [destruct (key_eqb k' k); reflexivity|].
  inversion N as [|? ? N1 N2]; subst. destruct (key_eqb k k0) eqn:E.
  - apply key_eqb_eq in E. subst k0. destruct (key_eqb k' k) eqn:E2; [|reflexivity].
    apply key_eqb_eq in E2. subst k'. apply kget_in. exact N1.
  - cbn. rewrite (IH k k' N2). destruct (key_eqb k' k0) eqn:E2; [|reflexivity].
    apply key_eqb_eq in E2. subst k0. destruct (key_eqb k' k) eqn:E3; [|reflexivity].
    apply key_eqb_eq in E3. subst k'. rewrite key_eqb_refl in E. discriminate.
Qed.

Definition keeps_unique (s s' : iface) : Prop := unique_keys s -> unique_keys s'.
Lemma ku_refl : forall s, keeps_unique s s.
Proof. intros s U. exact U. Qed.
Lemma ku_trans : forall a b c, keeps_unique a b -> keeps_unique b c -> keeps_unique a c.
Proof. intros a b c H1 H2 U. exact (H2 (H1 U)). Qed.
Lemma ku_same : forall s s', i_devmap s' = i_devmap s -> keeps_unique s s'.
Proof. intros s s' E U. unfold unique_keys. rewrite E. exact U. Qed.
Lemma ku_upd : forall k f s,
  keeps_unique s (set_devmap (fun d => match kget d k with Some v => kset d k (f v) | None => d end) s).
Proof.
  intros k f s U. unfold unique_keys, set_devmap. cbn [i_devmap].
  destruct (kget (i_devmap s) k); [apply kset_unique; exact U|exact U].
Qed.
Lemma ku_del : forall k s, keeps_unique s (set_devmap (fun d => kdel d k) s).
Proof. intros k s U. apply kdel_unique. exact U. Qed.
Lemma ku_component : forall h name p, frame keeps_unique (component_method h name p).
Proof.
  intros h name p.
  assert (S : frame keeps_unique (cmp_set_attr h p) /\ frame keeps_unique (cmp_set_attr20 h p)).
  { apply set_frames; [apply ku_refl|apply ku_trans|..]; intros; apply ku_same; reflexivity. }
  apply component_frame; [apply ku_refl|apply ku_trans|intros; apply ku_same; reflexivity
    |apply ku_upd|apply ku_del|apply S|apply S].
Qed.
Lemma ku_call : forall h name p, frame keeps_unique (call_attribute h name p).
Proof.
  intros h name p. apply call_frame; [apply ku_refl|apply ku_trans|intros; apply ku_same; reflexivity
    |apply ku_upd|apply ku_component].
Qed.
Lemma ku_register : forall h p, frame keeps_unique (cmp_register h p).
Proof.
  intros h p. unfold cmp_register. apply frame_log_errors.
  apply (frame_bind _ ku_trans); [apply (frame_need_arg _ ku_refl)|]. intros a.
  apply (frame_bind _ ku_trans); [apply (frame_need_arg _ ku_refl)|]. intros c.
  apply (frame_bind _ ku_trans); [apply (frame_twice _ ku_refl)|]. intros _.
  intros s s' r H. cbv zeta in H.
  match type of H with (match i_ver s with V20 => ?m s | V21 => _ end) = _ => set (att := m) in H end.
  assert (F : frame keeps_unique att).
  { unfold att. apply (frame_bind _ ku_trans); [apply frame_call; intros; apply ku_same; reflexivity|]. intros _.
    apply (frame_bind _ ku_trans); [apply (frame_mget _ ku_refl)|]. intros n.
    apply (frame_bind _ ku_trans).
    { apply frame_mput. intros s0 U. apply kset_unique. exact U. }
    intros _. apply (frame_bind _ ku_trans); [apply frame_call; intros; apply ku_same; reflexivity|]. intros caps.
    apply (frame_bind _ ku_trans).
    { destruct (i_ver s); [apply (frame_ret _ ku_refl)|apply frame_mput; intros; apply ku_same; reflexivity]. }
    intros _. apply (frame_bind _ ku_trans); [apply frame_mput; intros; apply ku_same; reflexivity|].
    intros _. apply (frame_ret _ ku_refl). }
  destruct (i_ver s) eqn:V.
  - exact (F _ _ _ H).
  - destruct (att s) as [s1 r1] eqn:E. pose proof (F _ _ _ E) as K.
    destruct r1 as [x|e]; [injection H as <- _; exact K|].
    destruct e; injection H as <- _; exact K.
Qed.

Lemma worked_keys : forall f s, map fst (i_devmap (worked f s)) = map fst (i_devmap s).
Proof. intros f s. unfold worked, set_devmap. cbn [i_devmap]. rewrite map_map. reflexivity. Qed.

Lemma dturns_unique : forall h driver v imi c l p a f,
  dturns h driver (new_proc v imi c) l = (p, a, f) -> unique_keys (dp_iface p).
Proof.
  intros h driver v imi c l p a f H.
  assert (K : keeps_unique (dp_iface (new_proc v imi c)) (dp_iface p)).
  { revert H. apply (dturns_frame keeps_unique ku_refl ku_trans h).
    - apply ku_call.
    - apply ku_component.
    - apply ku_register.
    - intros; apply ku_same; reflexivity.
    - intros; apply ku_same; reflexivity.
    - intros; apply ku_same; reflexivity.
    - intros g s U. unfold unique_keys. rewrite worked_keys. exact U. }
  apply K. constructor.
Qed.
