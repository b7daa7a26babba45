(** * P_Iface8: exactly which tasks the two versions of the interface judge differently (C84) *)
From Coq Require Import List String ZArith QArith Bool Lia.
From Verif Require Import Base BaseFacts Types AttrModel SpecAttr IfaceModel SpecIface IfaceProofs3 P_Attr P_Iface.
Import ListNotations.
Open Scope string_scope.
Open Scope Z_scope.

(** A value the 2.1 interface has no further objection against: it is not None, and if the
    attribute lists options, the value, converted to the type of the attribute, is equal to
    one of them. *)
Definition listed (p : parser) (a : attr) (v : pyval) : Prop :=
  forall l, at_options a = Some l ->
    exists w o, (isinstance v (at_type a) = true /\ w = v \/
      isinstance v (at_type a) = false /\ convert p (at_type a) v = Ok w) /\
      In o l /\ py_eqb w o = true.
Definition unobjected (p : parser) (attrs : dict attr) (nv : string * pyval) : Prop :=
  snd nv <> VNone /\ forall a, dget attrs (fst nv) = Some a -> listed p a (snd nv).

Lemma conv_not_list p t v w :
  (if isinstance v t then Ok v else convert p t v) = Ok w -> match w with VList _ => False | _ => True end.
Proof.
  destruct (isinstance v t) eqn:E.
  - intros H. injection H as <-. destruct v, t; cbn in E; try discriminate; exact I.
  - unfold convert, rbind. intros H.
    repeat match type of H with context [match ?x with _ => _ end] => destruct x; try discriminate H end;
    injection H as <-; exact I.
Qed.

Lemma py_in_val v l : match v with VList _ => False | _ => True end -> py_in v l = Ok (existsb (py_eqb v) l).
Proof. destruct v; intros; [..|contradiction]; reflexivity. Qed.

Lemma listed_iff p a v w :
  (if isinstance v (at_type a) then Ok v else convert p (at_type a) v) = Ok w ->
  (listed p a v <-> forall l, at_options a = Some l -> existsb (py_eqb w) l = true).
Proof.
  intros H. split.
  - intros L l E. destruct (L l E) as (w' & o & D & I & Q). apply existsb_exists. exists o. split; [exact I|].
    enough (w = w') by congruence. destruct D as [[D ->]|[D C]].
    + rewrite D in H. congruence.
    + rewrite D in H. congruence.
  - intros X l E. specialize (X l E). apply existsb_exists in X as (o & I & Q).
    exists w, o. split; [|auto]. destruct (isinstance v (at_type a)) eqn:B.
    + left. split; [reflexivity|congruence].
    + right. split; [reflexivity|exact H].
Qed.

Lemma is_none v : v = VNone \/ v <> VNone.
Proof. destruct v; [left; reflexivity|right; discriminate..]. Qed.
Lemma not_none {A} v (x y : A) : v <> VNone -> match v with VNone => x | _ => y end = y.
Proof. destruct v; intros N; [now destruct N|reflexivity..]. Qed.

Lemma param_iff p attrs name v :
  validate_param p attrs name v = Ok true <->
  validate_param20 p attrs name v = Ok true /\ unobjected p attrs (name, v).
Proof.
  unfold unobjected. cbn [fst snd].
  unfold validate_param, validate_param20.
  destruct (dget attrs name) as [a|] eqn:D; [|destruct v; (split; [discriminate|intros [Y _]; discriminate Y])].
  destruct (at_rw a) eqn:R; cbn [negb]; [|destruct v; (split; [discriminate|intros [Y _]; discriminate Y])].
  destruct (if isinstance v (at_type a) then Ok v else convert p (at_type a) v) as [w|e] eqn:C.
  2:{ destruct e, v; (split; [discriminate|intros [Y _]; discriminate Y]). }
  pose proof (listed_iff p a v w C) as L.
  destruct (is_none v) as [->|N0].
  { split; [discriminate|intros [_ [Y _]]; now destruct Y]. }
  rewrite (not_none v _ _ N0).
  destruct (at_options a) as [l|] eqn:O.
  - rewrite (py_in_val w l (conv_not_list _ _ _ _ C)).
    destruct (existsb (py_eqb w) l) eqn:X.
    + split; [intros H; split; [exact H|]|intros [H _]; exact H].
      split; [exact N0|]. intros a' E. injection E as <-. apply L. intros l' E. congruence.
    + split; [discriminate|]. intros [_ [_ H]]. specialize (H a eq_refl).
      rewrite (proj1 L H l eq_refl) in X. discriminate X.
  - split; [intros H; split; [exact H|]|intros [H _]; exact H].
    split; [exact N0|]. intros a' E. injection E as <-. apply L. discriminate.
Qed.

Lemma params_iff p attrs l :
  validate_params p attrs l = Ok true <->
  validate_params20 p attrs l = Ok true /\ Forall (unobjected p attrs) l.
Proof.
  induction l as [|[name v] r IH]; cbn.
  - split; [intros; split; [reflexivity|constructor]|reflexivity].
  - pose proof (param_iff p attrs name v) as P. split.
    + destruct (validate_param p attrs name v) as [[|]|] eqn:E; try discriminate.
      destruct (proj1 P eq_refl) as [-> U]. intros H. apply IH in H as [H F].
      split; [exact H|constructor; assumption].
    + intros [H F]. inversion F; subst.
      destruct (validate_param20 p attrs name v) as [[|]|] eqn:E; try discriminate.
      rewrite (proj2 P (conj eq_refl H2)). apply IH. split; assumption.
Qed.

(** The 2.1 interface accepts exactly the tasks the 2.0 interface accepts in which no parameter
    is None and every parameter with options is, after conversion, one of them. *)
Theorem C84_accepted_exact : forall p caps attrs t,
  task_validate p caps attrs t = Ok true <->
  task_validate20 p caps attrs t = Ok true /\ Forall (unobjected p attrs) (params t).
Proof.
  intros p caps attrs t. unfold task_validate, task_validate20, params.
  destruct (mem (t_technique t) caps); cbn [negb]; [|split; [discriminate|intros [? _]; discriminate]].
  destruct (t_params t) as [l|]; [apply params_iff|split; [intros; split; [reflexivity|constructor]|reflexivity]].
Qed.
Print Assumptions C84_accepted_exact.

(** So a task on which the two versions disagree is one that passes in 2.0 and has a parameter
    that is None or not among the options. *)
Theorem C84_differ_iff : forall p caps attrs t,
  (task_validate20 p caps attrs t = Ok true <-> task_validate p caps attrs t = Ok true) <->
  (task_validate20 p caps attrs t = Ok true -> Forall (unobjected p attrs) (params t)).
Proof.
  intros p caps attrs t. rewrite (C84_accepted_exact p caps attrs t). tauto.
Qed.
Print Assumptions C84_differ_iff.

(** "fast" is an option of "mode" and passes in both; "idle" passes in 2.0 only. *)
Example C84_exact_ex :
  let t m := ex_task "hold" [("count", VInt 3); ("mode", VStr m)] in
  (task_validate ex_parser ["hold"] ex_attrs (t "fast") = Ok true /\
   Forall (unobjected ex_parser ex_attrs) (params (t "fast"))) /\
  (task_validate20 ex_parser ["hold"] ex_attrs (t "idle") = Ok true /\
   task_validate ex_parser ["hold"] ex_attrs (t "idle") = Ok false /\
   ~ Forall (unobjected ex_parser ex_attrs) (params (t "idle"))).
Proof.
  cbv zeta. split; [|split; [vm_compute; reflexivity|split; [vm_compute; reflexivity|]]].
  - split; [vm_compute; reflexivity|]. apply (C84_accepted_exact ex_parser ["hold"]). vm_compute. reflexivity.
  - intros F. assert (H : task_validate ex_parser ["hold"] ex_attrs (ex_task "hold" [("count", VInt 3); ("mode", VStr "idle")]) = Ok true).
    { apply C84_accepted_exact. split; [vm_compute; reflexivity|exact F]. }
    vm_compute in H. discriminate H.
Qed.
