(** * AttrProofs: value coercion and task validation *)
From Coq Require Import List String ZArith QArith Bool Lia.
From Verif Require Import Base BaseFacts Types AttrModel SpecAttr.
Import ListNotations.
Open Scope Z_scope.

Lemma fle_of_flt : forall x y, flt x y = false -> x <> FNan -> y <> FNan -> fle y x.
Proof.
  intros [| | |a] [| | |b] H N M; cbn in *; try congruence; try exact I.
  rewrite negb_false_iff in H. apply Qle_bool_iff. exact H.
Qed.

Lemma size_qty : forall q, size (VQty q) = Some (q_base q).
Proof. intros [[| | |x] u]; reflexivity. Qed.

Lemma size_num : forall v f, as_num v = Some f -> size v = Some f.
Proof. intros [|b|z|f|s|q|l] g H; cbn in *; try discriminate; congruence. Qed.

Lemma operands_size : forall v b x y, operands v b = Ok (x, y) ->
  size v = Some x /\ bsize b = y.
Proof.
  intros v [f|r] x y H.
  - destruct v as [|c|z|g|s|q|l]; cbn in H; try discriminate;
      try (injection H as <- <-; split; reflexivity).
    destruct (dimensionless q || zero_or_nan f) eqn:E; [|discriminate].
    injection H as <- <-. split; [apply size_qty|reflexivity].
  - assert (B : bsize (BQty r) = q_base r) by (unfold bsize; rewrite size_qty; reflexivity).
    rewrite B.
    destruct v as [|c|z|g|s|q|l]; cbn [operands as_num] in H;
      try (destruct (dimensionless r); discriminate);
      try (match type of H with (if ?c then _ else _) = _ => destruct c; [|discriminate] end;
           injection H as <- <-; split; [try apply size_qty; reflexivity|reflexivity]).
Qed.

Lemma feq_of_feqb : forall x y, feqb x y = true -> feq x y.
Proof.
  intros [| | |a] [| | |b] H; cbn in H; try discriminate; try (split; exact I).
  apply Qeq_bool_iff in H. split; cbn; rewrite H; apply Qle_refl.
Qed.

Lemma py_eqb_same : forall v w, py_eqb v w = true -> v <> VNone -> (forall l, v <> VList l) ->
  same_value v w.
Proof.
  intros v w H NN NL.
  destruct v as [|b|z|f|s|q|l]; [congruence| | | | | |exfalso; apply (NL l); reflexivity];
  destruct w as [|b'|z'|f'|s'|q'|l']; cbn [py_eqb as_num] in H; try discriminate;
  try (apply andb_true_iff in H as [D H]);
  try (right; eexists _, _;
       split; [try apply size_qty; reflexivity|];
       split; [try apply size_qty; reflexivity|];
       split; [apply feq_of_feqb; exact H|
               cbn [dimension]; try reflexivity; unfold dimensionless in D;
               apply Z.eqb_eq in D; rewrite D; reflexivity]).
  left. apply String.eqb_eq in H. subst. eauto.
Qed.

Lemma isinstance_type : forall v t, isinstance v t = true -> has_type v t.
Proof. intros [|b|z|f|s|q|l] [| | |] H; cbn in *; try discriminate; eauto. Qed.

Lemma convert_type : forall p t v w, convert p t v = Ok w -> has_type w t.
Proof.
  intros p t v w H. destruct t; cbn in H.
  - injection H as <-. cbn. eauto.
  - left.
    destruct v as [|b|z|f|s|q|l]; cbn in H; try discriminate;
    try (injection H as <-; eauto).
    + destruct f; cbn in H; try discriminate. injection H as <-. eauto.
    + destruct (ps_int p s); [injection H as <-; eauto|discriminate].
    + destruct (dimensionless q); [|discriminate].
      destruct (q_base q); cbn in H; try discriminate. injection H as <-. eauto.
  - destruct v as [|b|z|f|s|q|l]; cbn in H; try discriminate;
    try (injection H as <-; cbn; eauto).
    + destruct (ps_float p s); [injection H as <-; cbn; eauto|discriminate].
    + destruct (dimensionless q); [injection H as <-; cbn; eauto|discriminate].
  - destruct v as [|b|z|f|s|q|l]; cbn in H; try discriminate;
    try (injection H as <-; cbn; eauto).
    + destruct (ps_bool p b); cbn in H; [injection H as <-; cbn; eauto|discriminate].
    + destruct (ps_qty p s); [injection H as <-; cbn; eauto|discriminate].
Qed.

(** The steps of a successful coercion. *)
Lemma coerce_inv : forall p attrs name v w, coerce_val p attrs name v = Ok w ->
  exists props v1,
    v <> VNone /\ dget attrs name = Some props /\ at_rw props = true /\
    (if isinstance v (at_type props) then Ok v else convert p (at_type props) v) = Ok v1 /\
    (forall l, at_options props = Some l -> py_in v1 l = Ok true) /\
    (match v1 with
     | VQty q => exists q', w = VQty q' /\ q_mag q' = q_mag q /\
         u_dim (q_unit q') = match at_units props with Some u => u_dim u | None => 0 end /\
         (q' = q \/ (dimensionless q = true /\ at_units props = Some (q_unit q')))
     | _ => w = v1
     end) /\
    (forall b, at_min props = Some b -> py_lt w b = Ok false) /\
    (forall b, at_max props = Some b -> py_gt w b = Ok false).
Proof.
  intros p attrs name v w H. unfold coerce_val in H.
  destruct v as [|b|z|f|s|q|l] eqn:V; [discriminate| | | | | |];
  rewrite <- V in *;
  (destruct (dget attrs name) as [props|] eqn:D; [|discriminate];
   destruct (at_rw props) eqn:RW; [|discriminate]; cbn [negb] in H;
   destruct (if isinstance v (at_type props) then Ok v else convert p (at_type props) v)
     as [v1|e] eqn:C; [|discriminate]; cbn [rbind] in H;
   exists props, v1;
   split; [subst; discriminate|]; split; [reflexivity|]; split; [exact RW|];
   split; [first [exact C|reflexivity]|];
   assert (O : forall l, at_options props = Some l -> py_in v1 l = Ok true)
     by (intros l0 L0; rewrite L0 in H; destruct (py_in v1 l0) as [[|]|]; cbn [rbind] in H;
         try discriminate; reflexivity);
   split; [exact O|];
   destruct (match at_options props with None => Ok tt | Some l0 => _ end) as [[]|];
     [|discriminate]; cbn [rbind] in H;
   match type of H with rbind ?m _ = _ => destruct m as [v2|] eqn:U; [|discriminate] end;
   cbn [rbind] in H;
   match type of H with rbind ?m _ = _ => destruct m as [[]|] eqn:MI; [|discriminate] end;
   cbn [rbind] in H;
   match type of H with rbind ?m _ = _ => destruct m as [[]|] eqn:MA; [|discriminate] end;
   cbn [rbind] in H; injection H as <-;
   split; [|split;
     [intros b0 B0; rewrite B0 in MI; destruct (py_lt v2 b0) as [[|]|]; cbn [rbind] in MI;
        try discriminate; reflexivity
     |intros b0 B0; rewrite B0 in MA; destruct (py_gt v2 b0) as [[|]|]; cbn [rbind] in MA;
        try discriminate; reflexivity]];
   destruct v1 as [|b1|z1|f1|s1|q1|l1]; try (injection U as <-; reflexivity);
   destruct (at_units props) as [u|] eqn:AU;
   [destruct (dimensionless q1) eqn:DL|]; cbn [units_dim] in U;
   try (destruct (ps_none p) as [[]|]; [|discriminate]); cbn [rbind] in U;
   (match type of U with (if ?c then _ else _) = _ => destruct c eqn:E; [|discriminate] end;
    injection U as <-; apply Z.eqb_eq in E;
    eexists; split; [reflexivity|]; split; [reflexivity|]; split; [exact E|];
    first [left; reflexivity|right; split; [reflexivity|reflexivity]])).
Qed.

Lemma coerced_type : forall p attrs name v w, coerce_val p attrs name v = Ok w ->
  exists props, dget attrs name = Some props /\ at_rw props = true /\
    has_type w (at_type props) /\ right_dimension props w.
Proof.
  intros p attrs name v w H. apply coerce_inv in H as (props & v1 & NN & D & RW & C & O & U & MI & MA).
  exists props. split; [exact D|]. split; [exact RW|].
  assert (T : has_type v1 (at_type props)).
  { destruct (isinstance v (at_type props)) eqn:I.
    - injection C as <-. apply isinstance_type; exact I.
    - exact (convert_type _ _ _ _ C). }
  destruct v1 as [|b1|z1|f1|s1|q1|l1];
    try (subst w; split; [exact T|intros q E; discriminate]).
  destruct U as (q' & -> & M & Dim & _).
  split.
  - destruct (at_type props); cbn in T; [destruct T as [? [=]]|destruct T as [[? [=]]|[? [=]]]|destruct T as [? [=]]|].
    cbn. eauto.
  - intros q E. injection E as <-. exact Dim.
Qed.

Lemma coerced_range : forall p attrs name v w props, coerce_val p attrs name v = Ok w ->
  dget attrs name = Some props -> sane_bounds props -> ~ not_a_number w -> in_range props w.
Proof.
  intros p attrs name v w props H D0 [S1 S2] N.
  apply coerce_inv in H as (props' & v1 & NN & D & RW & C & O & U & MI & MA).
  assert (props' = props) by congruence. subst props'.
  split.
  - intros b B. specialize (MI b B). unfold py_lt in MI.
    destruct (operands w b) as [[x y]|] eqn:OP; [|discriminate].
    injection MI as MI. apply operands_size in OP as [SX SY]. exists x. split; [exact SX|].
    rewrite SY. apply fle_of_flt; [exact MI| |].
    + intros ->. apply N. exact SX.
    + rewrite <- SY. apply S1. exact B.
  - intros b B. specialize (MA b B). unfold py_gt in MA.
    destruct (operands w b) as [[x y]|] eqn:OP; [|discriminate].
    injection MA as MA. apply operands_size in OP as [SX SY]. exists x. split; [exact SX|].
    rewrite SY. apply fle_of_flt; [exact MA| |].
    + rewrite <- SY. apply S2. exact B.
    + intros ->. apply N. exact SX.
Qed.

Lemma coerced_options : forall p attrs name v w props, coerce_val p attrs name v = Ok w ->
  dget attrs name = Some props -> sane_options props -> in_options props w.
Proof.
  intros p attrs name v w props H D0 S l L.
  apply coerce_inv in H as (props' & v1 & NN & D & RW & C & O & U & MI & MA).
  assert (props' = props) by congruence. subst props'.
  specialize (O l L). unfold py_in in O.
  assert (E : existsb (py_eqb v1) l = true).
  { destruct v1; try discriminate; injection O as O; exact O. }
  apply existsb_exists in E as (o & I & E). exists o. split; [exact I|].
  assert (T : has_type v1 (at_type props)).
  { destruct (isinstance v (at_type props)) eqn:IS.
    - injection C as <-. apply isinstance_type; exact IS.
    - exact (convert_type _ _ _ _ C). }
  assert (SV : same_value v1 o).
  { apply py_eqb_same; [exact E| |];
      destruct (at_type props); cbn in T;
      (destruct T as [? ->] || destruct T as [[? ->]|[? ->]]); try discriminate. }
  destruct v1 as [|b1|z1|f1|s1|q1|l1]; try (subst w; exact SV).
  destruct U as (q' & -> & M & Dim & [->|[DL AU]]); [exact SV|].
  exfalso. destruct SV as [(s & [=] & _)|(x & y & SX & SY & F & DIM)].
  assert (TQ : at_type props = TQty).
  { destruct (at_type props); cbn in T; [destruct T as [? [=]]|destruct T as [[? [=]]|[? [=]]]|destruct T as [? [=]]|reflexivity]. }
  destruct (S TQ (q_unit q') l AU L) as [NZ DO]. apply NZ. rewrite <- (DO o I), <- DIM.
  unfold dimensionless in DL. apply Z.eqb_eq in DL. exact DL.
Qed.

(** A quantity given without a unit gets the declared unit. *)
Lemma coerced_unit : forall p attrs name q w props u, coerce_val p attrs name (VQty q) = Ok w ->
  dget attrs name = Some props -> at_type props = TQty -> at_units props = Some u ->
  dimensionless q = true -> exists q', w = VQty q' /\ q_mag q' = q_mag q /\
    (q_unit q' = u \/ u_dim u = 0).
Proof.
  intros p attrs name q w props u H D0 TQ AU DL.
  apply coerce_inv in H as (props' & v1 & NN & D & RW & C & O & U & MI & MA).
  assert (props' = props) by congruence. subst props'.
  rewrite TQ in C. cbn in C. injection C as <-.
  destruct U as (q' & -> & M & Dim & [->|[_ AU']]).
  - exists q. split; [reflexivity|]. split; [reflexivity|]. right.
    rewrite AU in Dim. cbn in Dim. unfold dimensionless in DL. apply Z.eqb_eq in DL. lia.
  - exists q'. split; [reflexivity|]. split; [exact M|]. left. congruence.
Qed.

Lemma prepared_coerced : forall p attrs set l done e, prepare_params p attrs set l = (done, e) ->
  forall name w, In (name, w) done -> exists v, In (name, v) l /\ coerce_val p attrs name v = Ok w.
Proof.
  intros p attrs set. induction l as [|[name v] r IH]; intros done e H nm w I; cbn in H.
  - injection H as <- <-. destruct I.
  - destruct (coerce_val p attrs name v) as [v'|x] eqn:C.
    + destruct (set name v') as [[]|x].
      * destruct (prepare_params p attrs set r) as [d e'] eqn:P. injection H as <- <-.
        destruct I as [E|I].
        -- injection E as <- <-. exists v. split; [left; reflexivity|exact C].
        -- destruct (IH _ _ eq_refl nm w I) as (v0 & I0 & C0). exists v0. split; [right; exact I0|exact C0].
      * injection H as <- <-. destruct I as [E|[]]. injection E as <- <-.
        exists v. split; [left; reflexivity|exact C].
    + injection H as <- <-. destruct I.
Qed.

(** ** Validation *)

Lemma validated_param : forall p attrs name v, validate_param p attrs name v = Ok true ->
  exists w, coerce_val p attrs name v = Ok w.
Proof.
  intros p attrs name v H. unfold validate_param in H. unfold coerce_val.
  destruct v as [|b|z|f|s|q|l] eqn:V; [discriminate| | | | | |];
  rewrite <- V in *;
  (destruct (dget attrs name) as [props|] eqn:D; [|discriminate];
   destruct (at_rw props) eqn:RW; [|discriminate]; cbn [negb] in *;
   destruct (if isinstance v (at_type props) then Ok v else convert p (at_type props) v)
     as [v1|e] eqn:C; [|destruct e; discriminate]; cbn [rbind];
   destruct (at_options props) as [lo|];
   [destruct (py_in v1 lo) as [[|]|]; [|discriminate|discriminate]|]; cbn [rbind];
   (match type of H with match ?m with Ok _ => _ | Err _ => _ end = _ =>
      destruct m as [[v2|]|] eqn:U; [|discriminate|discriminate] end;
    match goal with |- exists w0, rbind ?m _ = _ => assert (U2 : m = Ok v2) end;
      [destruct v1; try (injection U as <-; reflexivity); cbv zeta in *;
       match type of U with rbind ?m _ = _ => destruct m; [|discriminate] end; cbn [rbind] in *;
       match type of U with (if ?c then _ else _) = _ => destruct c end;
       [injection U as <-; reflexivity|discriminate]|];
    rewrite U2; cbn [rbind];
    destruct (at_min props) as [bm|];
    [destruct (py_lt v2 bm) as [[|]|]; [discriminate| |discriminate]|]; cbn [rbind];
    (destruct (at_max props) as [bx|];
     [destruct (py_gt v2 bx) as [[|]|]; [discriminate| |discriminate]|]; cbn [rbind];
     eauto))).
Qed.

Lemma validated_params : forall p attrs l, validate_params p attrs l = Ok true ->
  forall name v, In (name, v) l -> exists w, coerce_val p attrs name v = Ok w.
Proof.
  induction l as [|[n x] r IH]; intros H name v I; [destruct I|]. cbn in H.
  destruct (validate_param p attrs n x) as [[|]|] eqn:V; try discriminate.
  destruct I as [E|I].
  - injection E as <- <-. exact (validated_param _ _ _ _ V).
  - exact (IH H _ _ I).
Qed.

Lemma validated_task : forall p caps attrs t, task_validate p caps attrs t = Ok true ->
  In (t_technique t) caps /\
  forall l name v, t_params t = Some l -> In (name, v) l ->
    exists w, coerce_val p attrs name v = Ok w.
Proof.
  intros p caps attrs t H. unfold task_validate in H.
  destruct (mem (t_technique t) caps) eqn:M; [|discriminate]. cbn in H. split.
  - apply mem_In. exact M.
  - intros l name v L I. rewrite L in H. exact (validated_params _ _ _ H _ _ I).
Qed.

(** Preparing a validated task can only fail in the driver's own code, and sets
    every parameter in order. *)
Lemma validated_prepare : forall p caps attrs t set,
  task_validate p caps attrs t = Ok true ->
  (forall name v, set name v = Ok tt) ->
  exists done, prepare_task p attrs set t = (done, None) /\
    map fst done = match t_params t with Some l => map fst l | None => [] end.
Proof.
  intros p caps attrs t set H S. apply validated_task in H as [_ H].
  unfold prepare_task. destruct (t_params t) as [l|]; [|exists []; split; reflexivity].
  assert (K : forall name v, In (name, v) l -> exists w, coerce_val p attrs name v = Ok w)
    by (intros name v I; exact (H l name v eq_refl I)). clear H.
  induction l as [|[n x] r IH]; [exists []; split; reflexivity|].
  destruct (K n x (or_introl eq_refl)) as (w & W).
  destruct IH as (d & E & M); [intros; apply K; right; assumption|].
  exists ((n, w) :: d). cbn. rewrite W, S, E. split; [reflexivity|]. cbn. rewrite M. reflexivity.
Qed.
