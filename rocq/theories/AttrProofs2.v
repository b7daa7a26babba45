(** * AttrProofs2: acceptable values are accepted (C95) *)
From Coq Require Import List String ZArith QArith Bool Lia.
From Verif Require Import Base BaseFacts Types AttrModel SpecAttr AttrProofs.
Import ListNotations.
Open Scope Z_scope.

Lemma flt_of_fle x y : fle y x -> flt x y = false.
Proof.
  destruct x as [| | |a], y as [| | |b]; cbn; intros H; try reflexivity; try contradiction.
  rewrite negb_false_iff. apply Qle_bool_iff. exact H.
Qed.
Lemma feqb_of_feq x y : feq x y -> feqb x y = true.
Proof.
  destruct x as [| | |a], y as [| | |b]; intros [H K]; cbn in *; try reflexivity; try contradiction.
  apply Qeq_bool_iff. apply Qle_antisym; assumption.
Qed.
Lemma num_size v : (forall q, v <> VQty q) -> as_num v = size v.
Proof. destruct v; cbn; auto. intros H. exfalso. eapply H. reflexivity. Qed.
Lemma py_eqb_of_same v w : same_value v w -> py_eqb v w = true.
Proof.
  intros [(s & -> & ->)|(x & y & X & Y & E & D)]; [apply String.eqb_refl|].
  apply feqb_of_feq in E.
  destruct v as [|b|z|f|s|q|l]; try discriminate X; destruct w as [|b'|z'|f'|s'|q'|l']; try discriminate Y;
    cbn [py_eqb as_num dimension] in *;
    rewrite ?size_qty in X; rewrite ?size_qty in Y; cbn [size] in X, Y; injection X as <-; injection Y as <-; try exact E;
    apply andb_true_intro; (split; [apply Z.eqb_eq; congruence|exact E]).
Qed.
Lemma operands_match v b x : size v = Some x -> dimension v = bound_dimension b -> operands v b = Ok (x, bsize b).
Proof.
  intros X D. destruct b as [f|r]; cbn [bsize bound_dimension] in *; [|rewrite size_qty];
    destruct v as [|c|z|g|s|q|l]; try discriminate X; cbn [operands as_num dimension] in *;
    rewrite ?size_qty in X; cbn [size] in X; injection X as <-; try reflexivity; unfold dimensionless.
  - rewrite D. reflexivity.
  - rewrite <- D. reflexivity.
  - rewrite <- D. reflexivity.
  - rewrite <- D. reflexivity.
  - rewrite D, Z.eqb_refl. reflexivity.
Qed.
Lemma type_dimension props v : has_type v (at_type props) -> right_dimension props v -> has_units props ->
  dimension v = declared_dimension props.
Proof.
  unfold declared_dimension, has_units. intros T R U. destruct (at_type props); cbn in T;
    [destruct T as [? ->]|destruct T as [[? ->]|[? ->]]|destruct T as [? ->]|destruct T as [? ->]]; try reflexivity.
  exact (R _ eq_refl).
Qed.
Lemma type_instance v t : has_type v t -> isinstance v t = true /\ v <> VNone.
Proof.
  destruct t; cbn; intros T; [destruct T as [? ->]|destruct T as [[? ->]|[? ->]]|destruct T as [? ->]|destruct T as [? ->]];
    split; congruence.
Qed.
Lemma coerce_accepts p attrs name w props : acceptable attrs name w -> dget attrs name = Some props ->
  matching_bounds props -> has_units props -> coerce_val p attrs name w = Ok w.
Proof.
  intros (pr & D0 & RW & T & RD & RU & [R1 R2] & O) D M U. rewrite D in D0. injection D0 as <-.
  destruct (type_instance _ _ T) as [IS NN]. pose proof (type_dimension _ _ T RD U) as DD.
  unfold coerce_val. rewrite D, RW, IS. cbn [negb rbind].
  assert (E1 : match at_options props with
               | None => Ok tt
               | Some l => rbind (py_in w l) (fun b : bool => if b then Ok tt else Err ValueError)
               end = Ok tt).
  { destruct (at_options props) as [l|] eqn:AO; [|reflexivity].
    destruct (O l AO) as (o & Io & So).
    assert (X : py_in w l = Ok true).
    { assert (E : existsb (py_eqb w) l = true) by (apply existsb_exists; exists o; split; [exact Io|apply py_eqb_of_same; exact So]).
      destruct w; try (cbn [py_in]; rewrite E; reflexivity).
      destruct (at_type props); discriminate IS. }
    rewrite X. reflexivity. }
  assert (E2 : match w with
               | VQty q =>
                 let q := match at_units props with
                          | Some u => if dimensionless q then mkQty (q_mag q) u else q
                          | None => q
                          end in
                 rbind (units_dim p (at_units props)) (fun d =>
                 if u_dim (q_unit q) =? d then Ok (VQty q) else Err ValueError)
               | _ => Ok w
               end = Ok w).
  { destruct w as [|b|z|f|s|q|l]; try reflexivity.
    assert (TQ : at_type props = TQty) by (destruct (at_type props); [discriminate..|reflexivity]).
    destruct (at_units props) as [u|] eqn:AU; [|destruct (U TQ AU)].
    pose proof (RU q u eq_refl AU) as QU. cbv zeta.
    assert (Q1 : (if dimensionless q then mkQty (q_mag q) u else q) = q).
    { destruct (dimensionless q); [|reflexivity]. destruct q as [m uu]; cbn in *; congruence. }
    rewrite Q1, QU. cbn [units_dim rbind]. rewrite Z.eqb_refl. reflexivity. }
  assert (E3 : match at_min props with
               | None => Ok tt
               | Some b => rbind (py_lt w b) (fun c : bool => if c then Err ValueError else Ok tt)
               end = Ok tt).
  { destruct (at_min props) as [b|] eqn:A; [|reflexivity]. destruct (R1 b eq_refl) as (x & X & F).
    unfold py_lt. rewrite (operands_match w b x X) by (rewrite DD; symmetry; apply M; auto).
    rewrite (flt_of_fle _ _ F). reflexivity. }
  assert (E4 : match at_max props with
               | None => Ok tt
               | Some b => rbind (py_gt w b) (fun c : bool => if c then Err ValueError else Ok tt)
               end = Ok tt).
  { destruct (at_max props) as [b|] eqn:A; [|reflexivity]. destruct (R2 b eq_refl) as (x & X & F).
    unfold py_gt. rewrite (operands_match w b x X) by (rewrite DD; symmetry; apply M; auto).
    rewrite (flt_of_fle _ _ F). reflexivity. }
  destruct w; try congruence; rewrite E1; cbn [rbind]; cbv zeta in *; cbv beta iota in *;
    try (rewrite E2; cbn [rbind]); rewrite E3; cbn [rbind]; rewrite E4; reflexivity.
Qed.

(** A plain bound on a quantity with unit. *)
Lemma plain_operands q b : plain_nonzero b -> u_dim (q_unit q) <> 0 -> operands (VQty q) b = Err ValueError.
Proof.
  intros (f & -> & N & Z0) D. cbn [operands]. unfold dimensionless.
  destruct (Z.eqb_spec (u_dim (q_unit q)) 0) as [E|_]; [contradiction|].
  destruct f as [| | |x]; try reflexivity; [congruence|]. cbn.
  destruct (Qeq_bool x 0) eqn:E; [|reflexivity]. exfalso. apply Z0. apply Qeq_bool_iff in E.
  split; unfold fle; rewrite E; apply Qle_refl.
Qed.
Lemma coerce_plain p attrs name v w props u b : dget attrs name = Some props -> at_type props = TQty ->
  at_units props = Some u -> u_dim u <> 0 -> at_min props = Some b \/ at_max props = Some b -> plain_nonzero b ->
  coerce_val p attrs name v <> Ok w.
Proof.
  intros D0 TQ AU UD B PN H. destruct (coerced_type _ _ _ _ _ H) as (pr & D1 & _ & T & R).
  rewrite D0 in D1. injection D1 as <-. rewrite TQ in T. destruct T as [q ->].
  pose proof (R q eq_refl) as Q. rewrite AU in Q.
  apply coerce_inv in H as (props' & v1 & NN & D & RW & C & O & U & MI & MA).
  rewrite D0 in D. injection D as <-.
  pose proof (plain_operands q b PN ltac:(congruence)) as P.
  destruct B as [B|B]; [specialize (MI b B); unfold py_lt in MI; rewrite P in MI; discriminate
                       |specialize (MA b B); unfold py_gt in MA; rewrite P in MA; discriminate].
Qed.

(** ** Validation and coercion agree *)
Lemma coerced_param p attrs name v w : coerce_val p attrs name v = Ok w -> validate_param p attrs name v = Ok true.
Proof.
  intros H. unfold validate_param. unfold coerce_val in H.
  destruct v as [|b|z|f|s|q|l] eqn:V; [discriminate| | | | | |];
  rewrite <- V in *;
  (destruct (dget attrs name) as [props|] eqn:D; [|discriminate];
   destruct (at_rw props) eqn:RW; [|discriminate]; cbn [negb] in *;
   destruct (if isinstance v (at_type props) then Ok v else convert p (at_type props) v)
     as [v1|e] eqn:C; [|discriminate]; cbn [rbind] in H;
   destruct (at_options props) as [lo|];
   [destruct (py_in v1 lo) as [[|]|]; [|discriminate|discriminate]|]; cbn [rbind] in H;
   (match type of H with rbind ?m _ = _ =>
      destruct m as [v2|] eqn:U; [|discriminate] end;
    match goal with |- match ?m with Ok _ => _ | Err _ => _ end = _ => assert (U2 : m = Ok (Some v2)) end;
      [destruct v1; try (injection U as <-; reflexivity); cbv zeta in *;
       match type of U with rbind ?m _ = _ => destruct m; [|discriminate] end; cbn [rbind] in *;
       match type of U with (if ?c then _ else _) = _ => destruct c end;
       [injection U as <-; reflexivity|discriminate]|];
    rewrite U2; cbn [rbind] in H;
    destruct (at_min props) as [bm|];
    [destruct (py_lt v2 bm) as [[|]|]; [discriminate| |discriminate]|]; cbn [rbind] in H;
    (destruct (at_max props) as [bx|];
     [destruct (py_gt v2 bx) as [[|]|]; [discriminate| |discriminate]|]; reflexivity))).
Qed.
Lemma validate_params_iff p attrs l : validate_params p attrs l = Ok true <->
  forall name v, In (name, v) l -> exists w, coerce_val p attrs name v = Ok w.
Proof.
  split; [intros H name v; exact (validated_params _ _ _ H name v)|].
  induction l as [|[n x] r IH]; intros H; [reflexivity|]. cbn.
  destruct (H n x (or_introl eq_refl)) as (w & W). rewrite (coerced_param _ _ _ _ _ W).
  apply IH. intros. apply H. right. assumption.
Qed.
Lemma validate_iff p caps attrs t : task_validate p caps attrs t = Ok true <->
  In (t_technique t) caps /\
  forall l name v, t_params t = Some l -> In (name, v) l -> exists w, coerce_val p attrs name v = Ok w.
Proof.
  split; [apply validated_task|]. intros [I H]. unfold task_validate.
  apply mem_In in I. rewrite I. cbn [negb].
  destruct (t_params t) as [l|]; [|reflexivity]. apply validate_params_iff. intros. eapply H; eauto.
Qed.
