(** * AttrProofs3: validation and conversion agree; what [prepare_task] sets (C50) *)
From Coq Require Import List String ZArith QArith Bool Lia.
From Verif Require Import Base BaseFacts Types AttrModel SpecAttr AttrProofs AttrProofs2.
Import ListNotations.
Open Scope string_scope.
Open Scope Z_scope.

Lemma param_agrees p attrs name v :
  match validate_param p attrs name v with
  | Ok true => exists w, coerce_val p attrs name v = Ok w
  | Ok false => coerce_val p attrs name v = Err ValueError \/ coerce_val p attrs name v = Err AttributeError
  | Err e => coerce_val p attrs name v = Err e
  end.
Proof.
  unfold validate_param, coerce_val.
  destruct v as [| b | z | f | s | q | l] eqn:V; [auto|..]; rewrite <- V; clear V;
  (destruct (dget attrs name) as [props|]; [|auto]; destruct (at_rw props); cbn [negb]; [|auto];
   destruct (if isinstance _ (at_type props) then _ else _) as [w|e]; cbn [rbind]; [|destruct e; auto];
   destruct (at_options props) as [opts|]; cbn [rbind];
     [destruct (py_in w opts) as [[|]|e]; cbn [rbind]; [|auto|auto]|];
   (match goal with |- context [match w with VNone => Ok (Some w) | _ => _ end] => idtac end;
    destruct w as [| | | | |q'|]; cbn [rbind];
      try (destruct (units_dim p (at_units props)) as [d|e]; cbn [rbind]; [|auto];
           destruct (u_dim (q_unit _) =? d); cbn [rbind]; [|auto]));
   (destruct (at_min props) as [b1|]; cbn [rbind]; [destruct (py_lt _ b1) as [[|]|e]; cbn [rbind]; [auto| |auto]|];
    (destruct (at_max props) as [b2|]; cbn [rbind]; [destruct (py_gt _ b2) as [[|]|e]; cbn [rbind]; [auto| |auto]|];
     eauto))).
Qed.

Lemma params_agree p attrs l :
  match validate_params p attrs l with
  | Ok true => Forall (fun nv => exists w, coerce_val p attrs (fst nv) (snd nv) = Ok w) l
  | r => exists l1 name v l2, l = (l1 ++ (name, v) :: l2)%list /\
      Forall (fun nv => exists w, coerce_val p attrs (fst nv) (snd nv) = Ok w) l1 /\
      match r with
      | Err e => coerce_val p attrs name v = Err e
      | _ => coerce_val p attrs name v = Err ValueError \/ coerce_val p attrs name v = Err AttributeError
      end
  end.
Proof.
  induction l as [|[name v] r IH]; cbn [validate_params]; [constructor|].
  pose proof (param_agrees p attrs name v) as A.
  destruct (validate_param p attrs name v) as [[|]|e].
  - destruct (validate_params p attrs r) as [[|]|e].
    + constructor; [exact A|exact IH].
    + destruct IH as (l1 & n & x & l2 & -> & F & C). exists ((name, v) :: l1), n, x, l2. repeat split; auto.
    + destruct IH as (l1 & n & x & l2 & -> & F & C). exists ((name, v) :: l1), n, x, l2. repeat split; auto.
  - exists [], name, v, r. repeat split; auto.
  - exists [], name, v, r. repeat split; auto.
Qed.

Lemma prepare_exact p attrs set l :
  match prepare_params p attrs set l with
  | (done, None) => Forall2 (fun nv d => fst d = fst nv /\ coerce_val p attrs (fst nv) (snd nv) = Ok (snd d) /\
                               set (fst d) (snd d) = Ok tt) l done
  | (done, Some e) => exists l1 name v l2 d1, l = (l1 ++ (name, v) :: l2)%list /\
      Forall2 (fun nv d => fst d = fst nv /\ coerce_val p attrs (fst nv) (snd nv) = Ok (snd d) /\
                 set (fst d) (snd d) = Ok tt) l1 d1 /\
      ((coerce_val p attrs name v = Err e /\ done = d1) \/
       (exists w, coerce_val p attrs name v = Ok w /\ set name w = Err e /\ done = (d1 ++ [(name, w)])%list))
  end.
Proof.
  induction l as [|[name v] r IH]; cbn [prepare_params]; [constructor|].
  destruct (coerce_val p attrs name v) as [w|e] eqn:C.
  - destruct (set name w) as [[]|e] eqn:S.
    + destruct (prepare_params p attrs set r) as [done [e|]].
      * destruct IH as (l1 & n & x & l2 & d1 & -> & F & D). exists ((name, v) :: l1), n, x, l2, ((name, w) :: d1).
        split; [reflexivity|]. split; [constructor; auto|].
        destruct D as [[D ->]|(w' & D & E & ->)]; [left; auto|right; exists w'; auto].
      * constructor; auto.
    + exists [], name, v, r, []. split; [reflexivity|]. split; [constructor|]. right. exists w. auto.
  - exists [], name, v, r, []. split; [reflexivity|]. split; [constructor|]. left. auto.
Qed.
