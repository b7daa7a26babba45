(** * IfaceProofs6: requests that end a driver, and those that do not (C101) *)
From Coq Require Import List String ZArith QArith Bool Lia.
From Verif Require Import Base BaseFacts Types AttrModel IfaceModel SpecAttr SpecIface SpecDie AttrProofs AttrProofs2
  IfaceProofs IfaceProofs2 IfaceProofs3 IfaceProofs4 IfaceProofs5.
Import ListNotations.
Open Scope string_scope.
Open Scope Z_scope.

(** ** Values *)
Lemma soft_value : soft ValueError. Proof. now left. Qed.
Lemma soft_attr : soft AttributeError. Proof. now right. Qed.
Lemma not_soft {A} (r : res A) : ~ softly r -> exists e, r = Err e /\ ~ soft e.
Proof. destruct r as [a|e]; cbn; [intros H; elim H; exact I|]. intros H. exists e. auto. Qed.
Lemma base_infinite q : infinite (q_base q) <-> infinite (q_mag q).
Proof. unfold q_base, fscale, infinite. destruct (q_mag q); cbn; intuition discriminate. Qed.

Lemma convert_soft p t v : v <> VNone -> ~ spoils p t v -> (t = TQty -> forall l, v <> VList l) ->
  softly (convert p t v).
Proof.
  intros Hn Hs Hl. destruct t; cbn in *.
  - exact I.
  - destruct v; cbn in *; try exact I; try congruence; try (elim Hs; exact I).
    + destruct f; cbn; auto using soft_value; elim Hs; [left|right]; reflexivity.
    + destruct (ps_int p s); cbn; auto using soft_value.
    + unfold dimensionless. destruct (Z.eqb_spec (u_dim (q_unit q)) 0) as [E|E]; [|elim Hs; now left].
      destruct (q_base q) eqn:B; cbn; auto using soft_value; elim Hs; right; apply base_infinite; rewrite B;
        [left|right]; reflexivity.
  - destruct v; cbn in *; try exact I; try congruence; try (elim Hs; exact I).
    + destruct (ps_float p s); cbn; auto using soft_value.
    + unfold dimensionless. destruct (Z.eqb_spec (u_dim (q_unit q)) 0) as [E|E]; [exact I|]. elim Hs. exact E.
  - destruct v; cbn in *; try exact I; try congruence.
    + destruct (ps_bool p b) as [x|e]; cbn in *; [exact I|]. destruct e; try (left; reflexivity); try (right; reflexivity); elim Hs; intros [X|X]; discriminate.
    + destruct (ps_qty p s) as [x|e]; cbn in *; [exact I|]. destruct e; try (left; reflexivity); try (right; reflexivity); elim Hs; intros [X|X]; discriminate.
    + elim (Hl eq_refl l). reflexivity.
Qed.
Lemma spoiled p t v : spoils p t v -> isinstance v t = false /\ exists e, convert p t v = Err e /\ ~ soft e.
Proof.
  assert (A : forall e, e <> ValueError -> e <> AttributeError -> ~ soft e) by (intros e H1 H2 [H|H]; auto).
  intros H. destruct t, v; cbn in *; try contradiction; (split; [reflexivity|]).
  - destruct H as [-> | ->]; cbn; eexists; (split; [reflexivity|]); apply A; discriminate.
  - destruct H as [H|H].
    + unfold dimensionless. apply Z.eqb_neq in H. rewrite H. eexists. split; [reflexivity|]. apply A; discriminate.
    + apply base_infinite in H. destruct (dimensionless q); [|eexists; split; [reflexivity|]; apply A; discriminate].
      destruct H as [-> | ->]; cbn; eexists; (split; [reflexivity|]); apply A; discriminate.
  - eexists. split; [reflexivity|]. apply A; discriminate.
  - unfold dimensionless. apply Z.eqb_neq in H. rewrite H. eexists. split; [reflexivity|]. apply A; discriminate.
  - eexists. split; [reflexivity|]. apply A; discriminate.
  - apply not_soft in H as (e & -> & H). exists e. auto.
  - apply not_soft in H as (e & -> & H). exists e. auto.
Qed.

(** Comparing with a bound. *)
Lemma operands_soft props v b : has_type v (at_type props) -> right_dimension props v ->
  comparable props b -> softly (operands v b).
Proof.
  intros T R C. unfold comparable in C. destruct (at_type props) eqn:E; cbn in T.
  - destruct T as [s ->]. destruct b as [f|r]; [destruct C|]. cbn.
    unfold dimensionless. apply Z.eqb_neq in C. rewrite C. apply soft_value.
  - destruct T as [[z ->]|[x ->]]; destruct b as [f|r]; cbn; try exact I;
      destruct (dimensionless r || _)%bool; cbn; auto using soft_value.
  - destruct T as [f0 ->]. destruct b as [f|r]; cbn; try exact I;
      destruct (dimensionless r || _)%bool; cbn; auto using soft_value.
  - destruct T as [q ->]. destruct b as [f|r]; cbn.
    + destruct (dimensionless q || _)%bool; cbn; auto using soft_value.
    + specialize (R q eq_refl). unfold declared_dimension in C. rewrite E in C.
      assert (X : u_dim (q_unit q) = u_dim (q_unit r)) by (rewrite R, C; reflexivity).
      rewrite X, Z.eqb_refl. exact I.
Qed.

Lemma units_soft p props : sound_declaration p props -> at_type props = TQty -> softly (units_dim p (at_units props)).
Proof.
  intros [H _] E. unfold units_dim. destruct (at_units props); [exact I|].
  destruct (H E) as [X|X]; [congruence|]. destruct (ps_none p); cbn in *; auto.
Qed.

Lemma py_in_soft t v l : has_type v t -> exists b, py_in v l = Ok b.
Proof. destruct t; cbn; [intros [s ->]|intros [[z ->]|[b ->]]|intros [f ->]|intros [q ->]]; cbn; eauto. Qed.

Lemma rbind_soft {A B} (r : res A) (f : A -> res B) :
  softly r -> (forall a, r = Ok a -> softly (f a)) -> softly (rbind r f).
Proof. destruct r as [a|e]; cbn; auto. Qed.

Section Value.
  Variables (p : parser) (props : attr) (v : pyval).
  Hypothesis Hs : sound_declaration p props.
  Hypothesis Hn : v <> VNone.
  Hypothesis Hv : ~ spoils p (at_type props) v.
  Hypothesis Hl : at_type props = TQty -> forall l, v <> VList l.

  Lemma typed_soft : softly (if isinstance v (at_type props) then Ok v else convert p (at_type props) v).
  Proof. destruct (isinstance v (at_type props)); [exact I|]. apply convert_soft; assumption. Qed.
  Lemma typed_type w : (if isinstance v (at_type props) then Ok v else convert p (at_type props) v) = Ok w ->
    has_type w (at_type props).
  Proof.
    destruct (isinstance v (at_type props)) eqn:E; [|apply convert_type].
    intros [= <-]. apply isinstance_type. exact E.
  Qed.
  (** The quantity that is checked against the bounds has the declared dimension. *)
  Lemma bound_soft w b : has_type w (at_type props) -> right_dimension props w ->
    at_min props = Some b \/ at_max props = Some b -> softly (operands w b).
  Proof. intros T R B. apply (operands_soft props); auto. apply Hs. exact B. Qed.
End Value.

(** A quantity after the declared unit was added. *)
Definition with_unit (props : attr) (q : quantity) : quantity :=
  match at_units props with
  | Some u => if dimensionless q then mkQty (q_mag q) u else q
  | None => q
  end.
Lemma unit_right p props q d : units_dim p (at_units props) = Ok d -> u_dim (q_unit (with_unit props q)) = d ->
  right_dimension props (VQty (with_unit props q)).
Proof.
  intros U E q' [= <-]. rewrite E. unfold units_dim in U. destruct (at_units props); [now injection U|].
  destruct (ps_none p); [now injection U|discriminate].
Qed.
Lemma unit_type props q : has_type (VQty q) (at_type props) -> at_type props = TQty.
Proof. destruct (at_type props); cbn; [intros [s H]|intros [[z H]|[b H]]|intros [f H]|]; try discriminate; reflexivity. Qed.

Lemma coerce_soft p attrs name v : harmless_value p attrs name v -> softly (coerce_val p attrs name v).
Proof.
  intros H. destruct v eqn:Ev; [apply soft_value|..]; unfold coerce_val;
  (destruct (dget attrs name) as [props|] eqn:D; [|apply soft_attr]);
  destruct (H props D) as (Hs & Hv & Hl); rewrite <- Ev in *;
  (assert (Hn : v <> VNone) by (rewrite Ev; discriminate)); clear Ev;
  (destruct (at_rw props); [|apply soft_attr]); cbn [negb];
  (apply rbind_soft; [apply typed_soft; assumption|]); intros w Hw;
  pose proof (typed_type p props v w Hw) as T;
  (apply rbind_soft;
   [destruct (at_options props) as [lo|]; [|exact I]; destruct (py_in_soft _ w lo T) as [c ->]; cbn; destruct c; [exact I|apply soft_value]|]);
  intros _ _;
  (apply rbind_soft;
   [destruct w as [| | | | |qq|]; try exact I; apply rbind_soft; [apply units_soft; [exact Hs|apply (unit_type _ _ T)]|];
    intros dd Hd; destruct (_ =? dd); [exact I|apply soft_value]|]);
  intros w' Hw';
  (assert (X : has_type w' (at_type props) /\ right_dimension props w');
   [destruct w as [| | | | |qq|]; try (injection Hw' as <-; split; [exact T|intros ? ?; discriminate]);
    fold (with_unit props qq) in Hw'; destruct (units_dim p (at_units props)) as [dd|] eqn:U; [|discriminate]; cbn in Hw';
    destruct (Z.eqb_spec (u_dim (q_unit (with_unit props qq))) dd) as [E|]; [|discriminate]; injection Hw' as <-;
    split; [rewrite (unit_type _ _ T); eexists; reflexivity|apply (unit_right p props qq dd U E)]|]);
  destruct X as [T' R'];
  (apply rbind_soft;
   [destruct (at_min props) as [bb|] eqn:B; [|exact I]; unfold py_lt;
    assert (S : softly (operands w' bb)) by (apply (bound_soft p props Hs); auto);
    destruct (operands w' bb) as [[x y]|ee]; [|exact S]; cbn; destruct (flt x y); [apply soft_value|exact I]|]);
  intros _ _;
  (apply rbind_soft;
   [destruct (at_max props) as [bb|] eqn:B; [|exact I]; unfold py_gt;
    assert (S : softly (operands w' bb)) by (apply (bound_soft p props Hs); auto);
    destruct (operands w' bb) as [[x y]|ee]; [|exact S]; cbn; destruct (flt y x); [apply soft_value|exact I]|]);
  intros _ _; exact I.
Qed.

Lemma param_soft p attrs name v : harmless_value p attrs name v -> softly (validate_param p attrs name v).
Proof.
  intros H. destruct v eqn:Ev; [exact I|..]; unfold validate_param;
  (destruct (dget attrs name) as [props|] eqn:D; [|exact I]);
  destruct (H props D) as (Hs & Hv & Hl); rewrite <- Ev in *;
  (assert (Hn : v <> VNone) by (rewrite Ev; discriminate)); clear Ev;
  (destruct (at_rw props); [|exact I]); cbn [negb];
  pose proof (typed_soft p props v Hn Hv Hl) as S0;
  (destruct (if isinstance v (at_type props) then Ok v else convert p (at_type props) v) as [w|e] eqn:Hw;
   [|destruct S0 as [-> | ->]; exact I]);
  pose proof (typed_type p props v w Hw) as T;
  (assert (O : exists c, match at_options props with Some lo => py_in w lo | None => Ok true end = Ok c)
     by (destruct (at_options props); [apply (py_in_soft _ w _ T)|eauto]));
  destruct O as [c ->]; (destruct c; [|exact I]);
  (match goal with |- softly (match ?m with _ => _ end) =>
    assert (X : softly m /\ forall w', m = Ok (Some w') -> has_type w' (at_type props) /\ right_dimension props w') end;
  [destruct w as [| | | | |qq|]; try (split; [exact I|]; intros w' [= <-]; split; [exact T|intros ? ?; discriminate]);
   fold (with_unit props qq); pose proof (units_soft p props Hs (unit_type _ _ T)) as US;
   destruct (units_dim p (at_units props)) as [dd|] eqn:U; [|split; [exact US|discriminate]]; cbn;
   destruct (Z.eqb_spec (u_dim (q_unit (with_unit props qq))) dd) as [E|]; (split; [exact I|]); [|discriminate];
   intros w' [= <-]; split; [rewrite (unit_type _ _ T); eexists; reflexivity|apply (unit_right p props qq dd U E)]|]);
  destruct X as [X1 X2];
  match goal with |- softly (match ?m with _ => _ end) => destruct m as [[w'|]|e]; [|exact I|exact X1] end;
  destruct (X2 w' eq_refl) as [T' R'];
  (assert (B1 : softly (match at_min props with Some b => py_lt w' b | None => Ok false end));
   [destruct (at_min props) as [bb|] eqn:B; [|exact I]; unfold py_lt;
    assert (S : softly (operands w' bb)) by (apply (bound_soft p props Hs); auto);
    destruct (operands w' bb) as [[x y]|ee]; [exact I|exact S]|]);
  match goal with |- softly (match ?m with _ => _ end) => destruct m as [[|]|e]; [exact I| |exact B1] end;
  (assert (B2 : softly (match at_max props with Some b => py_gt w' b | None => Ok false end));
   [destruct (at_max props) as [bb|] eqn:B; [|exact I]; unfold py_gt;
    assert (S : softly (operands w' bb)) by (apply (bound_soft p props Hs); auto);
    destruct (operands w' bb) as [[x y]|ee]; [exact I|exact S]|]);
  match goal with |- softly (match ?m with _ => _ end) => destruct m as [[|]|e]; [exact I|exact I|exact B2] end.
Qed.
Lemma task_soft p caps attrs t : harmless_task p attrs t -> softly (task_validate p caps attrs t).
Proof.
  intros H. unfold task_validate. destruct (negb _); [exact I|]. destruct (t_params t) as [l|] eqn:E; [|exact I].
  assert (X : forall name v, In (name, v) l -> harmless_value p attrs name v) by (intros; eapply H; eauto).
  clear E H. induction l as [|[n v] l IH]; [exact I|]. cbn.
  pose proof (param_soft p attrs n v (X n v (or_introl eq_refl))) as S.
  destruct (validate_param p attrs n v) as [[|]|e]; [|exact I|exact S].
  apply IH. intros. apply X. now right.
Qed.

(** Values that spoil everything. *)
Lemma coerce_hard p attrs name v props : dget attrs name = Some props -> at_rw props = true ->
  spoils p (at_type props) v -> exists e, coerce_val p attrs name v = Err e /\ ~ soft e.
Proof.
  intros D W S. destruct (spoiled p _ v S) as (F & e & E & N).
  exists e. split; [|exact N]. destruct v; cbn [coerce_val]; rewrite ?D, ?W, ?F, ?E; try reflexivity.
  destruct (at_type props); destruct S.
Qed.
Lemma param_hard p attrs name v props : dget attrs name = Some props -> at_rw props = true ->
  spoils p (at_type props) v -> exists e, validate_param p attrs name v = Err e /\ ~ soft e.
Proof.
  intros D W S. destruct (spoiled p _ v S) as (F & e & E & N).
  exists e. split; [|exact N]. destruct v; cbn [validate_param]; rewrite ?D, ?W, ?F, ?E;
    try (destruct e; try reflexivity; elim N; [left|right]; reflexivity).
  destruct (at_type props); destruct S.
Qed.

(** ** Requests that are answered *)
Section Serve.
  Variable h : hw.
  Hypothesis W : working h.

  Definition okm {A} (m : M A) (Q : A -> iface -> Prop) (s : iface) : Prop :=
    match m s with (s', Ok a) => Q a s' | (s', Err e) => soft e /\ i_ver s' = V21 end.
  Definition up (k : key) (s : iface) : Prop := i_ver s = V21 /\ kget (i_devmap s) k <> None.

  Lemma okm_weaken {A} (m : M A) (Q Q' : A -> iface -> Prop) s :
    okm m Q s -> (forall a s', Q a s' -> Q' a s') -> okm m Q' s.
  Proof. unfold okm. destruct (m s) as [s' [a|e]]; auto. Qed.
  Lemma okm_bind {A B} (m : M A) (f : A -> M B) Q s :
    okm m (fun a s' => okm (f a) Q s') s -> okm (mbind m f) Q s.
  Proof. unfold okm, mbind. destruct (m s) as [s' [a|e]]; auto. Qed.
  Lemma okm_log {A} (m : M A) Q s : i_ver s = V21 -> okm m Q s -> okm (log_errors m) Q s.
  Proof.
    intros V. unfold okm, log_errors. destruct (m s) as [s' [a|e]]; auto.
    intros [[-> | ->] H]; rewrite V; split; auto using soft_value, soft_attr.
  Qed.
  Lemma okm_at k (Q : device -> iface -> Prop) s : up k s -> (forall d, kget (i_devmap s) k = Some d -> Q d s) -> okm (device_at k) Q s.
  Proof.
    intros [V U] H. unfold okm, device_at. destruct (kget (i_devmap s) k) as [d|]; [apply H; reflexivity|congruence].
  Qed.
  Lemma okm_upd k k' f (Q : unit -> iface -> Prop) s : up k' s -> (forall s', up k' s' -> Q tt s') -> okm (upd_device k f) Q s.
  Proof.
    intros [V U] H. unfold okm, upd_device, mput. apply H. split; [exact V|]. unfold set_devmap. cbn [i_devmap].
    destruct (kget (i_devmap s) k) eqn:K; [|exact U]. rewrite kget_kset. destruct (key_eqb k' k); [discriminate|exact U].
  Qed.
  Lemma okm_in k f p (Q : dreply -> iface -> Prop) s : i_ver s = V21 -> keyof p = k -> Q (mkReply false RNone) s ->
    (up k s -> okm (f k p) Q s) -> okm (in_devmap f p) Q s.
  Proof.
    intros V K H0 H. unfold okm, in_devmap. change (match rp_key p with Some k0 => k0 | None => _ end) with (keyof p).
    rewrite K. destruct (kget (i_devmap s) k) eqn:E; [|rewrite V; exact H0]. apply H. split; [exact V|congruence].
  Qed.

  Definition fine (r : dreply) (s : iface) : Prop := i_ver s = V21 /\ dr_data r <> RView.
  Definition kept (k : key) (r : dreply) (s : iface) : Prop := up k s /\ dr_data r <> RView.

  Ltac go := repeat first
    [ apply okm_bind | apply okm_log; [solve [eauto]|] ].

  Lemma up_count k s : up k s -> up k (count_call s).
  Proof. exact (fun H => H). Qed.
  Lemma up_ver k s : up k s -> i_ver s = V21.
  Proof. intros H. apply H. Qed.
  Lemma okm_in_up k f p (Q : dreply -> iface -> Prop) s : up k s -> keyof p = k ->
    okm (f k p) Q s -> okm (in_devmap f p) Q s.
  Proof.
    intros [V U] K H. unfold okm, in_devmap in *. change (match rp_key p with Some k0 => k0 | None => _ end) with (keyof p).
    rewrite K. destruct (kget (i_devmap s) k); [exact H|congruence].
  Qed.
  (** With a registered component. *)
  Lemma okm_data p k s : keyof p = k -> up k s -> okm (task_data p) (kept k) s.
  Proof.
    intros K U. unfold task_data. apply okm_log; [apply U|]. apply (okm_in_up k); [exact U|exact K|].
    apply okm_bind, okm_at; [exact U|]. intros x _. apply okm_bind, (okm_upd k k); [exact U|]. intros s' U'.
    destruct (v_data x); (split; [exact U'|discriminate]).
  Qed.
  Lemma okm_stop p k s : keyof p = k -> up k s -> okm (task_stop p) (kept k) s.
  Proof.
    intros K U. unfold task_stop. apply okm_log; [apply U|]. apply (okm_in_up k); [exact U|exact K|].
    apply okm_bind, okm_at; [exact U|]. intros x _. apply okm_bind, (okm_upd k k); [exact U|]. intros s' U'.
    apply okm_bind. eapply okm_weaken; [apply (okm_data (with_key k) k); [reflexivity|exact U']|].
    intros r s2 [U2 N]. split; [exact U2|exact N].
  Qed.
  Lemma okm_reset p k s : keyof p = k -> up k s -> okm (cmp_reset p) (kept k) s.
  Proof.
    intros K U. unfold cmp_reset. apply okm_log; [apply U|]. apply (okm_in_up k); [exact U|exact K|].
    apply okm_bind, okm_at; [exact U|]. intros x _. apply okm_bind, (okm_upd k k); [exact U|]. intros s' U'.
    split; [exact U'|discriminate].
  Qed.
  Lemma okm_status p k s : keyof p = k -> up k s -> okm (task_status p) (kept k) s.
  Proof.
    intros K U. unfold task_status. apply okm_log; [apply U|]. apply (okm_in_up k); [exact U|exact K|].
    apply okm_bind, okm_at; [exact U|]. intros x _. split; [exact U|discriminate].
  Qed.
  Lemma okm_teardown p k s : keyof p = k -> up k s -> rp_do_run p = None -> okm (cmp_teardown p) fine s.
  Proof.
    intros K U D. unfold cmp_teardown. apply okm_log; [apply U|]. apply (okm_in_up k); [exact U|exact K|].
    apply okm_bind. eapply okm_weaken; [apply (okm_status _ k); [reflexivity|exact U]|]. intros _ s1 [U1 _].
    apply okm_bind. eapply okm_weaken; [apply (okm_stop _ k); [reflexivity|exact U1]|]. intros _ s2 [U2 _].
    rewrite D. apply okm_bind. cbn.
    apply okm_bind. eapply okm_weaken; [apply (okm_reset _ k); [reflexivity|exact U2]|]. intros _ s3 [U3 _].
    apply okm_bind. split; [apply U3|discriminate].
  Qed.
  Lemma okm_call {A} (f : nat -> res A) k (Q : A -> iface -> Prop) s : up k s ->
    softly (f (i_calls s)) -> (forall a, f (i_calls s) = Ok a -> Q a (count_call s)) -> okm (call f) Q s.
  Proof. intros U H HQ. unfold okm, call. destruct (f (i_calls s)); [apply HQ; reflexivity|]. split; [exact H|apply U]. Qed.
  Lemma okm_set p k s a v : keyof p = k -> up k s -> rp_attr p = Some a -> rp_val p = Some v ->
    harmless_value (h_parser h) (h_attrs h k) a v -> okm (cmp_set_attr h p) (kept k) s.
  Proof.
    intros K U A V H. unfold cmp_set_attr. apply okm_log; [apply U|]. apply (okm_in_up k); [exact U|exact K|].
    rewrite A, V. apply okm_bind. cbn. apply okm_bind. cbn. apply okm_bind, okm_at; [exact U|]. intros x _.
    apply okm_bind. pose proof (coerce_soft _ _ _ _ H) as S. unfold okm at 1, mres.
    destruct (coerce_val (h_parser h) (h_attrs h k) a v) as [w|e]; [|split; [exact S|apply U]].
    apply okm_bind. cbn. apply okm_bind, (okm_call _ k); [exact U|apply W|].
    intros [] _. split; [exact U|discriminate].
  Qed.
  Lemma okm_get p k s : keyof p = k -> up k s -> rp_attr p <> None -> okm (cmp_get_attr h p) (kept k) s.
  Proof.
    intros K U A. unfold cmp_get_attr. apply okm_log; [apply U|]. apply (okm_in_up k); [exact U|exact K|].
    destruct (rp_attr p) as [a|]; [|congruence]. apply okm_bind. cbn. apply okm_bind, okm_at; [exact U|]. intros x _.
    apply okm_bind, (okm_call _ k); [exact U|apply W|]. intros v _. split; [exact U|discriminate].
  Qed.
  Lemma okm_read k l : forall acc s, up k s -> okm (read_status h k l acc) (fun _ s' => up k s') s.
  Proof.
    induction l as [|[n a] l IH]; intros acc s U; cbn [read_status]; [exact U|].
    destruct (at_status a); [|apply IH; exact U]. apply okm_bind, (okm_call _ k); [exact U|apply W|].
    intros v _. apply IH. exact U.
  Qed.
  Lemma okm_cstatus p k s : keyof p = k -> up k s -> rp_attr p = None -> okm (cmp_status h p) (kept k) s.
  Proof.
    intros K U A. unfold cmp_status. apply okm_log; [apply U|]. apply (okm_in_up k); [exact U|exact K|].
    apply okm_bind, okm_at; [exact U|]. intros x _. apply okm_bind. rewrite A. cbn [is_some andb].
    unfold okm at 1, twice. apply okm_bind. eapply okm_weaken; [apply okm_read; exact U|]. intros l s1 U1.
    apply okm_bind, okm_at; [exact U1|]. intros y _. split; [exact U1|discriminate].
  Qed.
  Lemma okm_caps (g : list string -> M dreply) k (Q : dreply -> iface -> Prop) s : up k s ->
    (forall caps, okm (g caps) Q (count_call s)) -> okm (caps <-- call (fun n => h_caps h n k);; g caps) Q s.
  Proof.
    intros U H. apply okm_bind, (okm_call _ k); [exact U| |intros caps _; apply H].
    destruct W as (_ & _ & C & _). destruct (C (i_calls s) k) as [caps ->]. exact I.
  Qed.
  Lemma okm_capabilities p k s : keyof p = k -> up k s -> okm (cmp_capabilities h p) (kept k) s.
  Proof.
    intros K U. unfold cmp_capabilities. apply okm_log; [apply U|]. apply (okm_in_up k); [exact U|exact K|].
    apply okm_bind, okm_at; [exact U|]. intros x _. apply okm_caps; [exact U|]. intros caps. split; [exact U|discriminate].
  Qed.
  Lemma okm_validate p k s t : keyof p = k -> up k s -> rp_task p = Some t ->
    harmless_task (h_parser h) (h_attrs h k) t -> okm (iface_validate h p) (kept k) s.
  Proof.
    intros K U T H. unfold iface_validate. apply okm_log; [apply U|]. apply (okm_in_up k); [exact U|exact K|].
    rewrite T. apply okm_bind. cbn. apply okm_bind, okm_at; [exact U|]. intros x _. apply okm_caps; [exact U|]. intros caps.
    apply okm_bind. pose proof (task_soft _ caps _ _ H) as S. unfold okm at 1, mres.
    destruct (task_validate (h_parser h) caps (h_attrs h k) t); [|split; [exact S|apply U]]. split; [exact U|discriminate].
  Qed.
  Lemma okm_start p k s t : keyof p = k -> up k s -> rp_task p = Some t ->
    harmless_task (h_parser h) (h_attrs h k) t -> okm (task_start h p) (kept k) s.
  Proof.
    intros K U T H. unfold task_start. apply okm_log; [apply U|]. apply (okm_in_up k); [exact U|exact K|].
    rewrite T. apply okm_bind. cbn. apply okm_bind.
    eapply okm_weaken; [apply (okm_validate _ k s t); [reflexivity|exact U|reflexivity|exact H]|].
    intros r s1 [U1 N1]. destruct (negb (dr_ok r)); [split; assumption|].
    apply okm_bind, (okm_upd k k); [exact U1|]. intros s2 U2. split; [exact U2|discriminate].
  Qed.
  Lemma okm_measure p k s : keyof p = k -> up k s -> okm (cmp_measure h p) (kept k) s.
  Proof.
    intros K U. unfold cmp_measure. apply okm_log; [apply U|]. apply (okm_in_up k); [exact U|exact K|].
    apply okm_bind, (okm_call _ k); [exact U|destruct W as (PM & _); rewrite PM; exact I|]. intros [] _.
    apply okm_bind, okm_at; [exact U|]. intros x _. destruct (v_running x); [split; [exact U|discriminate]|].
    destruct (v_tasks x); [|split; [exact U|discriminate]].
    apply okm_bind, (okm_upd k k); [exact U|]. intros s2 U2. split; [exact U2|discriminate].
  Qed.
  Lemma okm_simple p k s (f : key -> device -> dreply) : keyof p = k -> up k s -> (forall d, dr_data (f k d) <> RView) ->
    okm (log_errors (in_devmap (fun k _ => d <-- device_at k;; ret (f k d)) p)) (kept k) s.
  Proof.
    intros K U N. apply okm_log; [apply U|]. apply (okm_in_up k); [exact U|exact K|].
    apply okm_bind, okm_at; [exact U|]. intros x _. split; [exact U|apply N].
  Qed.
  Lemma okm_last p k s : keyof p = k -> up k s -> okm (cmp_last_data p) (kept k) s.
  Proof.
    intros K U. unfold cmp_last_data. apply okm_log; [apply U|]. apply (okm_in_up k); [exact U|exact K|].
    apply okm_bind, okm_at; [exact U|]. intros x _. destruct (v_last x); (split; [exact U|discriminate]).
  Qed.

  Lemma okm_component name p s : i_ver s = V21 -> In name component_requests -> proper_params h name (keyof p) p ->
    okm (component_method h name p) fine s.
  Proof.
    intros V I (P1 & P2 & P3 & P4 & P5).
    destruct (kget (i_devmap s) (keyof p)) eqn:K.
    2:{ unfold okm. rewrite unknown_method; [|exact V|exact K]. split; [exact V|discriminate]. }
    assert (U : up (keyof p) s) by (split; [exact V|congruence]).
    assert (X : forall m : M dreply, okm m (kept (keyof p)) s -> okm m fine s).
    { intros m H. eapply okm_weaken; [exact H|]. intros r s' [[V' _] N]. split; assumption. }
    unfold okm, component_method. rewrite V. fold (okm (method21 h name p) fine s).
    repeat (destruct I as [<-|I]); [..|destruct I]; cbn [method21 String.eqb Ascii.eqb Bool.eqb].
    - apply (okm_teardown p (keyof p)); auto.
    - apply X, okm_reset; auto.
    - destruct (P1 eq_refl) as (a & v & A & B & H). apply X. eapply okm_set; eauto.
    - apply X, okm_get; auto.
    - apply X, okm_cstatus; auto.
    - apply X, okm_capabilities; auto.
    - apply X. apply (okm_simple p (keyof p) s (fun k _ => mkReply true (RAttrs (h_attrs h k)))); auto. discriminate.
    - apply X. apply (okm_simple p (keyof p) s (fun k _ => mkReply true ROther)); auto. discriminate.
    - apply X, okm_last; auto.
    - apply X, okm_measure; auto.
    - destruct (P5 (or_introl eq_refl)) as (t & T & H). apply X. eapply okm_start; eauto.
    - apply X, okm_status; auto.
    - apply X, okm_stop; auto.
    - apply X, okm_data; auto.
    - destruct (P5 (or_intror eq_refl)) as (t & T & H). apply X. eapply okm_validate; eauto.
  Qed.

  (** Interface requests. *)
  Definition has_all (l : list key) (s : iface) : Prop := i_ver s = V21 /\ forall k, In k l -> kget (i_devmap s) k <> None.
  Lemma okm_all (m : M unit) l s : (forall k, In k l -> okm m (fun _ s' => up k s') s) ->
    okm m (fun _ s' => i_ver s' = V21) s -> okm m (fun _ s' => has_all l s') s.
  Proof.
    unfold okm. destruct (m s) as [s' [a|e]]; [|auto]. intros A B. split; [exact B|]. intros k' Hk'. apply A. exact Hk'.
  Qed.
  Lemma okm_resets l : forall s, has_all l s ->
    okm (mfor l (fun k => task_stop (with_key k) ;;-
        cmp_reset (mkRp (Some k) None None None None None (Some false) None) ;;- ret tt)) (fun _ s' => i_ver s' = V21) s.
  Proof.
    assert (F : forall k k' p m, keyof p = k -> (m = task_stop p \/ m = cmp_reset p) ->
      forall s, up k s -> up k' s -> okm m (fun _ s' => up k s' /\ up k' s') s).
    { intros k k' p m K E s U U'.
      assert (O : okm m (kept k) s) by (destruct E as [-> | ->]; [apply okm_stop|apply okm_reset]; assumption).
      unfold okm in *. destruct (m s) as [s' [a|e]] eqn:Em; [|exact O]. destruct O as [O _]. split; [exact O|].
      assert (OS : others_same k s s').
      { destruct E as [-> | ->]; [eapply os_stop|eapply os_reset]; eauto. }
      split; [apply O|]. destruct (key_eqb k' k) eqn:Ek; [apply key_eqb_eq in Ek as ->; apply O|].
      apply key_eqb_neq in Ek. rewrite OS by exact Ek. apply U'. }
    induction l as [|k l IH]; intros s [V HK]; [exact V|]. cbn [mfor].
    assert (G : okm (task_stop (with_key k) ;;- cmp_reset (mkRp (Some k) None None None None None (Some false) None) ;;- ret tt)
                 (fun _ s' => has_all l s') s).
    { assert (Uk : up k s) by (split; [exact V|apply HK; now left]).
      assert (A : forall k', In k' l -> okm (task_stop (with_key k) ;;- cmp_reset (mkRp (Some k) None None None None None (Some false) None) ;;- ret tt)
                 (fun _ s' => up k' s') s).
      { intros k' Hk'. apply okm_bind. eapply okm_weaken; [apply (F k k' (with_key k)); [reflexivity|now left|exact Uk|split; [exact V|apply HK; now right]]|].
        intros _ s1 [U1 U2]. apply okm_bind. eapply okm_weaken; [apply (F k k' (mkRp (Some k) None None None None None (Some false) None)); [reflexivity|now right|exact U1|exact U2]|].
        intros _ s2 [_ U3]. exact U3. }
      assert (B : okm (task_stop (with_key k) ;;- cmp_reset (mkRp (Some k) None None None None None (Some false) None) ;;- ret tt)
                 (fun _ s' => i_ver s' = V21) s).
      { apply okm_bind. eapply okm_weaken; [apply (okm_stop _ k); [reflexivity|exact Uk]|]. intros _ s1 [U1 _].
        apply okm_bind. eapply okm_weaken; [apply (okm_reset _ k); [reflexivity|exact U1]|]. intros _ s2 [U2 _]. apply U2. }
      apply okm_all; assumption. }
    apply okm_bind. eapply okm_weaken; [exact G|]. exact (fun _ s1 HA => IH s1 HA).
  Qed.
  Lemma okm_ireset s : i_ver s = V21 -> okm (iface_reset no_params) fine s.
  Proof.
    intros V. unfold iface_reset. apply okm_log; [exact V|]. apply okm_bind. cbn. apply okm_bind. unfold okm at 1, mget.
    rewrite V. apply okm_bind. eapply okm_weaken; [apply okm_resets|].
    - split; [exact V|]. intros k Hk. apply (keys_known _ (i_devmap s)). exact Hk.
    - intros u s' V'. split; [exact V'|discriminate].
  Qed.

  (** Registration. *)
  Lemma register_total p s : i_ver s = V21 -> rp_key p = None -> rp_address p <> None -> rp_channel p <> None ->
    exists s' r, cmp_register h p s = (s', Ok r) /\ i_ver s' = V21 /\ dr_data r <> RView.
  Proof.
    intros V K A C. unfold cmp_register, log_errors. rewrite K.
    destruct (rp_address p) as [a|]; [|congruence]. destruct (rp_channel p) as [c|]; [|congruence].
    cbn [need_arg is_some]. unfold mbind at 1 2 3, ret at 1 2, twice. rewrite V.
    destruct W as (_ & MK & CP & _). unfold mbind, call, mget, mput.
    destruct (MK (i_calls s) (Some a, Some c)) as [-> | ->].
    - destruct (CP (i_calls (set_devmap (fun d => kset d (Some a, Some c) (new_device (i_calls (count_call s)))) (count_call s))) (Some a, Some c)) as [caps E].
      rewrite E. eexists _, _. split; [reflexivity|]. split; [exact V|discriminate].
    - eexists _, _. split; [reflexivity|]. split; [exact V|discriminate].
  Qed.
  Lemma boot_total driver c s : i_ver s = V21 -> exists s', boot_component h driver c s = (s', Ok tt) /\ i_ver s' = V21.
  Proof.
    intros V. unfold boot_component. destruct (negb _); [exists s; split; [reflexivity|exact V]|].
    unfold mbind at 1, mget. destruct (kget _ _); [exists s; split; [reflexivity|exact V]|]. rewrite V.
    destruct (_ =? 3); [exists s; split; [reflexivity|exact V]|]. unfold mbind at 1, mput.
    destruct (register_total (mkRp None (Some (dc_address c)) (Some (dc_channel c)) None None None None None)
                (note (EvRegister true (Some (dc_address c), Some (dc_channel c))) s)) as (s' & r & E & V' & _);
      [exact V|reflexivity|discriminate|discriminate|].
    exists s'. unfold mbind. rewrite E. split; [reflexivity|exact V'].
  Qed.
  Lemma bootstrap_total driver l : forall s, i_ver s = V21 -> exists s', bootstrap h driver l s = (s', Ok tt) /\ i_ver s' = V21.
  Proof.
    unfold bootstrap. induction l as [|c l IH]; intros s V; [exists s; split; [reflexivity|exact V]|].
    cbn [mfor]. destruct (boot_total driver c s V) as (s1 & E & V1). destruct (IH s1 V1) as (s2 & E2 & V2).
    exists s2. unfold mbind. rewrite E. split; assumption.
  Qed.

  Lemma handle_total driver i q s : i_ver s = V21 -> proper_request h i q ->
    rq_cmd q <> Some "stop" /\ exists s' r, handle h driver i q s = (s', Ok r) /\ i_ver s' = V21 /\ dr_data r <> RView.
  Proof.
    intros V [S|(name & C & P)].
    { split.
      - intros X. destruct S as [N|(c & C & _ & NI)]; [congruence|]. rewrite C in X. injection X as ->. apply NI. cbn. tauto.
      - rewrite <- V in S. destruct (senseless_reply h driver i q s S) as (d & E & D). eexists _, _.
        split; [exact E|]. split; [exact V|]. cbn. destruct D; subst; discriminate. }
    assert (F : forall m : M dreply, okm m fine s ->
      exists s' r, (match m s with (s', Err ValueError) | (s', Err AttributeError) => (s', Ok (mkReply false RNone)) | other => other end) = (s', Ok r)
        /\ i_ver s' = V21 /\ dr_data r <> RView).
    { intros m. unfold okm. destruct (m s) as [s' [a|e]].
      - intros [V' N]. eexists _, _. split; [reflexivity|]. split; assumption.
      - intros [[-> | ->] V']; eexists _, _; (split; [reflexivity|]); (split; [exact V'|discriminate]). }
    rewrite C. destruct P as [[I P]|[[I P]|[->|[[-> P]|(-> & (p & P & K & A & CH) & a & TA & NV)]]]].
    - split; [intros [= ->]; cbn in I; repeat (destruct I as [I|I]; [discriminate|]); exact I|].
      rewrite (component_dispatch _ _ _ _ _ _ C I). apply F. apply okm_component; auto.
      rewrite target_keyof in P. exact P.
    - split; [intros [= ->]; cbn in I; repeat (destruct I as [I|I]; [discriminate|]); exact I|].
      unfold handle. rewrite C. fold (params_of q). rewrite P.
      destruct I as [<-|[<-|[<-|[]]]]; cbn [String.eqb Ascii.eqb Bool.eqb]; unfold mbind, mget; rewrite V.
      + eexists _, _. split; [reflexivity|]. split; [exact V|discriminate].
      + apply (F (iface_reset no_params)). apply okm_ireset. exact V.
      + apply (F (no_args no_params ;;- iface_reset no_params)). apply okm_bind. cbn. apply okm_ireset. exact V.
    - split; [discriminate|]. unfold handle. rewrite C. cbn [String.eqb Ascii.eqb Bool.eqb].
      destruct (bootstrap_total driver (ti_comps i) s V) as (s' & E & V').
      unfold mbind, mget. rewrite E. rewrite V'. eexists _, _. split; [reflexivity|]. split; [exact V'|discriminate].
    - split; [discriminate|]. unfold handle. rewrite C. cbn [String.eqb Ascii.eqb Bool.eqb].
      destruct (rq_params q) as [p|]; [|congruence]. eexists _, _. split; [reflexivity|]. split; [exact V|discriminate].
    - split; [discriminate|]. unfold handle. rewrite C, P. cbn [String.eqb Ascii.eqb Bool.eqb]. unfold manual_register.
      unfold mbind at 1, mput.
      destruct (register_total p (note (EvRegister false (rp_address p, rp_channel p)) s) V K A CH) as (s' & r & E & V' & N).
      unfold mbind. rewrite E. rewrite TA. destruct (dr_ok r); eexists _, _; (split; [reflexivity|]); split; assumption.
  Qed.

  Lemma turn_total driver p i : i_ver (dp_iface p) = V21 -> proper_turn h i ->
    exists p' a, dturn h driver p i = (p', a, DServing) /\ i_ver (dp_iface p') = V21 /\ answered i a.
  Proof.
    intros V P. unfold dturn. set (p0 := mkProc (worked (ti_work i) (dp_iface p)) (dp_last p)).
    assert (V0 : i_ver (dp_iface p0) = V21) by exact V. clearbody p0. clear p V.
    assert (D : forall p1, i_ver (dp_iface p1) = V21 -> exists p2, idle_turn h i p1 = (p2, DServing) /\ i_ver (dp_iface p2) = V21).
    { intros p1 V1. pose proof (idle_serves h i p1 (proj1 W) V1) as S. destruct (idle_turn h i p1) as [p2 f] eqn:E.
      cbn in S. subst f. exists p2. split; [reflexivity|]. destruct (idle_turn_quiet _ _ _ _ _ E) as [Q _]. congruence. }
    unfold main_turn. destruct (ti_req i) as [q|] eqn:R.
    - destruct (handle_total driver i q (dp_iface p0) V0 (P q R)) as (NS & s' & r & E & V' & N). rewrite E.
      assert (PK : picklable r = true) by (unfold picklable; destruct (dr_data r); congruence).
      rewrite PK. cbn [negb].
      assert (ST : (match rq_cmd q with Some c => String.eqb c "stop" | None => false end) = false).
      { destruct (rq_cmd q) as [c|]; [|reflexivity]. apply String.eqb_neq. congruence. }
      rewrite ST. destruct (D (mkProc s' (dp_last p0)) V') as (p2 & E2 & V2). rewrite E2.
      exists p2, (Some r). split; [reflexivity|]. split; [exact V2|]. unfold answered. rewrite R. split; discriminate.
    - destruct (D p0 V0) as (p2 & E2 & V2). rewrite E2. exists p2, None. split; [reflexivity|]. split; [exact V2|].
      unfold answered. rewrite R. split; congruence.
  Qed.
  Lemma turns_total driver l : forall p, i_ver (dp_iface p) = V21 -> Forall (proper_turn h) l ->
    exists p' a, dturns h driver p l = (p', a, DServing) /\ Forall2 answered l a.
  Proof.
    induction l as [|i l IH]; intros p V P; [exists p, []; split; [reflexivity|constructor]|].
    inversion P as [|? ? P1 P2]; subst. destruct (turn_total driver p i V P1) as (p1 & a1 & E1 & V1 & A1).
    destruct (IH p1 V1 P2) as (p2 & a2 & E2 & A2). cbn [dturns]. rewrite E1, E2.
    exists p2, (a1 :: a2). split; [reflexivity|]. constructor; assumption.
  Qed.
End Serve.

(** ** Requests that end the driver *)
Lemma worked_known f s k : kget (i_devmap s) k <> None -> kget (i_devmap (worked f s)) k <> None.
Proof.
  intros H. apply (keys_known _ (i_devmap (worked f s))). rewrite worked_keys.
  destruct (kget (i_devmap s) k) eqn:E; [|congruence]. clear H. revert E. induction (i_devmap s) as [|[k1 d1] l IH]; cbn; [discriminate|].
  destruct (key_eqb k k1) eqn:K; [apply key_eqb_eq in K; auto|]. auto.
Qed.
Lemma dies_turn h driver p i q name s' e : ti_req i = Some q -> rq_cmd q = Some name -> In name component_requests ->
  component_method h name (params_of q) (worked (ti_work i) (dp_iface p)) = (s', Err e) -> ~ soft e ->
  dturn h driver p i = (mkProc s' (dp_last p), None, fate_of e).
Proof.
  intros R C I E N. unfold dturn, main_turn. rewrite R. cbn [dp_iface dp_last].
  rewrite (component_dispatch _ _ _ _ _ _ C I). fold (params_of q). rewrite E.
  destruct e; try reflexivity; elim N; [left|right]; reflexivity.
Qed.
Lemma log_hard {A} (m : M A) s s' e : m s = (s', Err e) -> ~ soft e ->
  log_errors m s = (s', Err (match e with Blocked => Blocked | _ => SystemExit end)).
Proof. intros E N. unfold log_errors. rewrite E. destruct e; try reflexivity; elim N; [left|right]; reflexivity. Qed.
Lemma hard_again e : ~ soft e -> ~ soft (match e with Blocked => Blocked | _ => SystemExit end).
Proof. intros _ [H|H]; destruct e; discriminate. Qed.
Lemma hard_fate e : ~ soft e -> fate_of (match e with Blocked => Blocked | _ => SystemExit end) = DDied SystemExit \/
  fate_of (match e with Blocked => Blocked | _ => SystemExit end) = DHung.
Proof. destruct e; cbn; auto. Qed.
Lemma params_hard p attrs name v props : dget attrs name = Some props -> at_rw props = true ->
  spoils p (at_type props) v -> forall l1 l2, Forall (fun x => validate_param p attrs (fst x) (snd x) = Ok true) l1 ->
  exists e, validate_params p attrs (l1 ++ (name, v) :: l2)%list = Err e /\ ~ soft e.
Proof.
  intros D Wr S. destruct (param_hard _ _ _ _ _ D Wr S) as (e & E & N). intros l1 l2 H.
  exists e. split; [|exact N]. induction H as [|[n x] l Hx _ IH]; cbn [app validate_params]; [rewrite E; reflexivity|].
  cbn in Hx. rewrite Hx. exact IH.
Qed.
Lemma set_dies h s p a v props : i_ver s = V21 -> kget (i_devmap s) (keyof p) <> None ->
  rp_attr p = Some a -> rp_val p = Some v -> dget (h_attrs h (keyof p)) a = Some props -> at_rw props = true ->
  spoils (h_parser h) (at_type props) v -> exists s' e, cmp_set_attr h p s = (s', Err (match e with Blocked => Blocked | _ => SystemExit end)) /\ ~ soft e.
Proof.
  intros V K A B D Wr S. destruct (coerce_hard _ _ _ _ _ D Wr S) as (e & E & N).
  destruct (kget (i_devmap s) (keyof p)) as [d|] eqn:Kd; [|congruence]. exists s, e. split; [|exact N].
  unfold cmp_set_attr. apply log_hard; [|exact N]. rewrite (wrapped _ _ s (keyof p) d Kd) by reflexivity.
  rewrite A, B. rewrite (mbind_ok _ _ (need_arg (Some a)) _ s s a eq_refl), (mbind_ok _ _ (need_arg (Some v)) _ s s v eq_refl),
    (mbind_ok _ _ _ _ _ _ _ (device_at_some _ s d Kd)). unfold mbind, mres. rewrite E. reflexivity.
Qed.
Lemma validate_dies h s p t caps l1 name v l2 props : i_ver s = V21 -> kget (i_devmap s) (keyof p) <> None ->
  rp_task p = Some t -> h_caps h (i_calls s) (keyof p) = Ok caps -> In (t_technique t) caps ->
  t_params t = Some (l1 ++ (name, v) :: l2)%list ->
  Forall (fun x => validate_param (h_parser h) (h_attrs h (keyof p)) (fst x) (snd x) = Ok true) l1 ->
  dget (h_attrs h (keyof p)) name = Some props -> at_rw props = true -> spoils (h_parser h) (at_type props) v ->
  exists s' e, iface_validate h p s = (s', Err (match e with Blocked => Blocked | _ => SystemExit end)) /\ ~ soft e.
Proof.
  intros V K T C I P F D Wr S. destruct (params_hard _ _ _ _ _ D Wr S l1 l2 F) as (e & E & N).
  destruct (kget (i_devmap s) (keyof p)) as [d|] eqn:Kd; [|congruence]. exists (count_call s), e. split; [|exact N].
  unfold iface_validate. apply log_hard; [|exact N]. rewrite (wrapped _ _ s (keyof p) d Kd) by reflexivity.
  rewrite T. rewrite (mbind_ok _ _ (need_arg (Some t)) _ s s t eq_refl), (mbind_ok _ _ _ _ _ _ _ (device_at_some _ s d Kd)).
  unfold mbind at 1, call. rewrite C. unfold mbind, mres, task_validate. apply mem_In in I. rewrite I. cbn [negb].
  rewrite P, E. reflexivity.
Qed.
Lemma start_dies h s p t caps l1 name v l2 props : i_ver s = V21 -> kget (i_devmap s) (keyof p) <> None ->
  rp_task p = Some t -> h_caps h (i_calls s) (keyof p) = Ok caps -> In (t_technique t) caps ->
  t_params t = Some (l1 ++ (name, v) :: l2)%list ->
  Forall (fun x => validate_param (h_parser h) (h_attrs h (keyof p)) (fst x) (snd x) = Ok true) l1 ->
  dget (h_attrs h (keyof p)) name = Some props -> at_rw props = true -> spoils (h_parser h) (at_type props) v ->
  exists s' e, task_start h p s = (s', Err (match e with Blocked => Blocked | _ => SystemExit end)) /\ ~ soft e.
Proof.
  intros V K T C I P F D Wr S.
  destruct (kget (i_devmap s) (keyof p)) as [d|] eqn:Kd; [|congruence].
  destruct (validate_dies h s (mkRp (Some (keyof p)) None None None None (Some t) None None) t caps l1 name v l2 props V) as (s' & e & E & N);
    try assumption; try reflexivity; try (cbn [keyof rp_key]; congruence).
  exists s', (match e with Blocked => Blocked | _ => SystemExit end).
  assert (N' := hard_again e N). split; [|exact N'].
  unfold task_start. apply log_hard; [|exact N']. rewrite (wrapped _ _ s (keyof p) d Kd) by reflexivity.
  rewrite T. rewrite (mbind_ok _ _ (need_arg (Some t)) _ s s t eq_refl). unfold mbind. rewrite E. reflexivity.
Qed.
Lemma hard_end e : ~ soft e -> forall f, f = fate_of (match e with Blocked => Blocked | _ => SystemExit end) ->
  f = DDied SystemExit \/ f = DHung.
Proof. intros N f ->. apply hard_fate. exact N. Qed.

Lemma value_dies_lemma h driver p i q a v props :
  i_ver (dp_iface p) = V21 -> kget (i_devmap (dp_iface p)) (target q) <> None ->
  ti_req i = Some q -> rq_cmd q = Some "cmp_set_attr" ->
  rp_attr (params_of q) = Some a -> rp_val (params_of q) = Some v ->
  dget (h_attrs h (target q)) a = Some props -> at_rw props = true -> spoils (h_parser h) (at_type props) v ->
  exists p' f, dturn h driver p i = (p', None, f) /\ (f = DDied SystemExit \/ f = DHung).
Proof.
  intros V K R C A B D Wr S. rewrite target_keyof in K, D. fold (params_of q) in K, D.
  destruct (set_dies h (worked (ti_work i) (dp_iface p)) (params_of q) a v props) as (s' & e & E & N);
    try assumption; [apply worked_known; exact K|].
  eexists _, _. split.
  - eapply dies_turn; [exact R|exact C|cbn; tauto| |apply (hard_again e N)].
    unfold component_method. change (i_ver (worked (ti_work i) (dp_iface p))) with (i_ver (dp_iface p)). rewrite V. exact E.
  - apply hard_fate. exact N.
Qed.
Lemma task_dies_lemma h driver p i q name t l1 a v l2 props :
  i_ver (dp_iface p) = V21 -> kget (i_devmap (dp_iface p)) (target q) <> None ->
  ti_req i = Some q -> rq_cmd q = Some name -> name = "task_start" \/ name = "task_validate" ->
  rp_task (params_of q) = Some t ->
  (forall n, exists caps, h_caps h n (target q) = Ok caps /\ In (t_technique t) caps) ->
  t_params t = Some (l1 ++ (a, v) :: l2)%list ->
  Forall (fun x => validate_param (h_parser h) (h_attrs h (target q)) (fst x) (snd x) = Ok true) l1 ->
  dget (h_attrs h (target q)) a = Some props -> at_rw props = true -> spoils (h_parser h) (at_type props) v ->
  exists p' f, dturn h driver p i = (p', None, f) /\ (f = DDied SystemExit \/ f = DHung).
Proof.
  intros V K R C Na T CA P F D Wr S. rewrite target_keyof in K, D, CA, F. fold (params_of q) in K, D, CA, F.
  set (s := worked (ti_work i) (dp_iface p)).
  assert (V' : i_ver s = V21) by exact V.
  assert (K' : kget (i_devmap s) (keyof (params_of q)) <> None) by (apply worked_known; exact K).
  destruct (CA (i_calls s)) as (caps & CC & I).
  assert (X : exists s' e, component_method h name (params_of q) s = (s', Err (match e with Blocked => Blocked | _ => SystemExit end)) /\ ~ soft e).
  { unfold component_method. rewrite V'. destruct Na as [-> | ->]; [eapply start_dies|eapply validate_dies]; eassumption. }
  destruct X as (s' & e & E & N).
  eexists _, _. split.
  - eapply dies_turn; [exact R|exact C|destruct Na as [-> | ->]; cbn; tauto|exact E|apply (hard_again e N)].
  - apply hard_fate. exact N.
Qed.

(** The argument that a request needs. *)
Lemma missing_dies_lemma h driver p i q name :
  i_ver (dp_iface p) = V21 -> kget (i_devmap (dp_iface p)) (target q) <> None ->
  ti_req i = Some q -> rq_cmd q = Some name ->
  (In name ["cmp_set_attr"; "cmp_get_attr"] /\ rp_attr (params_of q) = None) \/
  (name = "cmp_set_attr" /\ rp_val (params_of q) = None) \/
  (In name ["task_start"; "task_validate"] /\ rp_task (params_of q) = None) ->
  exists p', dturn h driver p i = (p', None, DDied SystemExit).
Proof.
  intros V K R C M. rewrite target_keyof in K. fold (params_of q) in K.
  set (s := worked (ti_work i) (dp_iface p)).
  assert (K' : kget (i_devmap s) (keyof (params_of q)) <> None) by (apply worked_known; exact K).
  destruct (kget (i_devmap s) (keyof (params_of q))) as [d|] eqn:Kd; [|congruence].
  assert (NT : ~ soft TypeError) by (intros [H|H]; discriminate).
  assert (X : In name component_requests /\ component_method h name (params_of q) s = (s, Err SystemExit)).
  { unfold component_method. change (i_ver s) with (i_ver (dp_iface p)). rewrite V.
    destruct M as [[I A]|[[-> A]|[I A]]].
    - destruct I as [<-|[<-|[]]]; (split; [cbn; tauto|]); cbn [method21 String.eqb Ascii.eqb Bool.eqb];
        unfold cmp_set_attr, cmp_get_attr; apply (log_hard _ _ _ TypeError); try exact NT;
        rewrite (wrapped _ _ s (keyof (params_of q)) d Kd) by reflexivity; rewrite A; reflexivity.
    - split; [cbn; tauto|]. cbn [method21 String.eqb Ascii.eqb Bool.eqb]. unfold cmp_set_attr. apply (log_hard _ _ _ TypeError); [|exact NT].
      rewrite (wrapped _ _ s (keyof (params_of q)) d Kd) by reflexivity. rewrite A.
      destruct (rp_attr (params_of q)); reflexivity.
    - destruct I as [<-|[<-|[]]]; (split; [cbn; tauto|]); cbn [method21 String.eqb Ascii.eqb Bool.eqb];
        unfold task_start, iface_validate; apply (log_hard _ _ _ TypeError); try exact NT;
        rewrite (wrapped _ _ s (keyof (params_of q)) d Kd) by reflexivity; rewrite A; reflexivity. }
  destruct X as [I E]. eexists. eapply (dies_turn _ _ _ _ _ _ _ SystemExit); [exact R|exact C|exact I|exact E|].
  intros [H|H]; discriminate.
Qed.
