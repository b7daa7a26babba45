(** * IfaceProofs: the driver process *)
From Coq Require Import List String ZArith Bool Lia.
From Verif Require Import Base BaseFacts Types AttrModel IfaceModel SpecIface.
Import ListNotations.
Open Scope string_scope.
Open Scope Z_scope.

Lemma key_eqb_eq : forall a b, key_eqb a b = true <-> a = b.
Proof.
  intros [a1 a2] [b1 b2]. unfold key_eqb. cbn. rewrite andb_true_iff.
  assert (O : forall x y : option string, opt_eqb String.eqb x y = true <-> x = y).
  { intros [x|] [y|]; cbn; try (split; congruence).
    rewrite String.eqb_eq. split; congruence. }
  rewrite !O. split; [intros [-> ->]; reflexivity|intros [= -> ->]; split; reflexivity].
Qed.

Lemma key_eqb_refl : forall k, key_eqb k k = true.
Proof. intros k. apply key_eqb_eq. reflexivity. Qed.

Lemma key_eqb_neq : forall a b, key_eqb a b = false <-> a <> b.
Proof.
  intros a b. rewrite <- key_eqb_eq. destruct (key_eqb a b); split; congruence.
Qed.

Lemma kget_kset : forall A (d : list (key * A)) k k' a,
  kget (kset d k a) k' = if key_eqb k' k then Some a else kget d k'.
Proof.
  induction d as [|[k0 b] r IH]; intros k k' a; cbn.
  - reflexivity.
  - destruct (key_eqb k k0) eqn:E; cbn.
    + apply key_eqb_eq in E. subst k0. destruct (key_eqb k' k); reflexivity.
    + rewrite IH. destruct (key_eqb k' k0) eqn:E2; [|reflexivity].
      destruct (key_eqb k' k) eqn:E3; [|reflexivity].
      apply key_eqb_eq in E2, E3. subst. rewrite key_eqb_refl in E. discriminate.
Qed.

Lemma kget_registered : forall s k, kget (i_devmap s) k = None <-> ~ registered s k.
Proof.
  intros s k. unfold registered. induction (i_devmap s) as [|[k0 d] r IH]; cbn.
  - split; [intros _ [d []]|reflexivity].
  - destruct (key_eqb k k0) eqn:E.
    + apply key_eqb_eq in E. subst. split; [discriminate|].
      intros H. exfalso. apply H. exists d. left. reflexivity.
    + rewrite IH. apply key_eqb_neq in E. split; intros H [x I]; apply H.
      * destruct I as [[= -> ->]|I]; [congruence|exists x; exact I].
      * exists x. right. exact I.
Qed.

(** ** Frames: what a computation leaves unchanged *)
Definition frame {A} (R : iface -> iface -> Prop) (m : M A) : Prop :=
  forall s s' r, m s = (s', r) -> R s s'.

Section Frames.
  Variable R : iface -> iface -> Prop.
  Hypothesis Rrefl : forall s, R s s.
  Hypothesis Rtrans : forall a b c, R a b -> R b c -> R a c.

  Lemma frame_ret : forall A (a : A), frame R (ret a).
  Proof. intros A a s s' r [= <- _]. apply Rrefl. Qed.
  Lemma frame_raise : forall A e, frame R (@raise A e).
  Proof. intros A a s s' r [= <- _]. apply Rrefl. Qed.
  Lemma frame_mget : forall A (f : iface -> A), frame R (mget f).
  Proof. intros A a s s' r [= <- _]. apply Rrefl. Qed.
  Lemma frame_mres : forall A (f : res A), frame R (mres f).
  Proof. intros A a s s' r [= <- _]. apply Rrefl. Qed.
  Lemma frame_mput : forall f, (forall s, R s (f s)) -> frame R (mput f).
  Proof. intros f H s s' r [= <- _]. apply H. Qed.
  Lemma frame_call : forall A (f : nat -> res A), (forall s, R s (count_call s)) -> frame R (call f).
  Proof. intros A f H s s' r [= <- _]. apply H. Qed.
  Lemma frame_device_at : forall k, frame R (device_at k).
  Proof. intros k s s' r. unfold device_at. destruct (kget (i_devmap s) k); intros [= <- _]; apply Rrefl. Qed.
  Lemma frame_need_arg : forall A (o : option A), frame R (need_arg o).
  Proof. intros A [a|]; [apply frame_ret|apply frame_raise]. Qed.
  Lemma frame_twice : forall b, frame R (twice b).
  Proof. intros b s s' r [= <- _]. apply Rrefl. Qed.
  Lemma frame_bind : forall A B (m : M A) (f : A -> M B),
    frame R m -> (forall a, frame R (f a)) -> frame R (mbind m f).
  Proof.
    intros A B m f Hm Hf s s' r. unfold mbind. destruct (m s) as [s1 [a|e]] eqn:E; intros H.
    - exact (Rtrans _ _ _ (Hm _ _ _ E) (Hf _ _ _ _ H)).
    - injection H as <- _. exact (Hm _ _ _ E).
  Qed.
  Lemma frame_log_errors : forall A (m : M A), frame R m -> frame R (log_errors m).
  Proof.
    intros A m Hm s s' r. unfold log_errors. destruct (m s) as [s1 [a|e]] eqn:E; intros H.
    - injection H as <- _. exact (Hm _ _ _ E).
    - assert (s1 = s') by (destruct e; injection H as <- _; reflexivity). subst.
      exact (Hm _ _ _ E).
  Qed.
  Lemma frame_in_devmap : forall f p, (forall k p', frame R (f k p')) -> frame R (in_devmap f p).
  Proof.
    intros f p Hf s s' r. unfold in_devmap.
    destruct (kget (i_devmap s) _); [apply Hf|].
    destruct (i_ver s); [|intros [= <- _]; apply Rrefl].
    destruct (rp_key p); intros [= <- _]; apply Rrefl.
  Qed.
  Lemma frame_mfor : forall A (l : list A) f, (forall a, frame R (f a)) -> frame R (mfor l f).
  Proof.
    induction l as [|a l IH]; intros f Hf; cbn; [apply frame_ret|].
    apply frame_bind; [apply Hf|]. intros _. apply IH. exact Hf.
  Qed.
End Frames.

Ltac frames RR RT :=
  repeat first
    [ apply (frame_ret _ RR) | apply (frame_raise _ RR) | apply (frame_mget _ RR)
    | apply (frame_mres _ RR) | apply (frame_device_at _ RR) | apply (frame_need_arg _ RR)
    | apply (frame_twice _ RR)
    | apply frame_log_errors | apply (frame_in_devmap _ RR); intros ? ?
    | apply (frame_bind _ RT); [|intros ?]
    | apply (frame_mfor _ RR RT); intros ?
    | apply frame_call; intros ? | apply frame_mput; intros ? ].

(** ** Everything but registration keeps the counters and the history of attempts *)
Definition quiet_log (s s' : iface) : Prop :=
  i_ver s' = i_ver s /\ i_retries s' = i_retries s /\ i_class_imi s' = i_class_imi s /\
  forall k, attempts k s' = attempts k s.
Lemma quiet_log_refl : forall s, quiet_log s s.
Proof. intros s. repeat split. Qed.
Lemma quiet_log_trans : forall a b c, quiet_log a b -> quiet_log b c -> quiet_log a c.
Proof.
  intros a b c (A1 & A2 & A3 & A4) (B1 & B2 & B3 & B4). unfold quiet_log.
  do 3 (split; [congruence|]). intros k. rewrite B4. apply A4.
Qed.

(** Nothing of an interval or a round changes. *)
Definition no_round (s s' : iface) : Prop :=
  i_ver s' = i_ver s /\ i_imi s' = i_imi s /\ i_class_imi s' = i_class_imi s /\ rounds s' = rounds s.
Lemma no_round_refl : forall s, no_round s s.
Proof. intros s. repeat split. Qed.
Lemma no_round_trans : forall a b c, no_round a b -> no_round b c -> no_round a c.
Proof. intros a b c (A1 & A2 & A3 & A4) (B1 & B2 & B3 & B4). repeat split; congruence. Qed.

Lemma attempts_note : forall k e s, attempts k (note e s) = attempts_rev k (e :: rev (i_log s)).
Proof. intros k e s. unfold attempts. cbn. rewrite rev_app_distr. reflexivity. Qed.
Lemma rounds_note : forall e s, rounds (note e s) = (rounds s ++ match e with EvRound t => [t] | _ => [] end)%list.
Proof.
  intros e s. unfold rounds. cbn. rewrite flat_map_app. cbn. rewrite app_nil_r. reflexivity.
Qed.

Lemma quiet_set : forall k n v s, quiet_log s (note (EvSet k n v) s).
Proof.
  intros. unfold quiet_log. do 3 (split; [reflexivity|]). intros k'. rewrite attempts_note. reflexivity.
Qed.
Lemma quiet_roundev : forall t s, quiet_log s (note (EvRound t) s).
Proof.
  intros. unfold quiet_log. do 3 (split; [reflexivity|]). intros k'. rewrite attempts_note. reflexivity.
Qed.

(** The methods are built from a few state changes. *)
Lemma no_args_frame : forall (R : iface -> iface -> Prop), (forall s, R s s) -> forall p, frame R (no_args p).
Proof.
  intros R RR p. unfold no_args.
  destruct p as [[?|] [?|] [?|] [?|] [?|] [?|] [?|] [?|]];
    (apply frame_raise; exact RR) || (apply frame_ret; exact RR).
Qed.


Section Methods.
  Variable R : iface -> iface -> Prop.
  Hypothesis RR : forall s, R s s.
  Hypothesis RT : forall a b c, R a b -> R b c -> R a c.
  Hypothesis Rcount : forall s, R s (count_call s).
  Hypothesis Rupd : forall k f s, R s (set_devmap (fun d => match kget d k with Some v => kset d k (f v) | None => d end) s).
  Hypothesis Rdel : forall k s, R s (set_devmap (fun d => kdel d k) s).

Ltac qframes := frames RR RT; try apply Rcount; try apply Rupd; try apply Rdel.

Lemma read_status_frame : forall h k l acc, frame R (read_status h k l acc).
Proof.
  intros h k. induction l as [|[n a] r IH]; intros acc; cbn; [qframes|].
  destruct (at_status a); [|apply IH]. qframes. apply IH.
Qed.
Lemma task_data_frame : forall p, frame R (task_data p).
Proof. intros p. unfold task_data, upd_device. qframes. destruct (v_data _); qframes. Qed.
Local Opaque task_data.
Lemma task_stop_frame : forall p, frame R (task_stop p).
Proof. intros p. unfold task_stop, upd_device. qframes. apply task_data_frame. Qed.
Local Opaque task_stop.
Lemma cmp_reset_frame : forall p, frame R (cmp_reset p).
Proof. intros p. unfold cmp_reset, upd_device. qframes. Qed.
Local Opaque cmp_reset.
Lemma validate_frame : forall h p, frame R (iface_validate h p).
Proof. intros h p. unfold iface_validate. qframes. Qed.
Local Opaque iface_validate.
Lemma measure_frame : forall h p, frame R (cmp_measure h p).
Proof.
  intros h p. unfold cmp_measure, upd_device. qframes.
  match goal with |- context [v_running ?d] => destruct (v_running d), (v_tasks d) end; qframes.
Qed.

Lemma task_status_frame : forall p, frame R (task_status p).
Proof. intros p. unfold task_status. qframes. Qed.
Local Opaque task_status read_status.
Lemma method21_frame : forall h name p, frame R (cmp_set_attr h p) -> frame R (method21 h name p).
Proof.
  intros h name p SET. unfold method21.
  repeat match goal with |- frame _ (if ?c then _ else _) => destruct c end;
  try apply task_data_frame; try apply task_stop_frame; try apply cmp_reset_frame;
  try apply validate_frame; try apply measure_frame.
  - unfold cmp_teardown. qframes; try apply task_stop_frame.
    + apply task_status_frame.
    + destruct (rp_do_run _); qframes.
    + apply cmp_reset_frame.
  - exact SET.
  - unfold cmp_get_attr. qframes.
  - unfold cmp_status. qframes. apply read_status_frame.
  - unfold cmp_capabilities. qframes.
  - unfold cmp_attrs. qframes.
  - unfold cmp_constants. qframes.
  - unfold cmp_last_data. qframes. destruct (v_last _); qframes.
  - unfold task_start, upd_device. qframes; [apply validate_frame|].
    match goal with |- frame _ (if ?c then _ else _) => destruct c end; qframes.
  - apply task_status_frame.
Qed.

(** The same for the 2.0 interface. *)
Lemma cmp_reset20_frame : forall p, frame R (cmp_reset20 p).
Proof. intros p. unfold cmp_reset20, upd_device. qframes. Qed.
Lemma task_status20_frame : forall p, frame R (task_status20 p).
Proof. intros p. unfold task_status20. qframes. Qed.
Lemma task_stop20_frame : forall p, frame R (task_stop20 p).
Proof. intros p. unfold task_stop20, upd_device. qframes. apply task_data_frame. Qed.
Lemma validate20_frame : forall h p, frame R (iface_validate20 h p).
Proof. intros h p. unfold iface_validate20. qframes. Qed.
Lemma measure20_frame : forall h p, frame R (cmp_measure20 h p).
Proof.
  intros h p. unfold cmp_measure20, upd_device. qframes.
  match goal with |- context [v_running ?d] => destruct (v_running d) end; qframes.
Qed.
Lemma run_thread_frame : forall k, frame R (run_thread k).
Proof.
  intros k. unfold run_thread, upd_device. qframes.
  match goal with |- context [v_run ?d] => destruct (v_run d) end; qframes.
Qed.
Local Opaque cmp_reset20 task_status20 task_stop20 iface_validate20 run_thread.
Lemma method20_frame : forall h name p, frame R (cmp_set_attr20 h p) -> frame R (method20 h name p).
Proof.
  intros h name p SET. unfold method20.
  repeat match goal with |- frame _ (if ?c then _ else _) => destruct c end;
  try apply task_data_frame; try apply task_stop20_frame; try apply cmp_reset20_frame;
  try apply validate20_frame; try apply measure20_frame.
  - unfold cmp_teardown20. qframes; try apply task_stop20_frame.
    + apply task_status20_frame.
    + apply cmp_reset20_frame.
  - exact SET.
  - unfold cmp_get_attr. qframes.
  - unfold cmp_status. qframes. apply read_status_frame.
  - unfold cmp_capabilities. qframes.
  - unfold cmp_attrs. qframes.
  - unfold cmp_constants. qframes.
  - unfold cmp_last_data. qframes. destruct (v_last _); qframes.
  - unfold task_start20, upd_device. qframes; [apply validate20_frame|].
    match goal with |- frame _ (if ?c then _ else _) => destruct c end; qframes.
    apply run_thread_frame.
  - apply task_status20_frame.
Qed.

Lemma component_frame : forall h name p, frame R (cmp_set_attr h p) -> frame R (cmp_set_attr20 h p) ->
  frame R (component_method h name p).
Proof.
  intros h name p S1 S0 s s' r. unfold component_method. destruct (i_ver s).
  - apply method20_frame. exact S0.
  - apply method21_frame. exact S1.
Qed.
Lemma set_frames : (forall k n v s, R s (note (EvSet k n v) s)) ->
  forall h p, frame R (cmp_set_attr h p) /\ frame R (cmp_set_attr20 h p).
Proof.
  intros Rset h p. split; [unfold cmp_set_attr|unfold cmp_set_attr20]; qframes; apply Rset.
Qed.

Local Opaque component_method no_args.
Lemma call_frame : forall h name p, frame R (component_method h name p) -> frame R (call_attribute h name p).
Proof.
  intros h name p COMP. unfold call_attribute.
  destruct (mem name component_methods); [exact COMP|].
  destruct (String.eqb name "status").
  { unfold iface_status. qframes. apply no_args_frame. exact RR. }
  assert (RS : frame R (iface_reset p)).
  { unfold iface_reset. qframes; [apply no_args_frame; exact RR|].
    match goal with |- frame _ (match i_ver ?x with V20 => _ | V21 => _ end) => destruct (i_ver x) end;
    unfold upd_device; qframes;
    first [apply task_stop_frame|apply cmp_reset_frame|apply cmp_reset20_frame]. }
  destruct (String.eqb name "quit").
  { apply (frame_bind _ RT); [apply no_args_frame; exact RR|intros ?; exact RS]. }
  destruct (String.eqb name "reset"); [exact RS|].
  destruct (String.eqb name "DeviceFactory"); [qframes|].
  destruct (h_other h name); qframes.
Qed.

End Methods.

Lemma component_quiet : forall h name p, frame quiet_log (component_method h name p).
Proof.
  intros h name p.
  assert (S : frame quiet_log (cmp_set_attr h p) /\ frame quiet_log (cmp_set_attr20 h p)).
  { apply set_frames; [apply quiet_log_refl|apply quiet_log_trans|repeat split|apply quiet_set]. }
  apply component_frame; [apply quiet_log_refl|apply quiet_log_trans|..];
    try (repeat split; fail); apply S.
Qed.
Lemma call_quiet : forall h name p, frame quiet_log (call_attribute h name p).
Proof.
  intros. apply call_frame; [apply quiet_log_refl|apply quiet_log_trans|..];
    try (repeat split; fail). apply component_quiet.
Qed.
Lemma no_round_set : forall k n v s, no_round s (note (EvSet k n v) s).
Proof. intros. do 3 (split; [reflexivity|]). rewrite rounds_note, app_nil_r. reflexivity. Qed.
Lemma component_no_round : forall h name p, frame no_round (component_method h name p).
Proof.
  intros h name p.
  assert (S : frame no_round (cmp_set_attr h p) /\ frame no_round (cmp_set_attr20 h p)).
  { apply set_frames; [apply no_round_refl|apply no_round_trans|repeat split|apply no_round_set]. }
  apply component_frame; [apply no_round_refl|apply no_round_trans|..];
    try (repeat split; fail); apply S.
Qed.
Lemma call_no_round : forall h name p, frame no_round (call_attribute h name p).
Proof.
  intros. apply call_frame; [apply no_round_refl|apply no_round_trans|..];
    try (repeat split; fail). apply component_no_round.
Qed.

Ltac qframes := frames quiet_log_refl quiet_log_trans; try (repeat split; fail).
Local Opaque component_method.
Lemma idle_quiet : forall h now last, frame quiet_log (idle_measurements h now last).
Proof.
  intros h now last. unfold idle_measurements. qframes.
  destruct (interval_of _); [|qframes].
  destruct (match last with Some t => _ | None => false end); qframes.
  - apply quiet_roundev.
  - apply component_quiet.
Qed.

(** ** Registration *)
Definition key_of (p : rparams) : key := (rp_address p, rp_channel p).

Lemma register_cases : forall h p s s' r, cmp_register h p s = (s', r) ->
  i_ver s' = i_ver s /\ i_imi s' = i_imi s /\ i_class_imi s' = i_class_imi s /\
  (forall k, k <> key_of p -> kget (i_devmap s') k = kget (i_devmap s) k) /\
  match r with
  | Ok rep =>
      (dr_ok rep = true /\ i_log s' = (i_log s ++ [EvRegistered (key_of p)])%list /\
       i_retries s' = (match i_ver s with V21 => kset (i_retries s) (key_of p) 0 | V20 => i_retries s end) /\
       kget (i_devmap s') (key_of p) <> None)
      \/
      (dr_ok rep = false /\ i_log s' = i_log s /\ i_ver s = V21 /\
       i_retries s' = kset (i_retries s) (key_of p) (retries_of s (key_of p) + 1))
  | Err e => i_log s' = i_log s
  end.
Proof.
  intros h p s s' r H. unfold key_of. unfold cmp_register, log_errors, mbind, need_arg in H.
  destruct (rp_address p) as [a|]; [|cbn in H; injection H as <- <-; repeat split; reflexivity].
  destruct (rp_channel p) as [c|]; [|cbn in H; injection H as <- <-; repeat split; reflexivity].
  unfold twice in H.
  destruct (rp_key p) as [?|]; [cbn in H; injection H as <- <-; repeat split; reflexivity|].
  cbn [ret is_some] in H. unfold ret in H. cbv beta iota zeta in H.
  unfold call, mget, mput in H.
  assert (G : forall n k, k <> (Some a, Some c) ->
            kget (kset (i_devmap s) (Some a, Some c) (new_device n)) k = kget (i_devmap s) k).
  { intros n k NE. rewrite kget_kset. apply key_eqb_neq in NE. rewrite NE. reflexivity. }
  assert (G2 : forall n, kget (kset (i_devmap s) (Some a, Some c) (new_device n)) (Some a, Some c) <> None).
  { intros n. rewrite kget_kset, key_eqb_refl. discriminate. }
  destruct (i_ver s) eqn:V;
  (destruct (h_make h (i_calls s) (Some a, Some c)) as [[]|e];
   [|destruct e; injection H as <- <-; cbn; rewrite ?V;
     do 4 (split; [first [reflexivity|exact V|intros; reflexivity]|]);
     first [reflexivity|right; do 3 (split; [first [reflexivity|exact V]|]); reflexivity]]);
  cbn [i_calls count_call set_devmap] in H;
  (destruct (h_caps h (S (i_calls s)) (Some a, Some c)) as [l|e];
   [injection H as <- <-; cbn; rewrite ?V; do 3 (split; [first [reflexivity|exact V]|]); split; [apply G|];
    left; do 3 (split; [reflexivity|]); apply G2
   |destruct e; injection H as <- <-; cbn; rewrite ?V; do 3 (split; [first [reflexivity|exact V]|]); (split; [apply G|]);
    first [reflexivity|right; do 3 (split; [first [reflexivity|exact V]|]); reflexivity]]).
Qed.

(** The counter of a component is the number of attempts since its last success, and
    never exceeds three. *)
Definition counted (s : iface) : Prop :=
  i_ver s = V21 /\ forall k, Z.of_nat (attempts k s) = retries_of s k /\ retries_of s k <= 3.

Lemma quiet_counted : forall s s', quiet_log s s' -> counted s -> counted s'.
Proof.
  intros s s' (A & B & _ & C) [V H]. split; [congruence|]. intros k.
  unfold retries_of in *. rewrite C, B. apply H.
Qed.

Lemma retries_kset : forall s s' k n, i_retries s' = kset (i_retries s) k n ->
  forall k', retries_of s' k' = if key_eqb k' k then n else retries_of s k'.
Proof.
  intros s s' k n H k'. unfold retries_of. rewrite H, kget_kset.
  destruct (key_eqb k' k); reflexivity.
Qed.

Lemma boot_counted : forall h driver c s s' r,
  boot_component h driver c s = (s', r) -> counted s ->
  (forall k, (attempts k s' <= 3)%nat) /\ (forall u, r = Ok u -> counted s').
Proof.
  intros h driver c s s' r H [V C].
  assert (C3 : forall k, (attempts k s <= 3)%nat) by (intros k; destruct (C k); lia).
  assert (Same : s' = s -> (forall k, (attempts k s' <= 3)%nat) /\ (forall u, r = Ok u -> counted s')).
  { intros ->. split; [exact C3|]. intros _ _. split; assumption. }
  unfold boot_component in H.
  destruct (String.eqb (dc_driver c) driver); [|injection H as <- _; apply Same; reflexivity].
  cbn [negb] in H. set (k := (Some (dc_address c), Some (dc_channel c))) in *.
  unfold mbind at 1 in H. cbn [mget] in H. unfold mget in H.
  destruct (kget (i_devmap s) k); [injection H as <- _; apply Same; reflexivity|].
  rewrite V in H. destruct (retries_of s k =? 3) eqn:E; [injection H as <- _; apply Same; reflexivity|].
  apply Z.eqb_neq in E.
  unfold mbind at 1, mput in H.
  set (p := mkRp None (Some (dc_address c)) (Some (dc_channel c)) None None None None None) in *.
  set (s1 := note (EvRegister true k) s) in *.
  assert (A1 : forall k', attempts k' s1 = if key_eqb k' k then S (attempts k' s) else attempts k' s).
  { intros k'. unfold s1. rewrite attempts_note. reflexivity. }
  assert (B1 : forall k', (attempts k' s1 <= 3)%nat).
  { intros k'. rewrite A1. destruct (key_eqb k' k) eqn:K; [|apply C3].
    apply key_eqb_eq in K. subst k'. destruct (C k). lia. }
  unfold mbind in H. destruct (cmp_register h p s1) as [s2 [rep|e]] eqn:R.
  - injection H as <- <-. apply register_cases in R as (V2 & _ & _ & _ & R).
    change (key_of p) with k in R. change (i_ver s1) with (i_ver s) in *. rewrite V in *.
    destruct R as [(_ & L & RT & _)|(_ & L & _ & RT)].
    + assert (A2 : forall k', attempts k' s2 = if key_eqb k' k then 0%nat else attempts k' s).
      { intros k'. unfold attempts at 1. rewrite L, rev_app_distr. cbn [rev app attempts_rev].
        destruct (key_eqb k' k) eqn:K; [reflexivity|].
        change (attempts_rev k' (rev (i_log s1))) with (attempts k' s1).
        rewrite A1, K. reflexivity. }
      split.
      * intros k'. rewrite A2. destruct (key_eqb k' k); [lia|apply C3].
      * intros _ _. split; [exact V2|]. intros k'. rewrite A2.
        rewrite (retries_kset s1 s2 k 0 RT k'). change (retries_of s1 k') with (retries_of s k').
        destruct (key_eqb k' k); [lia|apply C].
    + assert (A2 : forall k', attempts k' s2 = attempts k' s1).
      { intros k'. unfold attempts. rewrite L. reflexivity. }
      split.
      * intros k'. rewrite A2. apply B1.
      * intros _ _. split; [exact V2|]. intros k'. rewrite A2, A1.
        rewrite (retries_kset s1 s2 k _ RT k'). change (retries_of s1 k') with (retries_of s k').
        change (retries_of s1 k) with (retries_of s k).
        destruct (key_eqb k' k) eqn:K; [|apply C].
        apply key_eqb_eq in K. subst k'. destruct (C k). lia.
  - injection H as <- <-. apply register_cases in R as (_ & _ & _ & _ & L).
    split; [|discriminate]. intros k'. unfold attempts. rewrite L. apply B1.
Qed.

Lemma bootstrap_counted : forall h driver l s s' r,
  bootstrap h driver l s = (s', r) -> counted s ->
  (forall k, (attempts k s' <= 3)%nat) /\ (forall u, r = Ok u -> counted s').
Proof.
  intros h driver. unfold bootstrap. induction l as [|c l IH]; intros s s' r H C.
  - injection H as <- <-. split; [intros k; destruct C as [_ C]; destruct (C k); lia|].
    intros _ _. exact C.
  - cbn in H. unfold mbind in H. destruct (boot_component h driver c s) as [s1 [u|e]] eqn:B.
    + destruct (boot_counted _ _ _ _ _ _ B C) as [_ C1]. exact (IH _ _ _ H (C1 u eq_refl)).
    + injection H as <- <-. destruct (boot_counted _ _ _ _ _ _ B C) as [C1 _].
      split; [exact C1|discriminate].
Qed.

(** One turn of the main loop without a registration request. *)
Lemma handle_counted : forall h driver i q s s' r,
  handle h driver i q s = (s', r) -> rq_cmd q <> Some "cmp_register" -> counted s ->
  (forall k, (attempts k s' <= 3)%nat) /\ (forall u, r = Ok u -> counted s').
Proof.
  intros h driver i q s s' r H NR C.
  assert (Q : quiet_log s s' -> (forall k, (attempts k s' <= 3)%nat) /\ (forall u, r = Ok u -> counted s')).
  { intros Q. pose proof (quiet_counted _ _ Q C) as C'. split; [|intros _ _; exact C'].
    intros k. destruct C' as [_ C']. destruct (C' k). lia. }
  unfold handle in H. destruct (rq_cmd q) as [cmd|]; [|injection H as <- _; apply Q, quiet_log_refl].
  destruct (String.eqb cmd "register").
  { unfold mbind at 1 in H. destruct (bootstrap h driver (ti_comps i) s) as [s1 [u|e]] eqn:B.
    - pose proof (bootstrap_counted _ _ _ _ _ _ B C) as [B1 B2].
      specialize (B2 u eq_refl).
      assert (E : s' = s1) by (unfold mbind, mget in H; destruct (i_ver s1); injection H as <- _; reflexivity).
      subst s1. split; [exact B1|intros _ _; exact B2].
    - injection H as <- <-. pose proof (bootstrap_counted _ _ _ _ _ _ B C) as [B1 B2].
      split; [exact B1|discriminate]. }
  destruct (String.eqb cmd "stop"); [injection H as <- _; apply Q, quiet_log_refl|].
  destruct (String.eqb cmd "settings").
  { destruct (rq_params q); injection H as <- _; apply Q; repeat split. }
  destruct (String.eqb cmd "cmp_register") eqn:CR.
  { apply String.eqb_eq in CR. subst. congruence. }
  unfold mbind, mget in H. destruct (has_attribute h (i_ver s) cmd);
    [|injection H as <- _; apply Q, quiet_log_refl].
  destruct (call_attribute h cmd _ s) as [s1 r1] eqn:CA.
  pose proof (call_quiet _ _ _ _ _ _ CA) as CQ.
  assert (s1 = s') by (destruct r1 as [x|[]]; injection H as <- _; reflexivity). subst s1.
  apply Q. exact CQ.
Qed.

Lemma idle_turn_quiet : forall h i p p' f, idle_turn h i p = (p', f) ->
  quiet_log (dp_iface p) (dp_iface p').
Proof.
  intros h i p p' f H. unfold idle_turn in H.
  destruct (idle_measurements h (ti_clock i) (dp_last p) (dp_iface p)) as [s [t|e]] eqn:I.
  - injection H as <- _. exact (idle_quiet _ _ _ _ _ _ I).
  - assert (dp_iface p' = s) by (destruct e; injection H as <- _; reflexivity).
    rewrite H0. exact (idle_quiet _ _ _ _ _ _ I).
Qed.

Lemma main_turn_counted : forall h driver p i p' a f,
  main_turn h driver p i = (p', a, f) -> ~ asks "cmp_register" i -> counted (dp_iface p) ->
  (forall k, (attempts k (dp_iface p') <= 3)%nat) /\ (f = DServing -> counted (dp_iface p')).
Proof.
  intros h driver p i p' a f H NA C. unfold main_turn in H.
  assert (Le : forall s, counted s -> forall k, (attempts k s <= 3)%nat).
  { intros s [_ X] k. destruct (X k). lia. }
  destruct (ti_req i) as [q|] eqn:RQ.
  - destruct (handle h driver i q (dp_iface p)) as [s r] eqn:HD.
    assert (NR : rq_cmd q <> Some "cmp_register").
    { intros E. apply NA. exists q. split; assumption. }
    destruct (handle_counted _ _ _ _ _ _ _ HD NR C) as [H1 H2].
    destruct r as [rep|e].
    + specialize (H2 _ eq_refl). destruct (picklable rep); cbn [negb] in H.
      * destruct (match rq_cmd q with Some c => _ | None => false end).
        { injection H as <- _ <-. split; [exact H1|discriminate]. }
        destruct (idle_turn h i (mkProc s (dp_last p))) as [p2 f2] eqn:IT.
        injection H as <- _ <-. apply idle_turn_quiet in IT. cbn in IT.
        pose proof (quiet_counted _ _ IT H2) as C2. split; [apply Le; exact C2|intros _; exact C2].
      * injection H as <- _ <-. split; [exact H1|discriminate].
    + injection H as <- _ <-. split; [exact H1|].
      unfold fate_of. destruct e; discriminate.
  - destruct (idle_turn h i p) as [p2 f2] eqn:IT. injection H as <- _ <-.
    apply idle_turn_quiet in IT. pose proof (quiet_counted _ _ IT C) as C2.
    split; [apply Le; exact C2|intros _; exact C2].
Qed.

Lemma worked_quiet : forall f s, quiet_log s (worked f s).
Proof. intros f s. repeat split. Qed.
Lemma dturn_counted : forall h driver p i p' a f,
  dturn h driver p i = (p', a, f) -> ~ asks "cmp_register" i -> counted (dp_iface p) ->
  (forall k, (attempts k (dp_iface p') <= 3)%nat) /\ (f = DServing -> counted (dp_iface p')).
Proof.
  intros h driver p i p' a f H NA C. refine (main_turn_counted _ _ _ _ _ _ _ H NA _).
  exact (quiet_counted _ _ (worked_quiet _ _) C).
Qed.

Lemma dturns_counted : forall h driver l p p' a f,
  dturns h driver p l = (p', a, f) -> (forall i, In i l -> ~ asks "cmp_register" i) ->
  counted (dp_iface p) -> forall k, (attempts k (dp_iface p') <= 3)%nat.
Proof.
  intros h driver. induction l as [|i l IH]; intros p p' a f H NA C k.
  - injection H as <- _ _. destruct C as [_ C]. destruct (C k). lia.
  - cbn in H. destruct (dturn h driver p i) as [[p1 a1] f1] eqn:T.
    destruct (dturn_counted _ _ _ _ _ _ _ T (NA i (or_introl eq_refl)) C) as [B1 B2].
    destruct f1.
    + destruct (dturns h driver p1 l) as [[p2 a2] f2] eqn:R. injection H as <- _ _.
      exact (IH _ _ _ _ R (fun j I => NA j (or_intror I)) (B2 eq_refl) k).
    + injection H as <- _ _. apply B1.
    + injection H as <- _ _. apply B1.
    + injection H as <- _ _. apply B1.
Qed.

Lemma new_counted : forall imi c, counted (new_iface V21 imi c).
Proof. intros. split; [reflexivity|]. intros k. cbn. lia. Qed.

(** A registered component is left alone. *)
Lemma boot_skips : forall h driver c s d,
  kget (i_devmap s) (Some (dc_address c), Some (dc_channel c)) = Some d ->
  boot_component h driver c s = (s, Ok tt).
Proof.
  intros h driver c s d H. unfold boot_component.
  destruct (negb (String.eqb (dc_driver c) driver)); [reflexivity|].
  unfold mbind, mget. rewrite H. reflexivity.
Qed.

Lemma boot_keeps : forall h driver c s s' r k d,
  boot_component h driver c s = (s', r) -> kget (i_devmap s) k = Some d ->
  kget (i_devmap s') k = Some d.
Proof.
  intros h driver c s s' r k d H K. unfold boot_component in H.
  destruct (negb (String.eqb (dc_driver c) driver)); [injection H as <- _; exact K|].
  set (k0 := (Some (dc_address c), Some (dc_channel c))) in *.
  unfold mbind, mget, mput in H.
  destruct (kget (i_devmap s) k0) eqn:K0; [injection H as <- _; exact K|].
  destruct (match i_ver s with V20 => false | V21 => _ end); [injection H as <- _; exact K|].
  match type of H with context [cmp_register h ?p ?s1] => destruct (cmp_register h p s1) as [s2 rr] eqn:R end.
  assert (s2 = s') by (destruct rr; injection H as <- _; reflexivity). subst s2.
  apply register_cases in R as (_ & _ & _ & D & _).
  rewrite D; [exact K|]. intros ->. change (kget (i_devmap s) k0 = Some d) in K. congruence.
Qed.

Lemma bootstrap_keeps : forall h driver l s s' r k d,
  bootstrap h driver l s = (s', r) -> kget (i_devmap s) k = Some d ->
  kget (i_devmap s') k = Some d.
Proof.
  intros h driver. unfold bootstrap. induction l as [|c l IH]; intros s s' r k d H K.
  - injection H as <- _. exact K.
  - cbn in H. unfold mbind in H. destruct (boot_component h driver c s) as [s1 [u|e]] eqn:B.
    + exact (IH _ _ _ _ _ H (boot_keeps _ _ _ _ _ _ _ _ B K)).
    + injection H as <- _. exact (boot_keeps _ _ _ _ _ _ _ _ B K).
Qed.

Lemma register_resets : forall h p s s' rep, i_ver s = V21 ->
  cmp_register h p s = (s', Ok rep) -> dr_ok rep = true ->
  retries_of s' (rp_address p, rp_channel p) = 0 /\
  attempts (rp_address p, rp_channel p) s' = 0%nat.
Proof.
  intros h p s s' rep V H T. apply register_cases in H as (_ & _ & _ & _ & H).
  destruct H as [(_ & L & R & _)|(F & _)]; [|congruence].
  rewrite V in R. split.
  - rewrite (retries_kset _ _ _ _ R). unfold key_of. rewrite key_eqb_refl. reflexivity.
  - unfold attempts. rewrite L, rev_app_distr. cbn. rewrite key_eqb_refl. reflexivity.
Qed.
