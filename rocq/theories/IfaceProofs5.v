(** * IfaceProofs5: what component requests change and answer (C96) *)
From Coq Require Import List String ZArith Bool Lia.
From Verif Require Import Base BaseFacts Types AttrModel IfaceModel SpecIface IfaceProofs IfaceProofs2 IfaceProofs3 IfaceProofs4.
Import ListNotations.
Open Scope string_scope.
Open Scope Z_scope.

Definition keyof (p : rparams) : key := match rp_key p with Some k => k | None => (rp_address p, rp_channel p) end.

(** ** Other components *)
Section Others.
  Variable k0 : key.
  Let R := others_same k0.
  Lemma os_refl s : R s s.
  Proof. intros k' _. reflexivity. Qed.
  Lemma os_trans a b c : R a b -> R b c -> R a c.
  Proof. intros H K k' N. rewrite (K k' N). exact (H k' N). Qed.
  Lemma os_same s s' : i_devmap s' = i_devmap s -> R s s'.
  Proof. intros E k' _. rewrite E. reflexivity. Qed.
  Lemma os_upd f s : R s (set_devmap (fun d => match kget d k0 with Some v => kset d k0 (f v) | None => d end) s).
  Proof.
    intros k' N. unfold set_devmap. cbn [i_devmap]. destruct (kget (i_devmap s) k0); [|reflexivity].
    rewrite kget_kset. apply key_eqb_neq in N. rewrite N. reflexivity.
  Qed.
  Lemma os_del s : R s (set_devmap (fun d => kdel d k0) s).
  Proof.
    intros k' N. unfold set_devmap. cbn [i_devmap]. induction (i_devmap s) as [|[k1 d] r IH]; [reflexivity|]. cbn.
    destruct (key_eqb k0 k1) eqn:E.
    - apply key_eqb_eq in E. subst k1. apply key_eqb_neq in N. rewrite N. reflexivity.
    - cbn. rewrite IH. reflexivity.
  Qed.
  Lemma os_in_devmap f p : keyof p = k0 -> frame R (f k0 p) -> frame R (in_devmap f p).
  Proof.
    intros K Hf s s' r. unfold in_devmap. unfold keyof in K. rewrite K. destruct (kget (i_devmap s) k0); [apply Hf|].
    destruct (i_ver s); [|intros [= <- _]; apply os_refl].
    destruct (rp_key p); intros [= <- _]; apply os_refl.
  Qed.
End Others.
Ltac osf := repeat first
    [ apply (frame_ret _ (os_refl _)) | apply (frame_raise _ (os_refl _)) | apply (frame_mget _ (os_refl _))
    | apply (frame_mres _ (os_refl _)) | apply (frame_device_at _ (os_refl _)) | apply (frame_need_arg _ (os_refl _))
    | apply frame_log_errors | apply os_in_devmap; [assumption || reflexivity|]
    | apply (frame_bind _ (os_trans _)); [|intros ?]
    | apply frame_call; intros ?; apply os_same; reflexivity
    | apply frame_mput; intros ?; first [apply os_upd | apply os_del | apply os_same; reflexivity] ].

Lemma os_read h k k0 l : forall acc, frame (others_same k0) (read_status h k l acc).
Proof.
  induction l as [|[n a] r IH]; intros acc; cbn; [osf|]. destruct (at_status a); [|apply IH]. osf. apply IH.
Qed.
Lemma os_data k p : keyof p = k -> frame (others_same k) (task_data p).
Proof. intros K. unfold task_data, upd_device. osf. destruct (v_data _); osf. Qed.
Local Opaque task_data.
Lemma os_stop k p : keyof p = k -> frame (others_same k) (task_stop p).
Proof. intros K. unfold task_stop, upd_device. osf. apply os_data. reflexivity. Qed.
Lemma os_stop20 k p : keyof p = k -> frame (others_same k) (task_stop20 p).
Proof. intros K. unfold task_stop20, upd_device. osf. apply os_data. reflexivity. Qed.
Lemma os_reset k p : keyof p = k -> frame (others_same k) (cmp_reset p).
Proof. intros K. unfold cmp_reset, upd_device. osf. Qed.
Lemma os_reset20 k p : keyof p = k -> frame (others_same k) (cmp_reset20 p).
Proof. intros K. unfold cmp_reset20, upd_device. osf. Qed.
Lemma os_status k p : keyof p = k -> frame (others_same k) (task_status p).
Proof. intros K. unfold task_status. osf. Qed.
Lemma os_status20 k p : keyof p = k -> frame (others_same k) (task_status20 p).
Proof. intros K. unfold task_status20. osf. Qed.
Lemma os_validate k h p : keyof p = k -> frame (others_same k) (iface_validate h p).
Proof. intros K. unfold iface_validate. osf. Qed.
Lemma os_validate20 k h p : keyof p = k -> frame (others_same k) (iface_validate20 h p).
Proof. intros K. unfold iface_validate20. osf. Qed.
Lemma os_thread k : frame (others_same k) (run_thread k).
Proof. unfold run_thread, upd_device. osf. destruct (v_run _); osf. Qed.

Local Opaque task_stop task_stop20 cmp_reset cmp_reset20 task_status task_status20 iface_validate iface_validate20 run_thread read_status.

Lemma os_component h name p : frame (others_same (keyof p)) (component_method h name p).
Proof.
  intros s s' r. unfold component_method.
  assert (K : keyof p = keyof p) by reflexivity. revert K. generalize (keyof p) at 2 3. intros k K.
  destruct (i_ver s); unfold method20, method21;
  repeat match goal with |- (if ?c then _ else _) _ = _ -> _ => destruct c end; revert s s' r;
  match goal with |- forall s s' r, ?m s = (s', r) -> others_same k s s' => change (frame (others_same k) m) end;
  first [apply os_data; assumption|apply os_stop; assumption|apply os_stop20; assumption|apply os_reset; assumption
        |apply os_reset20; assumption|apply os_status; assumption|apply os_status20; assumption
        |apply os_validate; assumption|apply os_validate20; assumption|idtac].
  - unfold cmp_teardown20. osf; [apply os_status20|apply os_stop20|apply os_reset20]; reflexivity.
  - unfold cmp_set_attr20. osf.
  - unfold cmp_get_attr. osf.
  - unfold cmp_status. osf. apply os_read.
  - unfold cmp_capabilities. osf.
  - unfold cmp_attrs. osf.
  - unfold cmp_constants. osf.
  - unfold cmp_last_data. osf. destruct (v_last _); osf.
  - unfold cmp_measure20, upd_device. osf. destruct (v_running _); osf.
  - unfold task_start20, upd_device. osf; [apply os_validate20; reflexivity|]. destruct (negb _); osf. apply os_thread.
  - unfold cmp_teardown. osf; [apply os_status; reflexivity|apply os_stop; reflexivity| |apply os_reset; reflexivity].
    destruct (rp_do_run p); osf.
  - unfold cmp_set_attr. osf.
  - unfold cmp_get_attr. osf.
  - unfold cmp_status. osf. apply os_read.
  - unfold cmp_capabilities. osf.
  - unfold cmp_attrs. osf.
  - unfold cmp_constants. osf.
  - unfold cmp_last_data. osf. destruct (v_last _); osf.
  - unfold cmp_measure, upd_device. osf. match goal with |- context [v_running ?d] => destruct (v_running d), (v_tasks d) end; osf.
  - unfold task_start, upd_device. osf; [apply os_validate; reflexivity|]. destruct (negb _); osf.
Qed.

Lemma target_keyof q : target q = keyof (match rq_params q with Some p => p | None => no_params end).
Proof. unfold target. destruct (rq_params q); reflexivity. Qed.

Lemma C96_others_lemma h driver i q name s s' r : rq_cmd q = Some name -> In name component_requests ->
  handle h driver i q s = (s', r) -> others_same (target q) s s'.
Proof.
  intros C I H. rewrite (component_dispatch _ _ _ _ _ _ C I) in H. rewrite target_keyof.
  destruct (component_method h name _ s) as [s1 r1] eqn:E.
  assert (X : s1 = s') by (destruct r1 as [|[]]; congruence). subst s1. exact (os_component _ _ _ _ _ _ E).
Qed.

Local Transparent task_status task_status20 iface_validate iface_validate20.
(** ** Questions change no component *)
Definition same_map (s s' : iface) : Prop :=
  i_ver s' = i_ver s /\ i_devmap s' = i_devmap s /\ i_retries s' = i_retries s /\ i_imi s' = i_imi s /\ i_log s' = i_log s.
Lemma sm_refl s : same_map s s.
Proof. repeat split. Qed.
Lemma sm_trans a b c : same_map a b -> same_map b c -> same_map a c.
Proof. unfold same_map. intuition congruence. Qed.
Ltac smf := frames sm_refl sm_trans; try (repeat split; fail).
Local Transparent read_status.
Lemma sm_read h k l : forall acc, frame same_map (read_status h k l acc).
Proof.
  induction l as [|[n a] r IH]; intros acc; cbn; [smf|]. destruct (at_status a); [|apply IH]. smf. apply IH.
Qed.
Local Opaque read_status.
Lemma sm_call h name p : In name questions -> frame same_map (call_attribute h name p).
Proof.
  intros I.
  assert (G : frame same_map (cmp_get_attr h p)) by (unfold cmp_get_attr; smf).
  assert (S : frame same_map (cmp_status h p)) by (unfold cmp_status; smf; apply sm_read).
  assert (C : frame same_map (cmp_capabilities h p)) by (unfold cmp_capabilities; smf).
  assert (A : frame same_map (cmp_attrs h p)) by (unfold cmp_attrs; smf).
  assert (K : frame same_map (cmp_constants p)) by (unfold cmp_constants; smf).
  assert (L : frame same_map (cmp_last_data p)) by (unfold cmp_last_data; smf; destruct (v_last _); smf).
  assert (T : frame same_map (task_status p)) by (unfold task_status; smf).
  assert (T0 : frame same_map (task_status20 p)) by (unfold task_status20; smf).
  assert (V : frame same_map (iface_validate h p)) by (unfold iface_validate; smf).
  assert (V0 : frame same_map (iface_validate20 h p)) by (unfold iface_validate20; smf).
  assert (U : frame same_map (iface_status p)) by (unfold iface_status; smf; apply no_args_frame; apply sm_refl).
  unfold questions in I. cbn [In] in I.
  repeat (destruct I as [<-|I]; [intros s s' r; unfold call_attribute, component_method;
    match goal with |- context [mem ?x ?l] => let b := eval vm_compute in (mem x l) in change (mem x l) with b end;
    cbv iota beta; try (destruct (i_ver s); unfold method20, method21; cbn [String.eqb Ascii.eqb Bool.eqb]);
    match goal with |- ?m s = _ -> _ => match goal with H : frame same_map m |- _ => exact (H s s' r) end
                                      | |- (?m p) s = _ -> _ => match goal with H : frame same_map (m p) |- _ => exact (H s s' r) end end|]).
  destruct I.
Qed.
Lemma C96_reads_lemma h driver i q name s s' r : rq_cmd q = Some name -> In name questions ->
  handle h driver i q s = (s', r) -> same_map s s'.
Proof.
  intros C I H. unfold handle in H. rewrite C in H.
  assert (N : forall x, mem x questions = false -> String.eqb name x = false).
  { intros x X. apply String.eqb_neq. intros ->. apply mem_In in I. congruence. }
  rewrite (N "register"), (N "stop"), (N "settings"), (N "cmp_register") in H by reflexivity.
  unfold mbind, mget in H. destruct (has_attribute h (i_ver s) name).
  - destruct (call_attribute h name _ s) as [s1 r1] eqn:E.
    assert (X : s1 = s') by (destruct r1 as [|[]]; congruence). subst s1. exact (sm_call _ _ _ I _ _ _ E).
  - injection H as <- _. apply sm_refl.
Qed.

(** ** Answers *)
Local Transparent task_data task_stop task_stop20 cmp_reset cmp_reset20.
Definition rest_same (s s' : iface) : Prop :=
  i_ver s' = i_ver s /\ i_retries s' = i_retries s /\ i_imi s' = i_imi s /\ i_log s' = i_log s.
Lemma data_eq s k d p : kget (i_devmap s) k = Some d -> keyof p = k ->
  task_data p s = (set_devmap (fun m => kset m k (without_data d)) s, Ok (mkReply (any (v_data d)) (points (v_data d)))).
Proof.
  intros K E. unfold task_data. apply logged_ok. rewrite (wrapped _ _ s k d K E).
  rewrite (mbind_ok _ _ _ _ _ _ _ (device_at_some _ _ _ K)), (mbind_ok _ _ _ _ _ _ _ (upd_at _ _ _ _ K)).
  unfold without_data. destruct (v_data d); reflexivity.
Qed.
Lemma expected_component h name p s d d' rep : kget (i_devmap s) (keyof p) = Some d ->
  expected (i_ver s) (h_attrs h (keyof p)) name p d = Some (d', rep) ->
  In name component_requests /\
  exists s', component_method h name p s = (s', Ok rep) /\ kget (i_devmap s') (keyof p) = Some d' /\ rest_same s s'.
Proof.
  intros K. set (k := keyof p) in *. assert (E : keyof p = k) by reflexivity.
  unfold expected, component_method. cbv zeta.
  repeat match goal with |- (if String.eqb name ?x then _ else _) = _ -> _ =>
    destruct (String.eqb_spec name x) as [->|_] end; intros H; try discriminate H; injection H as <- <-;
  (split; [apply mem_In; reflexivity|]).
  - exists s. split; [|split; [exact K|repeat split]].
    destruct (i_ver s) eqn:V; unfold method20, method21; cbn [String.eqb Ascii.eqb Bool.eqb];
      apply logged_ok; rewrite (wrapped _ _ s k d K E);
      rewrite (mbind_ok _ _ _ _ _ _ _ (device_at_some _ _ _ K)); reflexivity.
  - eexists. split; [|split; [apply kget_set_same|repeat split]].
    destruct (i_ver s) eqn:V; unfold method20, method21; cbn [String.eqb Ascii.eqb Bool.eqb]; apply data_eq; assumption.
  - destruct (i_ver s) eqn:V; (eexists; split;
      [unfold method20, method21; cbn [String.eqb Ascii.eqb Bool.eqb];
       apply logged_ok; rewrite (wrapped _ _ s k d K E);
       rewrite (mbind_ok _ _ _ _ _ _ _ (device_at_some _ _ _ K)), (mbind_ok _ _ _ _ _ _ _ (upd_at _ _ _ _ K));
       (erewrite mbind_ok by (apply data_eq; [apply kget_set_same|reflexivity])); reflexivity
      |split; [apply kget_set_same|repeat split]]); exact V.
  - eexists. split; [|split; [apply kget_set_same|]].
    + destruct (i_ver s) eqn:V; unfold method20, method21; cbn [String.eqb Ascii.eqb Bool.eqb];
        apply logged_ok; rewrite (wrapped _ _ s k d K E);
        rewrite (mbind_ok _ _ _ _ _ _ _ (device_at_some _ _ _ K)), (mbind_ok _ _ _ _ _ _ _ (upd_at _ _ _ _ K)).
      * reflexivity.
      * unfold reset_device. destruct (rp_do_run p); reflexivity.
    + repeat split.
  - exists s. split; [|split; [exact K|repeat split]].
    destruct (i_ver s) eqn:V; unfold method20, method21; cbn [String.eqb Ascii.eqb Bool.eqb];
      apply logged_ok; rewrite (wrapped _ _ s k d K E);
      rewrite (mbind_ok _ _ _ _ _ _ _ (device_at_some _ _ _ K)); reflexivity.
  - exists s. split; [|split; [exact K|repeat split]].
    destruct (i_ver s) eqn:V; unfold method20, method21; cbn [String.eqb Ascii.eqb Bool.eqb];
      apply logged_ok; rewrite (wrapped _ _ s k d K E);
      rewrite (mbind_ok _ _ _ _ _ _ _ (device_at_some _ _ _ K)); reflexivity.
  - exists s. split; [|split; [exact K|repeat split]].
    destruct (i_ver s) eqn:V; unfold method20, method21; cbn [String.eqb Ascii.eqb Bool.eqb];
      apply logged_ok; rewrite (wrapped _ _ s k d K E);
      rewrite (mbind_ok _ _ _ _ _ _ _ (device_at_some _ _ _ K)); destruct (v_last d); reflexivity.
Qed.
Lemma C96_answers_lemma h driver i q name s d d' rep : rq_cmd q = Some name ->
  kget (i_devmap s) (target q) = Some d ->
  expected (i_ver s) (h_attrs h (target q)) name (match rq_params q with Some p => p | None => no_params end) d = Some (d', rep) ->
  exists s', handle h driver i q s = (s', Ok rep) /\ kget (i_devmap s') (target q) = Some d' /\
    others_same (target q) s s' /\ rest_same s s'.
Proof.
  intros C K X. rewrite target_keyof in K, X. destruct (expected_component _ _ _ _ _ _ _ K X) as (I & s' & E & K' & S).
  assert (H : handle h driver i q s = (s', Ok rep)) by (rewrite (component_dispatch _ _ _ _ _ _ C I), E; reflexivity).
  exists s'. split; [exact H|]. rewrite target_keyof at 1. split; [exact K'|]. split; [|exact S].
  exact (C96_others_lemma _ _ _ _ _ _ _ _ C I H).
Qed.
(** Measuring, with the class's own [cmp_measure]. *)
Lemma C96_measure_lemma h driver i q s d : plain_measure h -> rq_cmd q = Some "cmp_measure" ->
  kget (i_devmap s) (target q) = Some d -> i_ver s = V21 ->
  exists s' b, handle h driver i q s = (s', Ok (mkReply b RNone)) /\
    (b = true <-> v_running d = None /\ v_tasks d = []) /\
    kget (i_devmap s') (target q) = Some (mkDev (v_serial d) (v_running d) (v_tasks d ++ if b then [IMeasure] else [])
                                              (v_data d) (v_last d) (v_run d) (v_run_task d)).
Proof.
  intros P C K V. rewrite target_keyof in *. set (p := match rq_params q with Some p => p | None => no_params end) in *.
  rewrite (component_dispatch _ _ _ _ _ _ C) by (apply mem_In; reflexivity). fold p.
  unfold component_method. rewrite V. unfold method21. cbn [String.eqb Ascii.eqb Bool.eqb].
  assert (K1 : kget (i_devmap (count_call s)) (keyof p) = Some d) by exact K.
  assert (D : forall x y, cmp_measure h p s = (x, Ok y) -> 
    match cmp_measure h p s with
    | (s', Err ValueError) | (s', Err AttributeError) => (s', Ok (mkReply false RNone))
    | other => other end = (x, Ok y)) by (intros x y ->; reflexivity).
  assert (Q : forall x y, (d <-- device_at (keyof p);;
      match v_running d, v_tasks d with
      | Some _, _ => ret (mkReply false RNone)
      | None, _ :: _ => ret (mkReply false RNone)
      | None, [] =>
          upd_device (keyof p) (fun d => mkDev (v_serial d) (v_running d) (v_tasks d ++ [IMeasure])
                       (v_data d) (v_last d) (v_run d) (v_run_task d)) ;;-
          ret (mkReply true RNone)
      end) (count_call s) = (x, Ok y) -> cmp_measure h p s = (x, Ok y)).
  { intros x y H. unfold cmp_measure. apply logged_ok. rewrite (wrapped _ _ s _ d K eq_refl).
    unfold mbind at 1, call. rewrite P. exact H. }
  destruct (v_running d) as [it|] eqn:R; [|destruct (v_tasks d) as [|t l] eqn:T].
  - exists (count_call s), false. split; [apply D, Q; rewrite (mbind_ok _ _ _ _ _ _ _ (device_at_some _ _ _ K1)), R; reflexivity|].
    split; [split; [discriminate|intros [? _]; discriminate]|].
    rewrite K1, app_nil_r, <- R. destruct d; reflexivity.
  - eexists. exists true. split.
    + apply D, Q. rewrite (mbind_ok _ _ _ _ _ _ _ (device_at_some _ _ _ K1)), R, T.
      rewrite (mbind_ok _ _ _ _ _ _ _ (upd_at _ _ _ _ K1)). reflexivity.
    + split; [split; auto|]. rewrite kget_set_same, R, T. reflexivity.
  - exists (count_call s), false. split; [apply D, Q; rewrite (mbind_ok _ _ _ _ _ _ _ (device_at_some _ _ _ K1)), R, T; reflexivity|].
    split; [split; [discriminate|intros [_ ?]; discriminate]|].
    rewrite K1, app_nil_r, <- R, <- T. destruct d; reflexivity.
Qed.
(** [status] lists the components. *)
Lemma C96_status_lemma h driver i s : handle h driver i (mkReq (Some "status") None) s = (s, Ok (mkReply true (RKeys (map fst (i_devmap s))))).
Proof. reflexivity. Qed.
(** Answers that come from the driver's own code. *)
Lemma C96_driver_lemma h driver i q s d p : kget (i_devmap s) (target q) = Some d -> rq_params q = Some p ->
  (forall caps, rq_cmd q = Some "cmp_capabilities" -> h_caps h (i_calls s) (target q) = Ok caps ->
     snd (handle h driver i q s) = Ok (mkReply true (RNames caps))) /\
  (forall a v, rq_cmd q = Some "cmp_get_attr" -> rp_attr p = Some a -> h_get h (i_calls s) (target q) a = Ok v ->
     snd (handle h driver i q s) = Ok (mkReply true (RVal v))).
Proof.
  intros K Q. rewrite target_keyof, Q in *.
  split.
  - intros caps C H. rewrite (component_dispatch _ _ _ _ _ _ C) by (apply mem_In; reflexivity). rewrite Q.
    assert (X : cmp_capabilities h p s = (count_call s, Ok (mkReply true (RNames caps)))).
    { unfold cmp_capabilities. apply logged_ok. rewrite (wrapped _ _ s _ d K eq_refl).
      rewrite (mbind_ok _ _ _ _ _ _ _ (device_at_some _ _ _ K)). unfold mbind, call. rewrite H. reflexivity. }
    unfold component_method, method20, method21. cbn [String.eqb Ascii.eqb Bool.eqb]. destruct (i_ver s); rewrite X; reflexivity.
  - intros a v C A H. rewrite (component_dispatch _ _ _ _ _ _ C) by (apply mem_In; reflexivity). rewrite Q.
    assert (X : cmp_get_attr h p s = (count_call s, Ok (mkReply true (RVal v)))).
    { unfold cmp_get_attr. apply logged_ok. rewrite (wrapped _ _ s _ d K eq_refl). rewrite A. cbn [need_arg].
      unfold mbind at 1, ret at 1.
      rewrite (mbind_ok _ _ _ _ _ _ _ (device_at_some _ _ _ K)). unfold mbind, call. rewrite H. reflexivity. }
    unfold component_method, method20, method21. cbn [String.eqb Ascii.eqb Bool.eqb]. destruct (i_ver s); rewrite X; reflexivity.
Qed.
