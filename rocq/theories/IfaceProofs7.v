(** * IfaceProofs7: resetting a driver, and requests about the driver that end it (C72, C105) *)
From Coq Require Import List String ZArith Bool Lia.
From Verif Require Import Base BaseFacts Types AttrModel IfaceModel SpecIface IfaceProofs IfaceProofs2 IfaceProofs3
  IfaceProofs4 IfaceProofs5.
Import ListNotations.
Open Scope string_scope.
Open Scope Z_scope.

Lemma kset_mid : forall A (l1 l2 : list (key * A)) k a b, ~ In k (map fst l1) ->
  kset (l1 ++ (k, a) :: l2)%list k b = (l1 ++ (k, b) :: l2)%list.
Proof.
  induction l1 as [|[k1 x] r IH]; intros l2 k a b N; cbn.
  - rewrite key_eqb_refl. reflexivity.
  - cbn in N. destruct (key_eqb k k1) eqn:E.
    + apply key_eqb_eq in E. subst. exfalso. apply N. left. reflexivity.
    + rewrite IH; [reflexivity|]. intros I. apply N. right. exact I.
Qed.
Lemma kget_mid : forall A (l1 l2 : list (key * A)) k a, ~ In k (map fst l1) ->
  kget (l1 ++ (k, a) :: l2)%list k = Some a.
Proof.
  induction l1 as [|[k1 x] r IH]; intros l2 k a N; cbn.
  - rewrite key_eqb_refl. reflexivity.
  - cbn in N. destruct (key_eqb k k1) eqn:E.
    + apply key_eqb_eq in E. subst. exfalso. apply N. left. reflexivity.
    + apply IH. intros I. apply N. right. exact I.
Qed.

Definition with_map (s : iface) (m : list (key * device)) : iface := set_devmap (fun _ => m) s.
Lemma set_with s m f : set_devmap f (with_map s m) = with_map s (f m).
Proof. reflexivity. Qed.
Lemma map_with s m : i_devmap (with_map s m) = m.
Proof. reflexivity. Qed.
Lemma with_same s : with_map s (i_devmap s) = s.
Proof. destruct s; reflexivity. Qed.

Lemma stop_eq s l1 k d l2 : ~ In k (map fst l1) ->
  exists r, task_stop (with_key k) (with_map s (l1 ++ (k, d) :: l2)%list) =
    (with_map s (l1 ++ (k, flagged false (without_data d)) :: l2)%list, Ok r).
Proof.
  intros N. assert (K : kget (i_devmap (with_map s (l1 ++ (k, d) :: l2)%list)) k = Some d) by (apply kget_mid; exact N).
  eexists. unfold task_stop. apply logged_ok. rewrite (wrapped _ _ _ k d K) by reflexivity.
  rewrite (mbind_ok _ _ _ _ _ _ _ (device_at_some _ _ _ K)), (mbind_ok _ _ _ _ _ _ _ (upd_at _ _ _ _ K)).
  erewrite mbind_ok by (apply data_eq; [apply kget_set_same|reflexivity]). unfold ret.
  rewrite !set_with, !kset_mid by exact N. reflexivity.
Qed.
Lemma reset_eq s l1 k d l2 b : ~ In k (map fst l1) ->
  exists r, cmp_reset (mkRp (Some k) None None None None None (Some b) None) (with_map s (l1 ++ (k, d) :: l2)%list) =
    (with_map s (l1 ++ (k, mkDev (v_serial d) None [] [] (v_last d) b false) :: l2)%list, Ok r).
Proof.
  intros N. assert (K : kget (i_devmap (with_map s (l1 ++ (k, d) :: l2)%list)) k = Some d) by (apply kget_mid; exact N).
  eexists. unfold cmp_reset. apply logged_ok. rewrite (wrapped _ _ _ k d K) by reflexivity.
  rewrite (mbind_ok _ _ _ _ _ _ _ (device_at_some _ _ _ K)), (mbind_ok _ _ _ _ _ _ _ (upd_at _ _ _ _ K)).
  unfold ret. rewrite !set_with, !kset_mid by exact N. reflexivity.
Qed.
Lemma reset20_eq s l1 k d l2 : ~ In k (map fst l1) ->
  exists r, cmp_reset20 (with_key k) (with_map s (l1 ++ (k, d) :: l2)%list) =
    (with_map s (l1 ++ (k, mkDev (v_serial d) None [] [] (v_last d) true false) :: l2)%list, Ok r).
Proof.
  intros N. assert (K : kget (i_devmap (with_map s (l1 ++ (k, d) :: l2)%list)) k = Some d) by (apply kget_mid; exact N).
  eexists. unfold cmp_reset20. apply logged_ok. rewrite (wrapped _ _ _ k d K) by reflexivity.
  rewrite (mbind_ok _ _ _ _ _ _ _ (device_at_some _ _ _ K)), (mbind_ok _ _ _ _ _ _ _ (upd_at _ _ _ _ K)).
  unfold ret, reset_device20. rewrite !set_with, !kset_mid by exact N. reflexivity.
Qed.

Definition rested (v : version) (kd : key * device) : key * device := (fst kd, at_rest v (snd kd)).
Lemma rest_loop v s (body : key -> M unit) :
  (forall l1 k d l2, ~ In k (map fst l1) ->
     body k (with_map s (l1 ++ (k, d) :: l2)%list) = (with_map s (l1 ++ (k, at_rest v d) :: l2)%list, Ok tt)) ->
  forall m2 m1, NoDup (map fst (m1 ++ m2)%list) ->
  mfor (map fst m2) body (with_map s (m1 ++ m2)%list) = (with_map s (m1 ++ map (rested v) m2)%list, Ok tt).
Proof.
  intros B. induction m2 as [|[k d] r IH]; intros m1 N; [reflexivity|].
  cbn [map fst mfor]. assert (K : ~ In k (map fst m1)).
  { rewrite map_app in N. cbn in N. apply NoDup_remove_2 in N. intros I. apply N. apply in_or_app. left. exact I. }
  rewrite (mbind_ok _ _ _ _ _ _ _ (B m1 k d r K)).
  replace (m1 ++ (k, at_rest v d) :: r)%list with ((m1 ++ [(k, at_rest v d)]) ++ r)%list by (rewrite <- app_assoc; reflexivity).
  rewrite IH.
  - rewrite <- app_assoc. reflexivity.
  - rewrite <- app_assoc, map_app. rewrite map_app in N. exact N.
Qed.

Lemma iface_reset_eq s : unique_keys s ->
  iface_reset no_params s = (with_map s (map (rested (i_ver s)) (i_devmap s)), Ok (mkReply true RNone)).
Proof.
  intros U. unfold iface_reset. apply logged_ok. cbn [no_args no_params].
  rewrite (mbind_ok _ _ _ _ _ s tt eq_refl), (mbind_ok _ _ _ _ _ s s eq_refl).
  apply mbind_ok with (s' := with_map s (map (rested (i_ver s)) (i_devmap s))) (a := tt).
  match goal with |- mfor _ ?b s = _ => set (body := b) end.
  enough (L : mfor (map fst (i_devmap s)) body (with_map s ([] ++ i_devmap s)%list) =
              (with_map s ([] ++ map (rested (i_ver s)) (i_devmap s))%list, Ok tt)).
  { cbn [app] in L. rewrite with_same in L. exact L. }
  apply (rest_loop (i_ver s) s body); [|exact U]. subst body. cbn beta.
  intros l1 k d l2 N. destruct (i_ver s) eqn:V.
  - assert (K : kget (i_devmap (with_map s (l1 ++ (k, d) :: l2)%list)) k = Some d) by (apply kget_mid; exact N).
    rewrite (mbind_ok _ _ _ _ _ _ _ (upd_at _ _ _ _ K)), set_with, kset_mid by exact N.
    destruct (reset20_eq s l1 k (if v_run d then d else
      mkDev (v_serial d) (v_running d) (v_tasks d) (v_data d) (v_last d) (v_run d) false) l2 N) as [r R].
    rewrite (mbind_ok _ _ _ _ _ _ _ R). unfold ret, at_rest. destruct (v_run d); reflexivity.
  - destruct (stop_eq s l1 k d l2 N) as [r R]. rewrite (mbind_ok _ _ _ _ _ _ _ R).
    destruct (reset_eq s l1 k (flagged false (without_data d)) l2 false N) as [r' R'].
    rewrite (mbind_ok _ _ _ _ _ _ _ R'). reflexivity.
Qed.

Lemma bare_params q : bare q -> match rq_params q with Some p => p | None => no_params end = no_params.
Proof. intros [-> | ->]; reflexivity. Qed.
Lemma C105_reset_lemma h driver i q s : unique_keys s -> bare q ->
  rq_cmd q = Some "reset" \/ rq_cmd q = Some "quit" ->
  handle h driver i q s =
    (set_devmap (map (fun kd => (fst kd, at_rest (i_ver s) (snd kd)))) s, Ok (mkReply true RNone)).
Proof.
  intros U B C. unfold handle.
  destruct C as [-> | ->]; cbn [String.eqb Ascii.eqb Bool.eqb]; rewrite (mbind_ok _ _ _ _ _ s s eq_refl);
    unfold has_attribute; cbn [mem component_methods existsb String.eqb Ascii.eqb Bool.eqb orb]; rewrite (bare_params _ B);
    unfold call_attribute; cbn [mem component_methods existsb String.eqb Ascii.eqb Bool.eqb orb].
  - rewrite (iface_reset_eq s U). reflexivity.
  - cbn [no_args no_params]. rewrite (mbind_ok _ _ _ _ _ s tt eq_refl), (iface_reset_eq s U). reflexivity.
Qed.

(** ** Requests that end the driver *)
Lemma no_args_err p s : p <> no_params -> no_args p s = (s, Err TypeError).
Proof.
  intros N. destruct p as [[|] [|] [|] [|] [|] [|] [|] [|]]; try reflexivity. exfalso. apply N. reflexivity.
Qed.
Lemma bind_err A B (m : M A) (f : A -> M B) s s' e : m s = (s', Err e) -> mbind m f s = (s', Err e).
Proof. intros E. unfold mbind. rewrite E. reflexivity. Qed.
Lemma not_bare q : ~ bare q -> match rq_params q with Some p => p | None => no_params end <> no_params.
Proof.
  intros B E. apply B. unfold bare. destruct (rq_params q); [right; congruence|left; reflexivity].
Qed.
Lemma fatal_handle h driver i q s : fatal_request h (i_ver s) q ->
  (exists e, handle h driver i q s = (s, Err e) /\ (e = KeyError \/ e = TypeError \/ e = SystemExit)) \/
  (exists s', handle h driver i q s = (s', Ok (mkReply true RView))).
Proof.
  unfold fatal_request, handle.
  intros [[C P]|[[C B]|[[C P]|[c (C & I & O)]]]].
  - left. exists KeyError. rewrite P. destruct C as [-> | ->]; cbn; auto.
  - left. pose proof (no_args_err _ s (not_bare _ B)) as A. revert A.
    set (p := match rq_params q with Some p => p | None => no_params end). intros A.
    destruct C as [-> | [-> | ->]]; cbn [String.eqb Ascii.eqb Bool.eqb]; rewrite (mbind_ok _ _ _ _ _ s s eq_refl);
    unfold has_attribute; cbn [mem component_methods existsb String.eqb Ascii.eqb Bool.eqb orb];
    unfold call_attribute; cbn [mem component_methods existsb String.eqb Ascii.eqb Bool.eqb orb].
    + exists SystemExit. unfold iface_status, log_errors. rewrite (bind_err _ _ _ _ _ _ _ A). auto.
    + exists TypeError. rewrite (bind_err _ _ _ _ _ _ _ A). auto.
    + exists SystemExit. unfold iface_reset, log_errors. rewrite (bind_err _ _ _ _ _ _ _ A). auto.
  - rewrite C. cbn [String.eqb Ascii.eqb Bool.eqb]. rewrite (mbind_ok _ _ _ _ _ s s eq_refl);
    unfold has_attribute; cbn [mem component_methods existsb String.eqb Ascii.eqb Bool.eqb orb];
    unfold call_attribute; cbn [mem component_methods existsb String.eqb Ascii.eqb Bool.eqb orb].
    destruct (rq_params q) as [p|]; [|left; exists TypeError; cbn; auto].
    destruct (rp_key p) as [k|]; [|left; exists TypeError; cbn; auto].
    right. cbn. unfold mbind, call. cbn. rewrite P. eexists. reflexivity.
  - left. exists TypeError. split; [|auto]. rewrite C.
    assert (X : In c ["version"; "idle_measurement_interval"; "devmap"; "constants"; "retries"] /\
      has_attribute h (i_ver s) c = true).
    { unfold plain_names in I. unfold has_attribute, data_attributes.
      destruct (i_ver s); cbn in I; repeat (destruct I as [<-|I]; [split; [cbn; tauto|reflexivity]|]); destruct I. }
    destruct X as [X HA].
    destruct X as [<-|[<-|[<-|[<-|[<-|[]]]]]]; cbn [String.eqb Ascii.eqb Bool.eqb];
      rewrite (mbind_ok _ _ _ _ _ s s eq_refl), HA; unfold call_attribute;
      cbn [mem component_methods existsb String.eqb Ascii.eqb Bool.eqb orb]; rewrite O; reflexivity.
Qed.
Lemma C72_fatal_lemma h driver p i q : ti_req i = Some q -> fatal_request h (i_ver (dp_iface p)) q ->
  exists p' e, dturn h driver p i = (p', None, DDied e).
Proof.
  intros Q F. unfold dturn, main_turn. rewrite Q. cbn [dp_iface dp_last].
  assert (V : i_ver (worked (ti_work i) (dp_iface p)) = i_ver (dp_iface p)) by reflexivity. rewrite <- V in F.
  destruct (fatal_handle h driver i q _ F) as [[e [E D]]|[s' E]]; rewrite E.
  - destruct D as [-> | [-> | ->]]; eexists _, _; reflexivity.
  - cbn. eexists _, _. reflexivity.
Qed.
(** Asking for a setting. *)
Lemma settings_lemma h driver i q s p : rq_cmd q = Some "settings" -> rq_params q = Some p ->
  handle h driver i q s = (set_imi (rp_imi p) s, Ok (mkReply true ROther)).
Proof. intros C P. unfold handle. rewrite C, P. reflexivity. Qed.
