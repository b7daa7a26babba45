(** * IfaceProofs8: failing requests and measurements (C71, C72, C96) *)
From Coq Require Import List String ZArith Bool Lia.
From Verif Require Import Base BaseFacts Types AttrModel IfaceModel SpecIface SpecIface2 IfaceProofs IfaceProofs2 IfaceProofs3
  IfaceProofs4 IfaceProofs5 IfaceProofs6 IfaceProofs7.
Import ListNotations.
Open Scope string_scope.
Open Scope Z_scope.

Lemma logged_type A (m : M A) s s' e : m s = (s', Err e) -> e <> ValueError -> e <> AttributeError -> e <> Blocked ->
  log_errors m s = (s', Err SystemExit).
Proof. intros E N1 N2 N3. unfold log_errors. rewrite E. destruct e; congruence. Qed.
Section Fatal.
  Variables (h : hw) (s : iface) (p : rparams) (d : device).
  Hypothesis K : kget (i_devmap s) (keyof p) = Some d.

  Lemma get_attr_none : rp_attr p = None -> cmp_get_attr h p s = (s, Err SystemExit).
  Proof.
    intros A. unfold cmp_get_attr. eapply logged_type; [rewrite (wrapped _ _ s _ d K eq_refl), A; reflexivity|..]; discriminate.
  Qed.
  Lemma set_attr_none : rp_attr p = None \/ rp_val p = None -> cmp_set_attr h p s = (s, Err SystemExit).
  Proof.
    intros A. unfold cmp_set_attr. apply (logged_type _ _ s s TypeError); [rewrite (wrapped _ _ s _ d K eq_refl)|discriminate..].
    destruct (rp_attr p); [|reflexivity]. destruct A as [A|A]; [discriminate A|]. rewrite A. reflexivity.
  Qed.
  Lemma set_attr20_none : rp_attr p = None \/ rp_val p = None -> cmp_set_attr20 h p s = (s, Err SystemExit).
  Proof.
    intros A. unfold cmp_set_attr20. apply (logged_type _ _ s s TypeError); [rewrite (wrapped _ _ s _ d K eq_refl)|discriminate..].
    destruct (rp_attr p); [|reflexivity]. destruct A as [A|A]; [discriminate A|]. rewrite A. reflexivity.
  Qed.
  Lemma start_none : rp_task p = None -> task_start h p s = (s, Err SystemExit) /\ task_start20 h p s = (s, Err SystemExit)
    /\ iface_validate h p s = (s, Err SystemExit) /\ iface_validate20 h p s = (s, Err SystemExit).
  Proof.
    intros A. unfold task_start, task_start20, iface_validate at 2, iface_validate20 at 2.
    repeat split; (eapply logged_type; [rewrite (wrapped _ _ s _ d K eq_refl), A; reflexivity|..]; discriminate).
  Qed.
  Lemma status_attr : rp_attr p <> None -> (exists n a, In (n, a) (h_attrs h (keyof p)) /\ at_status a = true) ->
    cmp_status h p s = (s, Err SystemExit).
  Proof.
    intros A (n & a & I & S). unfold cmp_status. apply (logged_type _ _ s s TypeError); [rewrite (wrapped _ _ s _ d K eq_refl)|discriminate..].
    rewrite (mbind_ok _ _ _ _ _ _ _ (device_at_some _ _ _ K)).
    assert (E : existsb (fun na => at_status (snd na)) (h_attrs h (keyof p)) = true).
    { apply existsb_exists. exists (n, a). split; [exact I|exact S]. }
    unfold mbind at 1, twice. rewrite E. destruct (rp_attr p); [reflexivity|congruence].
  Qed.
  Lemma teardown_run : i_ver s = V21 -> rp_do_run p <> None -> exists s', cmp_teardown p s = (s', Err SystemExit).
  Proof.
    intros V A. unfold cmp_teardown.
    destruct (expected_component h "task_status" (with_key (keyof p)) s d _ _ K eq_refl) as (_ & s1 & E1 & K1 & S1).
    assert (V1 : i_ver s1 = V21) by (rewrite (proj1 S1); exact V).
    destruct (expected_component h "task_stop" (with_key (keyof p)) s1 d _ _ K1 eq_refl) as (_ & s2 & E2 & K2 & S2).
    exists s2. apply (logged_type _ _ s s2 TypeError); [rewrite (wrapped _ _ s _ d K eq_refl)|discriminate..].
    unfold component_method in E1, E2. rewrite V in E1. rewrite V1 in E2. unfold method21 in E1, E2.
    cbn [String.eqb Ascii.eqb Bool.eqb] in E1, E2.
    rewrite (mbind_ok _ _ _ _ _ _ _ E1), (mbind_ok _ _ _ _ _ _ _ E2).
    destruct (rp_do_run p); [reflexivity|congruence].
  Qed.
End Fatal.

Lemma wrong_handle h driver i q s d : kget (i_devmap s) (target q) = Some d -> wrong_arguments h (i_ver s) q ->
  exists s', handle h driver i q s = (s', Err SystemExit).
Proof.
  intros K W. unfold wrong_arguments in W. rewrite target_keyof in K, W. fold (params q) in K, W.
  assert (C : exists c, rq_cmd q = Some c /\ In c component_methods /\ exists s', component_method h c (params q) s = (s', Err SystemExit)).
  { unfold component_method. destruct W as [(c & C & I & A)|[(C & A)|[(c & C & I & A)|[(C & A & X)|(V & C & A)]]]].
    - exists c. split; [exact C|]. split; [apply mem_In; destruct I as [<-|[<-|[]]]; reflexivity|]. exists s.
      destruct I as [<-|[<-|[]]]; unfold method20, method21; cbn [String.eqb Ascii.eqb Bool.eqb]; destruct (i_ver s).
      1,2: eapply get_attr_none; eassumption.
      all: first [eapply set_attr_none; [exact K|left; exact A] | eapply set_attr20_none; [exact K|left; exact A]].
    - eexists. split; [exact C|]. split; [apply mem_In; reflexivity|]. exists s.
      unfold method20, method21; cbn [String.eqb Ascii.eqb Bool.eqb]; destruct (i_ver s).
      all: first [eapply set_attr_none; [exact K|right; exact A] | eapply set_attr20_none; [exact K|right; exact A]].
    - exists c. split; [exact C|]. split; [apply mem_In; destruct I as [<-|[<-|[]]]; reflexivity|]. exists s.
      destruct (start_none h s _ d K A) as (A1 & A2 & A3 & A4).
      destruct I as [<-|[<-|[]]]; unfold method20, method21; cbn [String.eqb Ascii.eqb Bool.eqb]; destruct (i_ver s); assumption.
    - eexists. split; [exact C|]. split; [apply mem_In; reflexivity|]. exists s.
      unfold method20, method21; cbn [String.eqb Ascii.eqb Bool.eqb]; destruct (i_ver s); eapply status_attr; eassumption.
    - eexists. split; [exact C|]. split; [apply mem_In; reflexivity|].
      destruct (teardown_run h s _ d K V A) as (s' & E). exists s'.
      rewrite V. unfold method21. cbn [String.eqb Ascii.eqb Bool.eqb]. exact E. }
  destruct C as (c & C & I & s' & E). exists s'. rewrite (component_dispatch _ _ _ _ _ _ C I).
  fold (params q). rewrite E. reflexivity.
Qed.
Lemma wrong_turn h driver p i q : ti_req i = Some q -> registered (dp_iface p) (target q) ->
  wrong_arguments h (i_ver (dp_iface p)) q ->
  exists p', dturn h driver p i = (p', None, DDied SystemExit).
Proof.
  intros Q (d & I) W. unfold dturn, main_turn. rewrite Q. cbn [dp_iface dp_last].
  assert (K : kget (i_devmap (worked (ti_work i) (dp_iface p))) (target q) <> None).
  { apply worked_known. intros X. revert X I. generalize (i_devmap (dp_iface p)). intros m X I.
    induction m as [|[k v] m IH]; [destruct I|]. cbn in X. destruct (key_eqb (target q) k) eqn:E; [discriminate X|].
    destruct I as [I|I]; [|exact (IH X I)]. injection I as -> _. rewrite key_eqb_refl in E. discriminate E. }
  destruct (kget (i_devmap (worked (ti_work i) (dp_iface p))) (target q)) as [d'|] eqn:K'; [|congruence].
  destruct (wrong_handle h driver i q (worked (ti_work i) (dp_iface p)) d' K' W) as (s' & E). rewrite E.
  eexists. reflexivity.
Qed.

(** ** Measuring on a 2.0 component *)
Lemma measure20_lemma h driver i q s d : plain_measure h -> rq_cmd q = Some "cmp_measure" ->
  kget (i_devmap s) (target q) = Some d -> i_ver s = V20 ->
  exists s' b, handle h driver i q s = (s', Ok (mkReply b RNone)) /\ (b = true <-> v_running d = None) /\
    kget (i_devmap s') (target q) = Some (if b then mkDev (v_serial d) None (v_tasks d) (v_data d) (v_last d) false true else d).
Proof.
  intros P C K V. rewrite target_keyof in *. fold (params q) in *. set (p := params q) in *.
  rewrite (component_dispatch _ _ _ _ _ _ C) by (apply mem_In; reflexivity). fold (params q). fold p.
  unfold component_method. rewrite V. unfold method20. cbn [String.eqb Ascii.eqb Bool.eqb].
  assert (K1 : kget (i_devmap (count_call s)) (keyof p) = Some d) by exact K.
  assert (X : exists s' b, cmp_measure20 h p s = (s', Ok (mkReply b RNone)) /\ (b = true <-> v_running d = None) /\
    kget (i_devmap s') (keyof p) = Some (if b then mkDev (v_serial d) None (v_tasks d) (v_data d) (v_last d) false true else d)).
  { unfold cmp_measure20. destruct (v_running d) as [it|] eqn:R.
    - exists (count_call s), false. split; [|split; [split; discriminate|exact K1]].
      apply logged_ok. rewrite (wrapped _ _ s _ d K eq_refl). unfold mbind at 1, call. rewrite P.
      rewrite (mbind_ok _ _ _ _ _ _ _ (device_at_some _ _ _ K1)), R. reflexivity.
    - eexists. exists true. split; [|split; [split; auto|apply kget_set_same]].
      apply logged_ok. rewrite (wrapped _ _ s _ d K eq_refl). unfold mbind at 1, call. rewrite P.
      rewrite (mbind_ok _ _ _ _ _ _ _ (device_at_some _ _ _ K1)), R.
      rewrite (mbind_ok _ _ _ _ _ _ _ (upd_at _ _ _ _ K1)), R. reflexivity. }
  destruct X as (s' & b & E & X). exists s', b. split; [rewrite E; reflexivity|exact X].
Qed.

(** ** The status of a component *)
Lemma dset_new {A} (v : A) : forall l n, ~ In n (map fst l) -> dset l n v = (l ++ [(n, v)])%list.
Proof.
  induction l as [|[m w] l IH]; intros n N; [reflexivity|]. cbn. destruct (String.eqb_spec n m) as [->|E].
  - exfalso. apply N. left. reflexivity.
  - rewrite IH; [reflexivity|]. intros I. apply N. right. exact I.
Qed.
Lemma read_status_ok h k value : (forall n x, h_get h n k x = Ok (value x)) ->
  forall l acc s, NoDup (map fst acc ++ map fst l) ->
  exists s', read_status h k l acc s = (s', Ok (acc ++ status_of l value)%list) /\ i_devmap s' = i_devmap s.
Proof.
  intros H. induction l as [|[n a] l IH]; intros acc s N; cbn [read_status].
  - exists s. rewrite app_nil_r. split; reflexivity.
  - unfold status_of. cbn [filter snd]. destruct (at_status a).
    + unfold mbind at 1, call. rewrite H. cbn [map fst] in *. rewrite dset_new.
      2:{ intros I. apply NoDup_remove in N as [_ N]. apply N, in_or_app. left. exact I. }
      destruct (IH (acc ++ [(n, value n)])%list (count_call s)) as (s' & E & D).
      { rewrite map_app, <- app_assoc. exact N. }
      exists s'. rewrite E, <- app_assoc. split; [reflexivity|exact D].
    + destruct (IH acc s) as (s' & E & D); [|exists s'; split; assumption].
      cbn [map] in N. apply NoDup_remove in N as [N _]. exact N.
Qed.
Lemma status_lemma h driver i q s d value : rq_cmd q = Some "cmp_status" -> rp_attr (params q) = None ->
  kget (i_devmap s) (target q) = Some d -> NoDup (map fst (h_attrs h (target q))) ->
  (forall n x, h_get h n (target q) x = Ok (value x)) ->
  exists s', handle h driver i q s = (s', Ok (mkReply true (RStatus (status_of (h_attrs h (target q)) value) (is_some (v_running d)))))
    /\ i_devmap s' = i_devmap s.
Proof.
  intros C A K N H. rewrite target_keyof in *. fold (params q) in *. set (p := params q) in *.
  rewrite (component_dispatch _ _ _ _ _ _ C) by (apply mem_In; reflexivity). fold (params q). fold p.
  destruct (read_status_ok h (keyof p) value H (h_attrs h (keyof p)) [] s N) as (s' & E & D).
  assert (X : cmp_status h p s = (s', Ok (mkReply true (RStatus (status_of (h_attrs h (keyof p)) value) (is_some (v_running d)))))).
  { unfold cmp_status. apply logged_ok. rewrite (wrapped _ _ s _ d K eq_refl), A.
    rewrite (mbind_ok _ _ _ _ _ _ _ (device_at_some _ _ _ K)). cbn [is_some andb].
    unfold mbind at 1, twice. rewrite (mbind_ok _ _ _ _ _ _ _ E). cbn [app].
    rewrite <- D in K. rewrite (mbind_ok _ _ _ _ _ _ _ (device_at_some _ _ _ K)). reflexivity. }
  exists s'. split; [|exact D]. unfold component_method, method20, method21. cbn [String.eqb Ascii.eqb Bool.eqb].
  destruct (i_ver s); rewrite X; reflexivity.
Qed.

(** ** Idle measurements that fail *)
Lemma measure_raises h k s d e : i_ver s = V21 -> kget (i_devmap s) k = Some d -> (forall n, h_measure h n k = Some e) ->
  e <> Blocked ->
  component_method h "cmp_measure" (with_key k) s =
    (count_call s, Err (match e with ValueError => ValueError | AttributeError => AttributeError | _ => SystemExit end)).
Proof.
  intros V K H B. unfold component_method. rewrite V. change (method21 h "cmp_measure" (with_key k)) with (cmp_measure h (with_key k)).
  unfold cmp_measure, log_errors. rewrite (wrapped _ (with_key k) s k d K eq_refl). unfold mbind at 1, call. rewrite H, V.
  destruct e; congruence.
Qed.
Lemma measure_same h k k' s s' r : k' <> k -> component_method h "cmp_measure" (with_key k) s = (s', r) ->
  kget (i_devmap s') k' = kget (i_devmap s) k'.
Proof.
  intros N E.
  set (i := mkTurn None [] None 0 (fun _ d => d)). set (q := mkReq (Some "cmp_measure") (Some (with_key k))).
  assert (I : In "cmp_measure" component_requests) by (apply mem_In; reflexivity).
  assert (X : exists r', handle h "" i q s = (s', r')).
  { rewrite (component_dispatch h "" i q "cmp_measure" s eq_refl) by (apply mem_In; reflexivity).
    cbn [rq_params q]. rewrite E. destruct r as [a|e]; [eexists; reflexivity|]. destruct e; eexists; reflexivity. }
  destruct X as (r' & X). exact (C96_others_lemma h "" i q "cmp_measure" s s' r' eq_refl I X k' N).
Qed.
Lemma measure_ok1 h l k s : (forall n, h_measure h n k = None) -> has_keys l s -> In k l ->
  exists s' r, component_method h "cmp_measure" (with_key k) s = (s', Ok r) /\ has_keys l s'.
Proof.
  intros PM [V HK] I. unfold component_method. rewrite V.
  change (method21 h "cmp_measure" (with_key k)) with (cmp_measure h (with_key k)).
  unfold cmp_measure, log_errors, in_devmap. cbn [rp_key with_key].
  destruct (kget (i_devmap s) k) as [d|] eqn:K; [|exfalso; apply (HK k I); exact K].
  unfold mbind, call. rewrite PM.
  assert (K1 : device_at k (count_call s) = (count_call s, Ok d)) by (apply device_at_some; exact K).
  rewrite K1.
  destruct (v_running d); [|destruct (v_tasks d)].
  - eexists _, _. split; [reflexivity|]. split; [exact V|exact HK].
  - eexists _, _. split; [reflexivity|]. split; [exact V|].
    intros k' I'. unfold mput, set_devmap. cbn [i_devmap count_call]. rewrite K. rewrite kget_kset.
    destruct (key_eqb k' k); [discriminate|apply HK; exact I'].
  - eexists _, _. split; [reflexivity|]. split; [exact V|exact HK].
Qed.
Definition passed (e : exn) : exn :=
  match e with ValueError => ValueError | AttributeError => AttributeError | _ => SystemExit end.
Lemma measures_fail h l0 k e l2 : (forall n, h_measure h n k = Some e) -> e <> Blocked -> In k l0 ->
  forall l1 s, (forall n k', In k' l1 -> h_measure h n k' = None) -> has_keys l0 s -> incl l1 l0 ->
  exists s', mfor (l1 ++ k :: l2) (fun k => mbind (component_method h "cmp_measure" (with_key k)) (fun _ => ret tt)) s
             = (s', Err (passed e)) /\ forall k', ~ In k' l1 -> kget (i_devmap s') k' = kget (i_devmap s) k'.
Proof.
  intros He B Ik. induction l1 as [|k1 l1 IH]; intros s Hn HK IN; cbn [app mfor].
  - destruct HK as [V HK]. destruct (kget (i_devmap s) k) as [d|] eqn:K; [|exfalso; exact (HK k Ik K)].
    exists (count_call s). split; [|reflexivity]. unfold mbind at 1 2. rewrite (measure_raises h k s d e V K He B). reflexivity.
  - destruct (measure_ok1 h l0 k1 s (fun n => Hn n k1 (or_introl eq_refl)) HK (IN k1 (or_introl eq_refl))) as (s1 & r & E & HK1).
    destruct (IH s1 (fun n k' I => Hn n k' (or_intror I)) HK1 (fun x I => IN x (or_intror I))) as (s' & E' & S).
    exists s'. split.
    + unfold mbind at 1 2. rewrite E. unfold ret at 1. exact E'.
    + intros k' N. rewrite S by (intros X; apply N; right; exact X). eapply measure_same; [|exact E].
      intros ->. apply N. left. reflexivity.
Qed.
Lemma in_kget (m : list (key * device)) k : In k (map fst m) -> kget m k <> None.
Proof.
  induction m as [|[k1 d] m IH]; intros I; [destruct I|]. cbn. destruct (key_eqb k k1) eqn:E; [discriminate|].
  apply IH. destruct I as [I|I]; [|exact I]. cbn in I. subst k1. rewrite key_eqb_refl in E. discriminate E.
Qed.
Lemma idle_fail h p i l1 k l2 e : i_ver (dp_iface p) = V21 -> due (dp_iface p) (dp_last p) (ti_clock i) ->
  map fst (i_devmap (dp_iface p)) = (l1 ++ k :: l2)%list ->
  (forall n k', In k' l1 -> h_measure h n k' = None) -> (forall n, h_measure h n k = Some e) -> e <> Blocked ->
  exists s', (forall k', ~ In k' l1 -> kget (i_devmap s') k' = kget (i_devmap (dp_iface p)) k') /\
    idle_turn h i p = (mkProc s' (dp_last p),
      match e with ValueError | AttributeError => DServing | _ => DDied SystemExit end).
Proof.
  intros V (dd & Ed & D) M Hn He B. unfold idle_turn, idle_measurements, mbind at 1, mget. cbv beta iota.
  unfold interval_of. rewrite Ed.
  assert (X : match dp_last p with Some t => ti_clock i - t <? dd | None => false end = false).
  { destruct (dp_last p); [apply Z.ltb_ge; exact D|reflexivity]. }
  rewrite X. rewrite M.
  destruct (measures_fail h (l1 ++ k :: l2) k e l2 He B (in_elt k l1 l2) l1 (note (EvRound (ti_clock i)) (dp_iface p)) Hn) as (s' & E & S).
  { split; [exact V|]. intros k' I. change (i_devmap (note _ _)) with (i_devmap (dp_iface p)). apply in_kget. rewrite M. exact I. }
  { intros x I. apply in_or_app. left. exact I. }
  exists s'. split; [exact S|]. unfold mbind at 1, mput. unfold mbind at 1. rewrite E.
  destruct e; try congruence; reflexivity.
Qed.
