(** * IfaceProofs4: starting tasks and tearing components down *)
From Coq Require Import List String ZArith Bool Lia.
From Verif Require Import Base BaseFacts Types AttrModel IfaceModel SpecIface IfaceProofs IfaceProofs2 IfaceProofs3.
Import ListNotations.
Open Scope string_scope.
Open Scope Z_scope.

Lemma upd_at : forall k f s d, kget (i_devmap s) k = Some d ->
  upd_device k f s = (set_devmap (fun m => kset m k (f d)) s, Ok tt).
Proof.
  intros k f s d K. unfold upd_device, mput, set_devmap. rewrite K. reflexivity.
Qed.
Lemma kget_set_devmap : forall s k a k',
  kget (i_devmap (set_devmap (fun m => kset m k a) s)) k' = if key_eqb k' k then Some a else kget (i_devmap s) k'.
Proof. intros s k a k'. apply kget_kset. Qed.
Lemma kget_set_same : forall s k a, kget (i_devmap (set_devmap (fun m => kset m k a) s)) k = Some a.
Proof. intros s k a. rewrite kget_set_devmap, key_eqb_refl. reflexivity. Qed.
Lemma others_kset : forall k a s s', (forall k', kget (i_devmap s) k' = kget (i_devmap s') k') ->
  others_same k s' (set_devmap (fun m => kset m k a) s).
Proof.
  intros k a s s' E k' N. rewrite kget_set_devmap. apply key_eqb_neq in N. rewrite N. apply E.
Qed.
Lemma mbind_ok : forall A B (m : M A) (f : A -> M B) s s' a, m s = (s', Ok a) -> mbind m f s = f a s'.
Proof. intros A B m f s s' a E. unfold mbind. rewrite E. reflexivity. Qed.
Lemma wrapped : forall f p s k d, kget (i_devmap s) k = Some d ->
  (match rp_key p with Some k => k | None => (rp_address p, rp_channel p) end) = k ->
  in_devmap f p s = f k p s.
Proof. intros f p s k d K E. unfold in_devmap. rewrite E, K. reflexivity. Qed.
Lemma logged_ok : forall A (m : M A) s s' a, m s = (s', Ok a) -> log_errors m s = (s', Ok a).
Proof. intros A m s s' a E. unfold log_errors. rewrite E. reflexivity. Qed.

Definition vtask (v : version) : parser -> list string -> dict attr -> task -> res bool :=
  match v with V21 => task_validate | V20 => task_validate20 end.
Definition ivalidate (v : version) : hw -> rparams -> M dreply :=
  match v with V21 => iface_validate | V20 => iface_validate20 end.

Lemma validate_eq : forall v h s k d t caps b, kget (i_devmap s) k = Some d ->
  h_caps h (i_calls s) k = Ok caps -> vtask v (h_parser h) caps (h_attrs h k) t = Ok b ->
  ivalidate v h (mkRp (Some k) None None None None (Some t) None None) s = (count_call s, Ok (mkReply b RNone)).
Proof.
  intros v h s k d t caps b K C T.
  destruct v; cbn [ivalidate vtask] in *; unfold iface_validate, iface_validate20;
  (apply logged_ok; rewrite (wrapped _ _ s k d K) by reflexivity; cbn [rp_task need_arg];
   unfold mbind at 1, ret at 1; rewrite (mbind_ok _ _ _ _ _ _ _ (device_at_some _ _ _ K));
   unfold mbind at 1, call; rewrite C; unfold mbind, mres; rewrite T; reflexivity).
Qed.

Lemma target_key : forall q p, rq_params q = Some p ->
  target q = match rp_key p with Some k => k | None => (rp_address p, rp_channel p) end.
Proof. intros q p E. unfold target. rewrite E. reflexivity. Qed.

Lemma start_refused : forall v h driver i q s d t caps, i_ver s = v -> asks_start q t ->
  kget (i_devmap s) (target q) = Some d -> h_caps h (i_calls s) (target q) = Ok caps ->
  vtask v (h_parser h) caps (h_attrs h (target q)) t = Ok false ->
  handle h driver i q s = (count_call s, Ok (mkReply false RNone)).
Proof.
  intros v h driver i q s d t caps V (p & C & P & T) K CA VT.
  rewrite (component_dispatch _ _ _ _ _ _ C) by (apply mem_In; reflexivity). rewrite P.
  rewrite (target_key q p P) in *. set (k := match rp_key p with Some k => k | None => _ end) in *.
  assert (E : component_method h "task_start" p s = (count_call s, Ok (mkReply false RNone))).
  { unfold component_method. rewrite V. destruct v.
    - change (method20 h "task_start" p) with (task_start20 h p). unfold task_start20.
      apply logged_ok. rewrite (wrapped _ _ s k d K) by reflexivity. rewrite T.
      rewrite (mbind_ok _ _ (need_arg (Some t)) _ s s t eq_refl).
      rewrite (mbind_ok _ _ _ _ _ _ _ (validate_eq V20 h s k d t caps false K CA VT)). reflexivity.
    - change (method21 h "task_start" p) with (task_start h p). unfold task_start.
      apply logged_ok. rewrite (wrapped _ _ s k d K) by reflexivity. rewrite T.
      rewrite (mbind_ok _ _ (need_arg (Some t)) _ s s t eq_refl).
      rewrite (mbind_ok _ _ _ _ _ _ _ (validate_eq V21 h s k d t caps false K CA VT)). reflexivity. }
  rewrite E. reflexivity.
Qed.

Lemma start21 : forall h driver i q s d t caps, i_ver s = V21 -> asks_start q t ->
  kget (i_devmap s) (target q) = Some d -> h_caps h (i_calls s) (target q) = Ok caps ->
  task_validate (h_parser h) caps (h_attrs h (target q)) t = Ok true ->
  exists s', handle h driver i q s = (s', Ok (mkReply true (RTask t))) /\
    kget (i_devmap s') (target q) = Some (with_task t d) /\ others_same (target q) s s'.
Proof.
  intros h driver i q s d t caps V (p & C & P & T) K CA VT.
  rewrite (component_dispatch _ _ _ _ _ _ C) by (apply mem_In; reflexivity). rewrite P.
  rewrite (target_key q p P) in *. set (k := match rp_key p with Some k => k | None => _ end) in *.
  exists (set_devmap (fun m => kset m k (with_task t d)) (count_call s)).
  split; [|split; [apply kget_set_same|apply others_kset; reflexivity]].
  assert (E : component_method h "task_start" p s =
    (set_devmap (fun m => kset m k (with_task t d)) (count_call s), Ok (mkReply true (RTask t)))).
  { unfold component_method. rewrite V.
    change (method21 h "task_start" p) with (task_start h p). unfold task_start.
    apply logged_ok. rewrite (wrapped _ _ s k d K) by reflexivity. rewrite T.
    rewrite (mbind_ok _ _ (need_arg (Some t)) _ s s t eq_refl).
    rewrite (mbind_ok _ _ _ _ _ _ _ (validate_eq V21 h s k d t caps true K CA VT)). cbn [dr_ok negb].
    rewrite (mbind_ok _ _ _ _ _ _ _ (upd_at k _ (count_call s) d K)). reflexivity. }
  rewrite E. reflexivity.
Qed.

Lemma start20 : forall h driver i q s d t caps, i_ver s = V20 -> asks_start q t ->
  kget (i_devmap s) (target q) = Some d -> h_caps h (i_calls s) (target q) = Ok caps ->
  task_validate20 (h_parser h) caps (h_attrs h (target q)) t = Ok true ->
  exists s', others_same (target q) s s' /\
    if v_run d
    then handle h driver i q s = (s', Ok (mkReply true (RTask t))) /\
         kget (i_devmap s') (target q) =
           Some (mkDev (v_serial d) (v_running d) (v_tasks d ++ [ITask t]) (v_data d) (v_last d) false true)
    else handle h driver i q s = (s', Err SystemExit).
Proof.
  intros h driver i q s d t caps V (p & C & P & T) K CA VT.
  rewrite (component_dispatch _ _ _ _ _ _ C) by (apply mem_In; reflexivity). rewrite P.
  rewrite (target_key q p P) in *. set (k := match rp_key p with Some k => k | None => _ end) in *.
  set (s1 := set_devmap (fun m => kset m k (with_task t d)) (count_call s)).
  assert (K1 : kget (i_devmap s1) k = Some (with_task t d)) by apply kget_set_same.
  set (d2 := mkDev (v_serial d) (v_running d) (v_tasks d ++ [ITask t]) (v_data d) (v_last d) (v_run d) true).
  set (s2 := set_devmap (fun m => kset m k d2) s1).
  assert (K2 : kget (i_devmap s2) k = Some d2) by apply kget_set_same.
  assert (O1 : forall k', k' <> k -> kget (i_devmap s1) k' = kget (i_devmap s) k').
  { intros k' N. unfold s1. rewrite kget_set_devmap. apply key_eqb_neq in N. rewrite N. reflexivity. }
  assert (O2 : forall k', k' <> k -> kget (i_devmap s2) k' = kget (i_devmap s) k').
  { intros k' N. unfold s2. rewrite kget_set_devmap. rewrite (O1 k' N). apply key_eqb_neq in N. rewrite N. reflexivity. }
  assert (E : component_method h "task_start" p s =
    if v_run d
    then (set_devmap (fun m => kset m k (mkDev (v_serial d) (v_running d) (v_tasks d ++ [ITask t]) (v_data d) (v_last d) false true)) s2,
          Ok (mkReply true (RTask t)))
    else (s2, Err SystemExit)).
  { unfold component_method. rewrite V.
    change (method20 h "task_start" p) with (task_start20 h p). unfold task_start20, log_errors.
    rewrite (wrapped _ _ s k d K) by reflexivity. rewrite T.
    rewrite (mbind_ok _ _ (need_arg (Some t)) _ s s t eq_refl).
    rewrite (mbind_ok _ _ _ _ _ _ _ (validate_eq V20 h s k d t caps true K CA VT)). cbn [dr_ok negb].
    rewrite (mbind_ok _ _ _ _ _ _ _ (upd_at k _ (count_call s) d K)).
    match goal with |- context [mbind (run_thread k) ?f ?s0] => change s0 with s1 end.
    unfold mbind at 1, run_thread.
    rewrite (mbind_ok _ _ _ _ _ _ _ (upd_at k _ s1 _ K1)).
    match goal with |- context [mbind (device_at k) ?f ?s0] => change s0 with s2 end.
    rewrite (mbind_ok _ _ _ _ _ _ _ (device_at_some k s2 d2 K2)).
    cbn [v_run d2]. destruct (v_run d) eqn:R.
    - rewrite (upd_at k _ s2 d2 K2). reflexivity.
    - reflexivity. }
  rewrite E. destruct (v_run d).
  - eexists. split; [|split; [reflexivity|apply kget_set_same]].
    intros k' N. rewrite kget_set_devmap, (O2 k' N). apply key_eqb_neq in N. rewrite N. reflexivity.
  - exists s2. split; [exact O2|reflexivity].
Qed.

(** ** Tearing down *)

(** A computation that replies, changes only component [k] and does not remove it. *)
Definition touches (k : key) (m : M dreply) (s : iface) : Prop :=
  exists s' r d, m s = (s', Ok r) /\ kget (i_devmap s') k = Some d /\ others_same k s s' /\
    i_ver s' = i_ver s /\ (unique_keys s -> unique_keys s').

Lemma touch_upd : forall k f s d, kget (i_devmap s) k = Some d ->
  let s' := set_devmap (fun m => kset m k (f d)) s in
  upd_device k f s = (s', Ok tt) /\ kget (i_devmap s') k = Some (f d) /\ others_same k s s' /\
  i_ver s' = i_ver s /\ (unique_keys s -> unique_keys s').
Proof.
  intros k f s d K s'. split; [exact (upd_at k f s d K)|]. split; [apply kget_set_same|].
  split; [apply others_kset; reflexivity|]. split; [reflexivity|]. intros U. apply kset_unique. exact U.
Qed.

Lemma touch_status : forall k s d, kget (i_devmap s) k = Some d ->
  touches k (task_status (with_key k)) s /\ touches k (task_status20 (with_key k)) s.
Proof.
  intros k s d K. split; exists s; eexists _, d; (split; [|repeat split; trivial]);
  unfold task_status, task_status20; apply logged_ok; rewrite (wrapped _ _ s k d K) by reflexivity;
  rewrite (mbind_ok _ _ _ _ _ _ _ (device_at_some _ _ _ K)); reflexivity.
Qed.

Lemma touch_data : forall k s d, kget (i_devmap s) k = Some d -> touches k (task_data (with_key k)) s.
Proof.
  intros k s d K.
  pose proof (touch_upd k (fun d => mkDev (v_serial d) (v_running d) (v_tasks d) [] (v_last d) (v_run d) (v_run_task d)) s d K) as U.
  cbv zeta beta in U. destruct U as (E & K' & O & V & N).
  eexists _, _, _. split; [|split; [exact K'|split; [exact O|split; [exact V|exact N]]]].
  unfold task_data. apply logged_ok. rewrite (wrapped _ _ s k d K) by reflexivity.
  rewrite (mbind_ok _ _ _ _ _ _ _ (device_at_some _ _ _ K)), (mbind_ok _ _ _ _ _ _ _ E).
  instantiate (1 := match v_data d with [] => mkReply false RNone | l => mkReply true (RPoints l) end).
  destruct (v_data d); reflexivity.
Qed.

Lemma touch_trans : forall k s s1 s2,
  others_same k s s1 -> others_same k s1 s2 -> others_same k s s2.
Proof. intros k s s1 s2 A B k' N. rewrite (B k' N). exact (A k' N). Qed.

Lemma touch_stop : forall k s d, kget (i_devmap s) k = Some d ->
  touches k (task_stop (with_key k)) s /\ touches k (task_stop20 (with_key k)) s.
Proof.
  intros k s d K.
  assert (G : forall f, touches k (fun s => mbind (upd_device k f) (fun _ =>
      mbind (task_data (with_key k)) (fun r => ret (mkReply true (dr_data r)))) s) s).
  { intros f. pose proof (touch_upd k f s d K) as U. cbv zeta beta in U. destruct U as (E & K' & O & V & N).
    destruct (touch_data k _ _ K') as (s2 & r & d2 & E2 & K2 & O2 & V2 & N2).
    exists s2. eexists _, d2. split.
    - rewrite (mbind_ok _ _ _ _ _ _ _ E), (mbind_ok _ _ _ _ _ _ _ E2). reflexivity.
    - split; [exact K2|]. split; [exact (touch_trans _ _ _ _ O O2)|]. split; [congruence|]. intros X. exact (N2 (N X)). }
  split.
  - destruct (G (fun d => mkDev (v_serial d) (v_running d) (v_tasks d) (v_data d) (v_last d) (v_run d) false))
      as (s' & r & d' & E & X). exists s', r, d'. split; [|exact X].
    unfold task_stop. apply logged_ok. rewrite (wrapped _ _ s k d K) by reflexivity.
    rewrite (mbind_ok _ _ _ _ _ _ _ (device_at_some _ _ _ K)). exact E.
  - destruct (G (fun d => mkDev (v_serial d) (v_running d) (v_tasks d) (v_data d) (v_last d) (v_run d) true))
      as (s' & r & d' & E & X). exists s', r, d'. split; [|exact X].
    unfold task_stop20. apply logged_ok. rewrite (wrapped _ _ s k d K) by reflexivity.
    rewrite (mbind_ok _ _ _ _ _ _ _ (device_at_some _ _ _ K)). exact E.
Qed.

Lemma touch_reset : forall k s d, kget (i_devmap s) k = Some d ->
  touches k (cmp_reset (mkRp (Some k) None None None None None (Some false) None)) s /\
  touches k (cmp_reset20 (with_key k)) s.
Proof.
  intros k s d K. split.
  - pose proof (touch_upd k (reset_device false) s d K) as U. cbv zeta beta in U. destruct U as (E & X).
    eexists _, _, _. split; [|exact X]. unfold cmp_reset. apply logged_ok.
    rewrite (wrapped _ _ s k d K) by reflexivity. rewrite (mbind_ok _ _ _ _ _ _ _ (device_at_some _ _ _ K)).
    cbn [rp_do_run]. rewrite (mbind_ok _ _ _ _ _ _ _ E). reflexivity.
  - pose proof (touch_upd k reset_device20 s d K) as U. cbv zeta beta in U. destruct U as (E & X).
    eexists _, _, _. split; [|exact X]. unfold cmp_reset20. apply logged_ok.
    rewrite (wrapped _ _ s k d K) by reflexivity. rewrite (mbind_ok _ _ _ _ _ _ _ (device_at_some _ _ _ K)).
    rewrite (mbind_ok _ _ _ _ _ _ _ E). reflexivity.
Qed.

Lemma teardown_works : forall h driver i q s d, asks_teardown q -> unique_keys s ->
  kget (i_devmap s) (target q) = Some d ->
  exists s', handle h driver i q s = (s', Ok (mkReply true RNone)) /\
    ~ registered s' (target q) /\ others_same (target q) s s' /\ i_ver s' = i_ver s.
Proof.
  intros h driver i q s d (p & C & P & T) U K.
  rewrite (component_dispatch _ _ _ _ _ _ C) by (apply mem_In; reflexivity). rewrite P.
  rewrite (target_key q p P) in *. set (k := match rp_key p with Some k => k | None => _ end) in *.
  assert (E : exists s', component_method h "cmp_teardown" p s = (s', Ok (mkReply true RNone)) /\
    kget (i_devmap s') k = None /\ others_same k s s' /\ i_ver s' = i_ver s).
  { assert (F : forall s3 d3, kget (i_devmap s3) k = Some d3 -> unique_keys s3 -> others_same k s s3 -> i_ver s3 = i_ver s ->
      kget (i_devmap (set_devmap (fun m => kdel m k) s3)) k = None /\
      others_same k s (set_devmap (fun m => kdel m k) s3) /\ i_ver (set_devmap (fun m => kdel m k) s3) = i_ver s).
    { intros s3 d3 K3 U3 O3 V3. split; [|split; [|exact V3]].
      - unfold set_devmap. cbn [i_devmap]. rewrite (kget_kdel _ _ _ _ U3), key_eqb_refl. reflexivity.
      - intros k' N. unfold set_devmap. cbn [i_devmap]. rewrite (kget_kdel _ _ _ _ U3).
        rewrite (O3 k' N). apply key_eqb_neq in N. rewrite N. reflexivity. }
    unfold component_method. destruct (i_ver s) eqn:V.
    - change (method20 h "cmp_teardown" p) with (cmp_teardown20 p).
      destruct (touch_status k s d K) as [_ (s1 & r1 & d1 & E1 & K1 & O1 & V1 & N1)].
      destruct (touch_stop k s1 d1 K1) as [_ (s2 & r2 & d2 & E2 & K2 & O2 & V2 & N2)].
      destruct (touch_reset k s2 d2 K2) as [_ (s3 & r3 & d3 & E3 & K3 & O3 & V3 & N3)].
      exists (set_devmap (fun m => kdel m k) s3). split.
      + unfold cmp_teardown20. apply logged_ok. rewrite (wrapped _ _ s k d K) by reflexivity.
        rewrite (mbind_ok _ _ _ _ _ _ _ E1), (mbind_ok _ _ _ _ _ _ _ E2), (mbind_ok _ _ _ _ _ _ _ E3). reflexivity.
      + refine (F s3 d3 K3 (N3 (N2 (N1 U))) _ _); [|congruence].
        exact (touch_trans _ _ _ _ (touch_trans _ _ _ _ O1 O2) O3).
    - change (method21 h "cmp_teardown" p) with (cmp_teardown p).
      destruct (touch_status k s d K) as [(s1 & r1 & d1 & E1 & K1 & O1 & V1 & N1) _].
      destruct (touch_stop k s1 d1 K1) as [(s2 & r2 & d2 & E2 & K2 & O2 & V2 & N2) _].
      destruct (touch_reset k s2 d2 K2) as [(s3 & r3 & d3 & E3 & K3 & O3 & V3 & N3) _].
      exists (set_devmap (fun m => kdel m k) s3). split.
      + unfold cmp_teardown. apply logged_ok. rewrite (wrapped _ _ s k d K) by reflexivity.
        rewrite (mbind_ok _ _ _ _ _ _ _ E1), (mbind_ok _ _ _ _ _ _ _ E2). rewrite T.
        rewrite (mbind_ok _ _ (ret tt) _ s2 s2 tt eq_refl), (mbind_ok _ _ _ _ _ _ _ E3). reflexivity.
      + refine (F s3 d3 K3 (N3 (N2 (N1 U))) _ _); [|congruence].
        exact (touch_trans _ _ _ _ (touch_trans _ _ _ _ O1 O2) O3). }
  destruct E as (s' & E & KN & O & V). exists s'. rewrite E. split; [reflexivity|].
  split; [apply kget_registered; exact KN|]. split; [exact O|exact V].
Qed.
