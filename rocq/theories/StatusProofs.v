(** * StatusProofs: "tomato status" (C79) *)
From Coq Require Import List String Ascii ZArith Bool Lia.
From Verif Require Import Base PyStr BaseFacts Types Prog ProgFacts World WorldFacts TableModel SpecTable P_Table
  StatusModel SpecStatus.
Import ListNotations.
Open Scope string_scope.
Open Scope Z_scope.

(** The clock reading, request and table of a run. *)
Definition sent (d : daemon) (w : world) (x : Z * dcmd) : Prop :=
  exists k c v, In (k, c) (df_components (dm_df d)) /\ get_drv (w_drvs w) (c_driver c) = Some v /\
    dv_port v = Some (fst x) /\ snd x = CCapabilities (c_address c) (c_channel c).
Definition quiet_run (P : Z * dcmd -> Prop) (w w' : world) : Prop :=
  same_tables w w' /\ others w' = others w /\ (w_driver w' = w_driver w) /\
  exists l, requests w' = (l ++ requests w)%list /\ forall x, In x l -> P x.

Lemma quiet_refl P w : quiet_run P w w.
Proof. split; [repeat split|]. split; [reflexivity|]. split; [reflexivity|]. exists []. split; [reflexivity|intros x []]. Qed.
Lemma quiet_trans P a b c : quiet_run P a b -> quiet_run P b c -> quiet_run P a c.
Proof.
  intros ((A1&A2&A3&A4&A5&A6&A7&A8&A9&A10) & Ao & Ad & la & El & Hl)
         ((B1&B2&B3&B4&B5&B6&B7&B8&B9&B10) & Bo & Bd & lb & Em & Hm).
  split; [repeat split; congruence|]. split; [congruence|]. split; [congruence|].
  exists (lb ++ la)%list. split; [rewrite Em, El, app_assoc; reflexivity|].
  intros x Hx. apply in_app_iff in Hx. destruct Hx; auto.
Qed.
Lemma quiet_ask (P : Z * dcmd -> Prop) w port c s r w' : (forall p, port = Some p -> P (p, c)) -> ask w port c s = (r, w') -> quiet_run P w w'.
Proof.
  intros HP H. unfold ask in H. destruct port as [p|]; [|inversion H; apply quiet_refl].
  assert (E : w' = add_event w (EvRequest p c)) by (destruct (w_driver w p c); inversion H; reflexivity).
  subst w'. split; [repeat split|]. split; [reflexivity|]. split; [reflexivity|].
  exists [(p, c)]. split; [reflexivity|]. intros x [<-|[]]. auto.
Qed.

Lemma run_format msg objs yml keys rows w :
  run exec (format msg objs yml keys rows) w = (if yml then Ok "" else format_msg msg objs false keys (rows (w_perf w)), w).
Proof. unfold format. destruct yml; [reflexivity|]. rewrite run_bind, run_act. cbn [exec]. apply run_lift. Qed.

Lemma format_ok msg objs keys rows : rows <> [] ->
  (forall r, In r rows -> forall k, In k keys -> exists v, dget r k = Some v) ->
  exists m, format_msg msg objs false keys rows = Ok m.
Proof.
  intros Hn Hk. destruct (C69_partial rows keys Hn Hk) as (ws & lines & E & F & _).
  unfold format_msg. rewrite E. destruct lines; eauto.
Qed.
Ltac keyed := let r := fresh in let H := fresh in intros r H; apply in_map_iff in H;
  destruct H as (? & <- & _); let k := fresh in let K := fresh in intros k K;
  repeat (destruct K as [<-|K]; [eexists; reflexivity|]); destruct K.

(** ** One component and one pipeline *)
Lemma run_component acc k c w :
  run exec (component_status acc (k, c)) w =
  match get_drv (w_drvs w) (c_driver c) with
  | None => (Err AssertionError, w)
  | Some v =>
      match ask w (dv_port v) (CCapabilities (c_address c) (c_channel c)) (Err Blocked) with
      | (Err e, w') => (Err e, w')
      | (Ok r, w') => (match caps_of r with Ok x => Ok (acc ++ [(k, (c, x))])%list | Err e => Err e end, w')
      end
  end.
Proof.
  unfold component_status. rewrite run_bind, run_act. cbn [exec fst snd].
  destruct (get_drv (w_drvs w) (c_driver c)) as [v|]; [|reflexivity].
  rewrite run_bind, run_act. cbn [exec].
  destruct (ask w (dv_port v) _ _) as [[r|e] w']; [|reflexivity].
  rewrite run_bind, run_lift. destruct (caps_of r); reflexivity.
Qed.
Lemma run_pipeline acc n w :
  run exec (pipeline_status acc n) w =
  (match get_pip (w_pips w) n with None => Err TypeError | Some p => Ok (dset acc n p) end, w).
Proof.
  unfold pipeline_status. rewrite run_bind, run_act. cbn [exec]. destruct (get_pip (w_pips w) n); reflexivity.
Qed.

Lemma quiet_components (P : Z * dcmd -> Prop) l : forall acc w,
  (forall k c v p, In (k, c) l -> get_drv (w_drvs w) (c_driver c) = Some v -> dv_port v = Some p ->
     P (p, CCapabilities (c_address c) (c_channel c))) ->
  quiet_run P w (snd (run exec (forP component_status acc l) w)).
Proof.
  induction l as [|[k c] l IH]; intros acc w HP; [apply quiet_refl|].
  rewrite run_forP_cons, run_component.
  destruct (get_drv (w_drvs w) (c_driver c)) as [v|] eqn:Ev; [|apply quiet_refl].
  destruct (ask w (dv_port v) (CCapabilities (c_address c) (c_channel c)) (Err Blocked)) as [r w'] eqn:Ea.
  assert (Q : quiet_run P w w').
  { eapply quiet_ask; [|exact Ea]. intros p Ep. eapply HP; [left; reflexivity|exact Ev|exact Ep]. }
  destruct r as [r|e]; [|exact Q]. destruct (caps_of r) as [x|e]; [|exact Q].
  eapply quiet_trans; [exact Q|]. apply IH. intros k' c' v' p' Hin Hg Hp.
  destruct Q as ((_ & _ & _ & Ed & _) & _). rewrite Ed in Hg. eapply HP; [right; exact Hin|exact Hg|exact Hp].
Qed.
Lemma run_pipelines l : forall acc w, snd (run exec (forP pipeline_status acc l) w) = w.
Proof.
  induction l as [|n l IH]; intros acc w; [reflexivity|]. rewrite run_forP_cons, run_pipeline.
  destruct (get_pip (w_pips w) n); [apply IH|reflexivity].
Qed.

Lemma reads_only sh port g yml w :
  quiet_run (fun x => exists d, w_daemon w = Some d /\ sent d w x) w (snd (run exec (status sh port g yml) w)).
Proof.
  unfold status. rewrite run_bind, run_act. cbn [exec].
  destruct (w_daemon w) as [d|] eqn:Ed; [|apply quiet_refl].
  destruct g; try apply quiet_refl.
  - rewrite run_bind, run_format. destruct (if yml then _ else _); apply quiet_refl.
  - rewrite run_bind, run_act. cbn [exec]. rewrite run_bind, run_format. destruct (if yml then _ else _); apply quiet_refl.
  - rewrite run_bind.
    assert (Q := quiet_components (fun x => exists d, Some d = Some d /\ sent d w x) (df_components (dm_df d)) [] w).
    assert (Q' : quiet_run (fun x => exists d0, Some d = Some d0 /\ sent d0 w x) w
                   (snd (run exec (forP component_status [] (df_components (dm_df d))) w))).
    { apply quiet_components. intros k c v p Hin Hg Hp. exists d. split; [reflexivity|]. exists k, c, v. auto. }
    destruct (run exec (forP component_status [] (df_components (dm_df d))) w) as [[l|e] w']; [|exact Q'].
    rewrite run_bind, run_format. destruct (if yml then _ else _); exact Q'.
  - rewrite run_bind.
    assert (E := run_pipelines (dkeys (df_pipelines (dm_df d))) [] w).
    destruct (run exec (forP pipeline_status [] (dkeys (df_pipelines (dm_df d)))) w) as [[l|e] w']; cbn [snd] in E; subst w'; [|apply quiet_refl].
    rewrite run_bind, run_format. destruct (if yml then _ else _); apply quiet_refl.
Qed.

(** ** The groups *)
Lemma map_nonnil {A B} (f : A -> B) l : l <> [] -> map f l <> [].
Proof. destruct l; [congruence|discriminate]. Qed.

Lemma devices_ok sh port yml w d : w_daemon w = Some d -> (yml = true \/ df_devices (dm_df d) <> []) ->
  exists m, run exec (status sh port GDevices yml) w = (Ok (mkS true m (SdDevices (df_devices (dm_df d)))), w).
Proof.
  intros Hd Hn. unfold status. rewrite run_bind, run_act. cbn [exec]. rewrite Hd.
  rewrite run_bind, run_format. destruct yml; [eexists; reflexivity|].
  destruct Hn as [Hn|Hn]; [discriminate|].
  destruct (format_ok ("tomato running on port " ++ str_of_Z (dm_port d)) "devices"
    ["name"; "driver"; "address"; "channels"] (map (row_device sh) (dvals (df_devices (dm_df d))))) as [m ->].
  - apply map_nonnil. unfold dvals. apply map_nonnil. exact Hn.
  - keyed.
  - eexists. reflexivity.
Qed.

Lemma drivers_dict l : forall acc, NoDup (map dv_name l) ->
  (forall v, In v l -> dget acc (dv_name v) = None) ->
  forall n v, dget (fold_left (fun a v => dset a (dv_name v) v) l acc) n = Some v <->
    dget acc n = Some v \/ (In v l /\ dv_name v = n).
Proof.
  induction l as [|x l IH]; intros acc Hnd Hacc n v; cbn [fold_left].
  - split; [auto|]. intros [H|[[] _]]. exact H.
  - cbn [map] in Hnd. inversion Hnd as [|? ? Hx Hl]. subst.
    rewrite IH; [|exact Hl|].
    + rewrite dget_dset. destruct (String.eqb_spec n (dv_name x)) as [->|E].
      * split.
        -- intros [H|[H E]]; [injection H as <-; right; split; [now left|reflexivity]|right; split; [now right|exact E]].
        -- intros [H|[[<-|H] E]]; [rewrite (Hacc x (or_introl eq_refl)) in H; discriminate|left; reflexivity|right; auto].
      * split.
        -- intros [H|[H F]]; [left; exact H|right; split; [now right|exact F]].
        -- intros [H|[[<-|H] F]]; [left; exact H|congruence|right; auto].
    + intros y Hy. rewrite dget_dset. destruct (String.eqb_spec (dv_name y) (dv_name x)) as [F|F].
      * exfalso. apply Hx. apply in_map_iff. exists y. auto.
      * apply Hacc. now right.
Qed.
Lemma drivers_nonnil l : l <> [] -> fold_left (fun a v => dset a (dv_name v) v) l [] <> [].
Proof.
  intros H E.
  assert (X : forall l (acc : dict drvstate), acc <> [] -> fold_left (fun a v => dset a (dv_name v) v) l acc <> []).
  { clear. induction l as [|x l IH]; intros acc Ha; cbn; auto. apply IH. destruct acc as [|[k v] acc]; [congruence|].
    cbn. destruct (String.eqb (dv_name x) k); discriminate. }
  destruct l as [|x l]; [congruence|]. cbn in E. apply (X l [(dv_name x, x)]); [discriminate|exact E].
Qed.

Lemma drivers_ok sh port yml w d : w_daemon w = Some d -> NoDup (map dv_name (w_drvs w)) -> (yml = true \/ w_drvs w <> []) ->
  exists m l, run exec (status sh port GDrivers yml) w = (Ok (mkS true m (SdDrivers l)), w) /\
    forall n v, dget l n = Some v <-> In v (w_drvs w) /\ dv_name v = n.
Proof.
  intros Hd Hnd Hn. unfold status. rewrite run_bind, run_act. cbn [exec]. rewrite Hd.
  rewrite run_bind, run_act. cbn [exec]. rewrite run_bind, run_format.
  set (l := fold_left (fun a v => dset a (dv_name v) v) (w_drvs w) []).
  assert (S : forall n v, dget l n = Some v <-> In v (w_drvs w) /\ dv_name v = n).
  { intros n v. unfold l. rewrite drivers_dict by (auto; reflexivity). split; [intros [H|H]; [discriminate|exact H]|auto]. }
  destruct yml; [eexists _, l; split; [reflexivity|exact S]|].
  destruct Hn as [Hn|Hn]; [discriminate|].
  destruct (format_ok ("tomato running on port " ++ str_of_Z (dm_port d)) "drivers"
    ["name"; "port"; "pid"; "version"; "heartbeat"] (map (row_driver sh (w_perf w)) (dvals l))) as [m ->].
  - apply map_nonnil. unfold dvals. apply map_nonnil. apply drivers_nonnil. exact Hn.
  - keyed.
  - eexists _, l. split; [reflexivity|exact S].
Qed.

Lemma pipelines_run w l : forall acc,
  (forall n, In n l -> exists p, get_pip (w_pips w) n = Some p) -> NoDup l ->
  (forall n, In n l -> ~ In n (dkeys acc)) ->
  exists r, run exec (forP pipeline_status acc l) w = (Ok (acc ++ r)%list, w) /\
    dkeys r = l /\ forall n, In n l -> dget (acc ++ r)%list n = get_pip (w_pips w) n.
Proof.
  assert (A : forall (a : dict pipstate) k v, ~ In k (dkeys a) -> dset a k v = (a ++ [(k, v)])%list).
  { induction a as [|[k' v'] a IH]; intros k v H; [reflexivity|]. cbn in *.
    destruct (String.eqb_spec k k') as [->|E]; [tauto|]. rewrite IH by tauto. reflexivity. }
  assert (G : forall (a b : dict pipstate) k, ~ In k (dkeys a) -> dget (a ++ b)%list k = dget b k).
  { induction a as [|[k' v'] a IH]; intros b k H; [reflexivity|]. cbn in *.
    destruct (String.eqb_spec k k') as [->|E]; [tauto|]. apply IH. tauto. }
  induction l as [|n l IH]; intros acc Hr Hnd Hk.
  - exists []. rewrite app_nil_r. split; [reflexivity|]. split; [reflexivity|intros n []].
  - inversion Hnd as [|? ? Hx Hl]. subst. destruct (Hr n (or_introl eq_refl)) as [p Ep].
    rewrite run_forP_cons, run_pipeline, Ep. rewrite A by (apply Hk; now left).
    destruct (IH (acc ++ [(n, p)])%list) as (r & Er & Ek & Eg).
    + intros; apply Hr; now right.
    + exact Hl.
    + intros m Hm Hin. unfold dkeys in Hin. rewrite map_app in Hin. apply in_app_iff in Hin.
      destruct Hin as [Hin|[<-|[]]]; [apply (Hk m); [now right|exact Hin]|contradiction].
    + exists ((n, p) :: r). rewrite <- app_assoc in Er, Eg. split; [exact Er|]. split; [cbn; f_equal; exact Ek|].
      intros m [<-|Hm]; [|apply Eg; exact Hm]. rewrite G by (apply Hk; now left).
      cbn. rewrite String.eqb_refl. symmetry. exact Ep.
Qed.

Lemma pipelines_ok sh port yml w d : w_daemon w = Some d -> NoDup (dkeys (df_pipelines (dm_df d))) ->
  (forall n, In n (dkeys (df_pipelines (dm_df d))) -> exists p, get_pip (w_pips w) n = Some p) ->
  (yml = true \/ df_pipelines (dm_df d) <> []) ->
  exists m l, run exec (status sh port GPipelines yml) w = (Ok (mkS true m (SdPips l)), w) /\
    dkeys l = dkeys (df_pipelines (dm_df d)) /\
    forall n, In n (dkeys l) -> dget l n = get_pip (w_pips w) n.
Proof.
  intros Hd Hnd Hr Hn. unfold status. rewrite run_bind, run_act. cbn [exec]. rewrite Hd. rewrite run_bind.
  destruct (pipelines_run w (dkeys (df_pipelines (dm_df d))) [] Hr Hnd) as (l & El & Ek & Eg); [intros n _ []|].
  cbn [app] in El, Eg. rewrite El, run_bind, run_format.
  destruct yml.
  { eexists _, l. split; [reflexivity|]. split; [exact Ek|]. rewrite Ek. exact Eg. }
  destruct Hn as [Hn|Hn]; [discriminate|].
  destruct (format_ok ("tomato running on port " ++ str_of_Z (dm_port d)) "pipelines"
    ["name"; "ready"; "sampleid"; "jobid"] (map row_pip (dvals l))) as [m ->].
  - apply map_nonnil. unfold dvals. apply map_nonnil. intros ->. cbn in Ek.
    destruct (df_pipelines (dm_df d)); [congruence|discriminate].
  - keyed.
  - eexists _, l. split; [reflexivity|]. split; [exact Ek|]. rewrite Ek. exact Eg.
Qed.

Lemma caps_reported r : dr_data r = DdNone \/ sized (dr_data r) -> exists x, caps_of r = Ok x /\ reported r x.
Proof.
  destruct r as [ok x]. cbn. unfold caps_of, reported. cbn. intros H. destruct ok; [|exists None; split; reflexivity].
  destruct H as [->|H]; [exists None; split; reflexivity|].
  destruct x as [|l|b|n|v]; cbn in H |- *; try contradiction.
  - destruct l; eexists; split; reflexivity.
  - eexists; split; reflexivity.
  - destruct n; eexists; split; reflexivity.
  - destruct v as [| | | |s| |l]; try contradiction; [destruct s|destruct l]; eexists; split; reflexivity.
Qed.
Definition entry_ok (w : world) (kc : string * component) (e : string * (component * option ddata)) : Prop :=
  fst e = fst kc /\ fst (snd e) = snd kc /\ exists p r, answers_caps w (snd kc) p r /\ reported r (snd (snd e)).
Lemma components_run l : forall acc w0 w,
  (w_drvs w = w_drvs w0 /\ w_driver w = w_driver w0) ->
  (forall k c, In (k, c) l -> exists p r, answers_caps w0 c p r) ->
  exists r w', run exec (forP component_status acc l) w = (Ok (acc ++ r)%list, w') /\ Forall2 (entry_ok w0) l r /\
    w_perf w' = w_perf w.
Proof.
  induction l as [|[k c] l IH]; intros acc w0 w [Hw1 Hw2] Ha.
  - exists [], w. rewrite app_nil_r. repeat split. constructor.
  - destruct (Ha k c (or_introl eq_refl)) as (p & r & Hans). pose proof Hans as ((v & Ev & Ep) & Er & Hx).
    rewrite run_forP_cons, run_component. rewrite Hw1, Ev, Ep. unfold ask. rewrite Hw2, Er.
    destruct (caps_reported r Hx) as (x & Ex & Hrep). rewrite Ex.
    destruct (IH (acc ++ [(k, (c, x))])%list w0 (add_event w (EvRequest p (CCapabilities (c_address c) (c_channel c)))))
      as (r' & w' & E' & F' & P').
    + split; assumption.
    + intros k' c' H'. apply (Ha k' c'). now right.
    + rewrite <- app_assoc in E'. exists ((k, (c, x)) :: r'), w'. split; [exact E'|]. split; [|exact P'].
      constructor; [|exact F']. split; [reflexivity|]. split; [reflexivity|]. exists p, r. auto.
Qed.

Lemma components_ok sh port yml w d : w_daemon w = Some d ->
  (forall k c, In (k, c) (df_components (dm_df d)) -> exists p r, answers_caps w c p r) ->
  (yml = true \/ df_components (dm_df d) <> []) ->
  exists m l w', run exec (status sh port GComponents yml) w = (Ok (mkS true m (SdComponents l)), w') /\
    Forall2 (entry_ok w) (df_components (dm_df d)) l.
Proof.
  intros Hd Ha Hn. unfold status. rewrite run_bind, run_act. cbn [exec]. rewrite Hd. rewrite run_bind.
  destruct (components_run (df_components (dm_df d)) [] w w) as (l & w' & El & F & _); [split; reflexivity|exact Ha|].
  cbn [app] in El. rewrite El, run_bind, run_format.
  destruct yml; [eexists _, l, w'; split; [reflexivity|exact F]|].
  destruct Hn as [Hn|Hn]; [discriminate|].
  destruct (format_ok ("tomato running on port " ++ str_of_Z (dm_port d)) "components"
    ["name"; "driver"; "device"; "capabilities"] (map (row_component sh) (dvals l))) as [m ->].
  - apply map_nonnil. unfold dvals. apply map_nonnil. intros ->. inversion F. congruence.
  - keyed.
  - eexists _, l, w'. split; [reflexivity|exact F].
Qed.
