(** * StatusProofs2: when "tomato status" is answered (C79) *)
From Coq Require Import List String Ascii ZArith Bool Lia.
From Verif Require Import Base PyStr BaseFacts Types Prog ProgFacts World WorldFacts TableModel SpecTable P_Table
  StatusModel SpecStatus StatusProofs.
Import ListNotations.
Open Scope string_scope.
Open Scope Z_scope.

Lemma format_none msg objs k ks : exists e, format_msg msg objs false (k :: ks) [] = Err e.
Proof. eexists. reflexivity. Qed.
(** A table with all its cells is made exactly when it has a row. *)
Lemma format_iff {A} msg objs k ks (f : A -> row) l yml w (d : sdata) :
  (forall x k', In k' (k :: ks) -> exists v, dget (f x) k' = Some v) ->
  lists (fst (run exec (bind (format msg objs yml (k :: ks) (fun _ => map f l)) (fun m => Ret (mkS true m d))) w)) <->
  (yml = true \/ l <> []).
Proof.
  intros Hk. rewrite run_bind, run_format. destruct yml.
  - split; [tauto|]. intros _. cbn. eexists _, _. reflexivity.
  - destruct l as [|a l].
    + cbn [map]. destruct (format_none msg objs k ks) as [e ->]. cbn. split.
      * intros (m & d' & H). discriminate H.
      * intros [H|H]; [discriminate H|congruence].
    + destruct (format_ok msg objs (k :: ks) (map f (a :: l))) as [m Em].
      * discriminate.
      * intros r Hr. apply in_map_iff in Hr. destruct Hr as (x & <- & _). apply Hk.
      * rewrite Em. cbn. split; [intros _; right; discriminate|intros _; eexists _, _; reflexivity].
Qed.
Ltac cells := let x := fresh in let k := fresh in let K := fresh in intros x k K;
  repeat (destruct K as [<-|K]; [eexists; reflexivity|]); destruct K.

Lemma devices_iff sh port yml w d : w_daemon w = Some d ->
  (lists (fst (run exec (status sh port GDevices yml) w)) <-> (yml = true \/ df_devices (dm_df d) <> [])).
Proof.
  intros Hd. unfold status. rewrite run_bind, run_act. cbn [exec]. rewrite Hd. cbv zeta.
  rewrite format_iff by cells. unfold dvals. destruct (df_devices (dm_df d)); cbn; intuition congruence.
Qed.

Lemma drivers_iff sh port yml w d : w_daemon w = Some d ->
  (lists (fst (run exec (status sh port GDrivers yml) w)) <-> (yml = true \/ w_drvs w <> [])).
Proof.
  intros Hd. unfold status. rewrite run_bind, run_act. cbn [exec]. rewrite Hd. cbv zeta.
  rewrite run_bind, run_act. cbn [exec].
  set (l := fold_left _ _ _).
  assert (El : l <> [] <-> w_drvs w <> []).
  { subst l. split; [|apply drivers_nonnil]. intros H E. apply H. rewrite E. reflexivity. }
  rewrite run_bind, run_format. destruct yml.
  - split; [tauto|]. intros _. cbn. eexists _, _. reflexivity.
  - assert (F := @format_iff drvstate ("tomato running on port " ++ str_of_Z (dm_port d)) "drivers" "name"
      ["port"; "pid"; "version"; "heartbeat"] (row_driver sh (w_perf w)) (dvals l) false w (SdDrivers l)).
    rewrite run_bind, run_format in F. etransitivity; [apply F; cells|].
    assert (D : dvals l <> [] <-> l <> []) by (unfold dvals; destruct l; cbn; intuition congruence).
    tauto.
Qed.

Lemma pipelines_all w l : forall acc r w', run exec (forP pipeline_status acc l) w = (Ok r, w') ->
  (forall n, In n l -> exists p, get_pip (w_pips w) n = Some p) /\ (l = [] -> r = acc) /\ (acc <> [] \/ l <> [] -> r <> []).
Proof.
  induction l as [|n l IH]; intros acc r w' H.
  - cbn in H. inversion H; subst. split; [intros n []|]. split; [reflexivity|tauto].
  - rewrite run_forP_cons, run_pipeline in H. destruct (get_pip (w_pips w) n) as [p|] eqn:E; [|discriminate H].
    destruct (IH _ _ _ H) as (A & B & C). split; [|split; [discriminate|]].
    + intros m [<-|Hm]; [exists p; exact E|apply A; exact Hm].
    + intros _. apply C. left. destruct acc as [|[k v] acc]; cbn; [discriminate|]. destruct (String.eqb n k); discriminate.
Qed.
Lemma pipelines_none w l : forall acc,
  (forall n, In n l -> exists p, get_pip (w_pips w) n = Some p) ->
  exists r, run exec (forP pipeline_status acc l) w = (Ok r, w).
Proof.
  induction l as [|n l IH]; intros acc H; [eexists; reflexivity|].
  rewrite run_forP_cons, run_pipeline. destruct (H n (or_introl eq_refl)) as [p ->].
  apply IH. intros m Hm. apply H. now right.
Qed.
Lemma pipelines_iff sh port yml w d : w_daemon w = Some d ->
  (lists (fst (run exec (status sh port GPipelines yml) w)) <->
   (forall n, In n (dkeys (df_pipelines (dm_df d))) -> exists p, get_pip (w_pips w) n = Some p) /\
   (yml = true \/ df_pipelines (dm_df d) <> [])).
Proof.
  intros Hd. unfold status. rewrite run_bind, run_act. cbn [exec]. rewrite Hd. cbv zeta. rewrite run_bind.
  destruct (run exec (forP pipeline_status [] (dkeys (df_pipelines (dm_df d)))) w) as [[l|e] w'] eqn:E.
  - destruct (pipelines_all _ _ _ _ _ E) as (A & B & C). rewrite format_iff by cells.
    assert (D : dvals l <> [] <-> df_pipelines (dm_df d) <> []).
    { unfold dvals, dkeys in *. destruct (df_pipelines (dm_df d)) as [|x y].
      - rewrite (B eq_refl). cbn. tauto.
      - assert (l <> []) by (apply C; right; discriminate). destruct l; cbn; intuition congruence. }
    tauto.
  - split; [intros (m & x & H); discriminate H|]. intros [H _].
    destruct (pipelines_none w _ [] H) as [r Er]. rewrite Er in E. discriminate E.
Qed.

Lemma caps_exact r : (exists x, caps_of r = Ok x) <-> (dr_ok r = true -> dr_data r = DdNone \/ sized (dr_data r)).
Proof.
  destruct r as [ok x]. unfold caps_of. cbn. destruct ok.
  - split.
    + intros [y H] _. destruct x as [|l|b|n|v]; cbn in *; auto. destruct v; cbn in *; auto; discriminate H.
    + intros H. destruct (H eq_refl) as [->|S]; [eexists; reflexivity|].
      destruct x as [|l|b|n|v]; cbn in *; try (destruct S; fail); try (eexists; reflexivity).
      * destruct (List.length l); eexists; reflexivity.
      * destruct n; eexists; reflexivity.
      * destruct v as [| | | |s| |l]; cbn in *; try (destruct S; fail);
          [destruct (String.length s)|destruct (List.length l)]; eexists; reflexivity.
  - split; [discriminate|]. intros _. eexists. reflexivity.
Qed.
Lemma component_iff acc k c w :
  (forall x w', run exec (component_status acc (k, c)) w = (Ok x, w') ->
     tells_caps w c /\ w_drvs w' = w_drvs w /\ w_driver w' = w_driver w /\ x <> []) /\
  (tells_caps w c -> exists x w', run exec (component_status acc (k, c)) w = (Ok x, w')).
Proof.
  rewrite run_component. split.
  - intros x w' H. destruct (get_drv (w_drvs w) (c_driver c)) as [v|] eqn:Ev; [|discriminate H].
    unfold ask in H. destruct (dv_port v) as [p|] eqn:Ep; [|discriminate H].
    destruct (w_driver w p _) as [r|] eqn:Er; [|discriminate H].
    destruct (caps_of r) as [y|e] eqn:Ec; [|discriminate H]. inversion H; subst. split; [|split; [|split]].
    + exists v, p, r. repeat split; auto. apply caps_exact. exists y. exact Ec.
    + reflexivity.
    + reflexivity.
    + intros X. destruct acc; discriminate X.
  - intros (v & p & r & Ev & Ep & Er & Hr). rewrite Ev. unfold ask. rewrite Ep, Er.
    destruct (proj2 (caps_exact r) Hr) as [y ->]. eexists _, _. reflexivity.
Qed.
Lemma tells_ext w w' c : w_drvs w' = w_drvs w -> w_driver w' = w_driver w -> (tells_caps w' c <-> tells_caps w c).
Proof. unfold tells_caps. intros -> ->. tauto. Qed.
Lemma components_all l : forall acc w r w', run exec (forP component_status acc l) w = (Ok r, w') ->
  (forall k c, In (k, c) l -> tells_caps w c) /\ (l = [] -> r = acc) /\ (acc <> [] \/ l <> [] -> r <> []).
Proof.
  induction l as [|[k c] l IH]; intros acc w r w' H.
  - cbn in H. inversion H; subst. split; [intros k c []|]. split; [reflexivity|tauto].
  - rewrite run_forP_cons in H. destruct (run exec (component_status acc (k, c)) w) as [[x|e] w1] eqn:E; [|discriminate H].
    destruct (proj1 (component_iff acc k c w) _ _ E) as (T & D1 & D2 & N).
    destruct (IH _ _ _ _ H) as (A & B & C). split; [|split; [discriminate|]].
    + intros k' c' [X|X]; [inversion X; subst; exact T|]. apply (tells_ext w w1 c' D1 D2). exact (A k' c' X).
    + intros _. apply C. left. exact N.
Qed.
Lemma components_none l : forall acc w,
  (forall k c, In (k, c) l -> tells_caps w c) -> exists r w', run exec (forP component_status acc l) w = (Ok r, w').
Proof.
  induction l as [|[k c] l IH]; intros acc w H; [eexists _, _; reflexivity|].
  destruct (proj2 (component_iff acc k c w) (H k c (or_introl eq_refl))) as (x & w1 & E).
  destruct (proj1 (component_iff acc k c w) _ _ E) as (T & D1 & D2 & N).
  rewrite run_forP_cons, E. apply IH. intros k' c' X. apply (tells_ext w w1 c' D1 D2). apply (H k' c'). now right.
Qed.
Lemma components_iff sh port yml w d : w_daemon w = Some d ->
  (lists (fst (run exec (status sh port GComponents yml) w)) <->
   (forall k c, In (k, c) (df_components (dm_df d)) -> tells_caps w c) /\
   (yml = true \/ df_components (dm_df d) <> [])).
Proof.
  intros Hd. unfold status. rewrite run_bind, run_act. cbn [exec]. rewrite Hd. cbv zeta. rewrite run_bind.
  destruct (run exec (forP component_status [] (df_components (dm_df d))) w) as [[l|e] w'] eqn:E.
  - destruct (components_all _ _ _ _ _ E) as (A & B & C). rewrite format_iff by cells.
    assert (D : dvals l <> [] <-> df_components (dm_df d) <> []).
    { unfold dvals in *. destruct (df_components (dm_df d)) as [|x y].
      - rewrite (B eq_refl). cbn. tauto.
      - assert (l <> []) by (apply C; right; discriminate). destruct l; cbn; intuition congruence. }
    tauto.
  - split; [intros (m & x & H); discriminate H|]. intros [H _].
    destruct (components_none _ [] w H) as (r & w1 & Er). rewrite Er in E. discriminate E.
Qed.
