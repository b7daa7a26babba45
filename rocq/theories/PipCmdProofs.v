(** * PipCmdProofs: load, eject and ready *)
From Coq Require Import List String Ascii ZArith Bool Lia.
From Verif Require Import Base BaseFacts PyStr Types ConfigModel Prog ProgFacts World WorldFacts
  Replies CmdModel KetchupModel TomatoModel SpecPip KetchupProofs.
Import ListNotations.
Open Scope list_scope.
Open Scope Z_scope.

Lemma run_update_pip n cs w : has_char "'" n = false ->
  run exec (update_pip n cs) w =
  (Ok (get_pip (upd_pips n cs (w_pips w)) n), set_pips w (upd_pips n cs (w_pips w))).
Proof.
  intros Hq. unfold update_pip. rewrite run_bind, run_act. cbn [exec].
  rewrite (sql_lit_id n Hq). rewrite run_pip_get. reflexivity.
Qed.

Lemma only_pip_upd n cs w p : get_pip (w_pips w) n = Some p ->
  only_pip n (set_pcols cs p) w (set_pips w (upd_pips n cs (w_pips w))).
Proof.
  intros Hp. unfold only_pip. cbn [w_pips set_pips]. split; [reflexivity|].
  split; [apply upd_pips_names|]. split.
  - rewrite get_pip_upd, String.eqb_refl, Hp. reflexivity.
  - intros m Hm. rewrite get_pip_upd. now apply String.eqb_neq in Hm as ->.
Qed.

Lemma run_known port n f w :
  run exec (with_daemon port (fun d =>
    if negb (dhas (df_pipelines (dm_df d)) n) then Ret (mkReply false (MUnknownPip n) RNone)
    else f d)) w =
  match w_daemon w with
  | None => (Ok (mkReply false (MNotRunning port) RNone), w)
  | Some d => if dhas (df_pipelines (dm_df d)) n then run exec (f d) w
              else (Ok (mkReply false (MUnknownPip n) RNone), w)
  end.
Proof.
  rewrite run_with_daemon. destruct (w_daemon w) as [d|]; auto.
  destruct (dhas _ n); reflexivity.
Qed.

Lemma configured_dhas w d n : w_daemon w = Some d ->
  (configured_pip w n <-> dhas (df_pipelines (dm_df d)) n = true).
Proof.
  intros Ed. unfold configured_pip. rewrite dhas_true. split.
  - intros (d' & E & H). rewrite Ed in E. injection E as <-. now apply dget_Some_key.
  - intros H. exists d. split; auto. now apply dget_Some_key.
Qed.

Lemma load_spec port n s w : has_char "'" n = false ->
  exists r w', run exec (pipeline_load port n s) w = (Ok r, w') /\
  (r_ok r = true <-> configured_pip w n /\
     (forall p, get_pip (w_pips w) n = Some p -> p_sample p = None)) /\
  (r_ok r = false -> w' = w) /\
  (r_ok r = true ->
     match get_pip (w_pips w) n with
     | Some p => only_pip n (mkPip n false (p_jobid p) (Some s)) w w'
     | None => w' = w
     end).
Proof.
  intros Hq. unfold pipeline_load. rewrite run_known.
  destruct (w_daemon w) as [d|] eqn:Ed.
  2:{ do 2 eexists. split; [reflexivity|]. cbn. split; [|split; [auto|discriminate]].
      split; [discriminate|]. intros [(d & E & _) _]. congruence. }
  pose proof (configured_dhas w d n Ed) as Hc.
  destruct (dhas _ n).
  2:{ do 2 eexists. split; [reflexivity|]. cbn. split; [|split; [auto|discriminate]].
      split; [discriminate|]. intros [H _]. now apply Hc in H. }
  assert (C : configured_pip w n) by now apply Hc.
  rewrite run_bind, run_act. cbn [exec].
  assert (G : forall p, get_pip (w_pips w) n = p ->
    (forall q, p = Some q -> p_sample q = None) ->
    exists r w', run exec (p' <- update_pip n [PSample (Some s); PReady false];;
                           Ret (mkReply true (MLoaded s n) (RPip p')))%prog w = (Ok r, w') /\
    (r_ok r = true <-> configured_pip w n /\ (forall q, p = Some q -> p_sample q = None)) /\
    (r_ok r = false -> w' = w) /\
    (r_ok r = true -> match p with
     | Some p => only_pip n (mkPip n false (p_jobid p) (Some s)) w w' | None => w' = w end)).
  { intros p Ep Hs. rewrite run_bind, (run_update_pip _ _ _ Hq).
    do 2 eexists. split; [reflexivity|]. cbn [r_ok]. split; [tauto|]. split; [discriminate|].
    intros _. destruct p as [p|].
    - pose proof (only_pip_upd n [PSample (Some s); PReady false] w p Ep) as H.
      apply get_pip_In in Ep as [_ En]. cbn in H. rewrite En in H. exact H.
    - apply get_pip_None in Ep. rewrite upd_pips_nop by auto. now apply set_pips_same. }
  destruct (get_pip (w_pips w) n) as [[pn pr pj [ps|]]|] eqn:Ep.
  - do 2 eexists. split; [reflexivity|]. cbn. split; [|split; [auto|discriminate]].
    split; [discriminate|]. intros [_ H]. specialize (H _ eq_refl). discriminate.
  - apply G; auto. intros q E. injection E as <-. reflexivity.
  - apply G; auto. discriminate.
Qed.

Lemma eject_spec port n w p : has_char "'" n = false -> get_pip (w_pips w) n = Some p ->
  exists r w', run exec (pipeline_eject port n) w = (Ok r, w') /\
  (r_ok r = true <-> configured_pip w n /\ (p_sample p = None \/ p_jobid p = None)) /\
  (r_ok r = false -> w' = w) /\
  (r_ok r = true -> if is_some (p_sample p) then only_pip n (mkPip n false None None) w w'
                    else w' = w).
Proof.
  intros Hq Ep. unfold pipeline_eject. rewrite run_known.
  destruct (w_daemon w) as [d|] eqn:Ed.
  2:{ do 2 eexists. split; [reflexivity|]. cbn. split; [|split; [auto|discriminate]].
      split; [discriminate|]. intros [(d & E & _) _]. congruence. }
  pose proof (configured_dhas w d n Ed) as Hc.
  destruct (dhas _ n).
  2:{ do 2 eexists. split; [reflexivity|]. cbn. split; [|split; [auto|discriminate]].
      split; [discriminate|]. intros [H _]. now apply Hc in H. }
  assert (C : configured_pip w n) by now apply Hc.
  rewrite run_bind, run_act. cbn [exec]. rewrite Ep. destruct p as [pn pr pj [ps|]]; cbn [p_sample p_jobid].
  - destruct pj as [j|].
    + do 2 eexists. split; [reflexivity|]. cbn. split; [|split; [auto|discriminate]].
      split; [discriminate|]. intros [_ [H|H]]; discriminate.
    + rewrite run_bind, (run_update_pip _ _ _ Hq). do 2 eexists. split; [reflexivity|].
      cbn [r_ok is_some]. split; [tauto|]. split; [discriminate|]. intros _.
      pose proof (only_pip_upd n [PSample None; PReady false] w _ Ep) as H.
      apply get_pip_In in Ep as [_ En]. cbn in En. subst. exact H.
  - do 2 eexists. split; [reflexivity|]. cbn. split; [tauto|]. auto.
Qed.

Lemma ready_spec port n w p : has_char "'" n = false -> get_pip (w_pips w) n = Some p ->
  exists r w', run exec (pipeline_ready port n) w = (Ok r, w') /\
  (r_ok r = true <-> configured_pip w n /\ (p_ready p = true \/ p_jobid p = None)) /\
  (r_ok r = false -> w' = w) /\
  (r_ok r = true -> only_pip n (mkPip n true (p_jobid p) (p_sample p)) w w').
Proof.
  intros Hq Ep. unfold pipeline_ready. rewrite run_known.
  destruct (w_daemon w) as [d|] eqn:Ed.
  2:{ do 2 eexists. split; [reflexivity|]. cbn. split; [|split; [auto|discriminate]].
      split; [discriminate|]. intros [(d & E & _) _]. congruence. }
  pose proof (configured_dhas w d n Ed) as Hc.
  destruct (dhas _ n).
  2:{ do 2 eexists. split; [reflexivity|]. cbn. split; [|split; [auto|discriminate]].
      split; [discriminate|]. intros [H _]. now apply Hc in H. }
  assert (C : configured_pip w n) by now apply Hc.
  pose proof (get_pip_In _ _ _ Ep) as [_ En].
  rewrite run_bind, run_act. cbn [exec]. rewrite Ep. destruct p as [pn pr pj ps]; cbn [p_ready p_sample p_jobid].
  cbn in En. subst pn. destruct pr.
  - do 2 eexists. split; [reflexivity|]. cbn [r_ok]. split; [tauto|]. split; [discriminate|].
    intros _. split; [symmetry; now apply set_pips_same|]. auto.
  - destruct pj as [j|].
    + do 2 eexists. split; [reflexivity|]. cbn. split; [|split; [auto|discriminate]].
      split; [discriminate|]. intros [_ [H|H]]; discriminate.
    + rewrite run_bind, (run_update_pip _ _ _ Hq). do 2 eexists. split; [reflexivity|].
      cbn [r_ok is_some]. split; [tauto|]. split; [discriminate|]. intros _.
      exact (only_pip_upd n [PReady true] w _ Ep).
Qed.

Lemma no_record_unknown port n w : get_pip (w_pips w) n = None ->
  forall x w', run exec (pipeline_eject port n) w = (x, w') \/
               run exec (pipeline_ready port n) w = (x, w') ->
  w' = w /\ (forall r, x = Ok r -> r_ok r = false).
Proof.
  intros Ep x w' [H|H]; unfold pipeline_eject, pipeline_ready in H; rewrite run_known in H;
    (destruct (w_daemon w) as [d|]; [|injection H as <- <-; split; auto; intros r E; now injection E as <-]);
    (destruct (dhas _ n); [|injection H as <- <-; split; auto; intros r E; now injection E as <-]);
    rewrite run_bind, run_act in H; cbn [exec] in H; rewrite Ep in H; injection H as <- <-;
    split; auto; discriminate.
Qed.
