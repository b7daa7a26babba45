(** * MatchProofs: matching jobs with pipelines *)
From Coq Require Import List String Ascii ZArith Bool Lia Sorted.
From Verif Require Import Base BaseFacts PyStr Types ConfigModel Prog ProgFacts World WorldFacts
  Replies CmdModel KetchupModel JobModel SpecQueue SpecJob KetchupProofs CmdProofs.
Import ListNotations.
Open Scope list_scope.
Open Scope Z_scope.

(** ** Facts about [add_events] *)
Lemma add_events_app es1 : forall es2 w, add_events (add_events w es1) es2 = add_events w (es1 ++ es2).
Proof. induction es1 as [|e es1 IH]; intros es2 w; cbn; auto. Qed.

Ltac ae := rewrite !add_events_log; reflexivity.
Lemma ae_drvs w es : w_drvs (add_events w es) = w_drvs w. Proof. ae. Qed.
Lemma ae_driver w es : w_driver (add_events w es) = w_driver w. Proof. ae. Qed.
Lemma ae_jobs w es : w_jobs (add_events w es) = w_jobs w. Proof. ae. Qed.
Lemma ae_pips w es : w_pips (add_events w es) = w_pips w. Proof. ae. Qed.
Lemma ae_seq w es : w_seq (add_events w es) = w_seq w. Proof. ae. Qed.
Lemma ae_daemon w es : w_daemon (add_events w es) = w_daemon w. Proof. ae. Qed.
Lemma ae_set_jobs w es l s : set_jobs (add_events w es) l s = add_events (set_jobs w l s) es.
Proof. ae. Qed.
Lemma ae_set_pips w es l : set_pips (add_events w es) l = add_events (set_pips w l) es.
Proof. ae. Qed.

(** ** Programs that only ask *)
Section Query.
  Context (rows : list drvstate) (dr : Z -> dcmd -> option dreply).

  Definition query {A} (p : pgm A) (x : res A) : Prop :=
    forall w, w_drvs w = rows -> w_driver w = dr ->
    exists es, run exec p w = (x, add_events w es).

  Lemma query_ret {A} (a : A) : query (Ret a) (Ok a).
  Proof. intros w _ _. now exists []. Qed.

  Lemma query_lift {A} (x : res A) : query (lift x) x.
  Proof. intros w _ _. exists []. now rewrite run_lift. Qed.

  Lemma query_bind {A B} (p : pgm A) (f : A -> pgm B) x g :
    query p x -> (forall a, query (f a) (g a)) -> query (bind p f) (rbind x g).
  Proof.
    intros Hp Hf w E1 E2. destruct (Hp w E1 E2) as [es R]. rewrite run_bind, R.
    destruct x as [a|e]; cbn [rbind]; [|now exists es].
    destruct (Hf a (add_events w es)) as [es' R'].
    { now rewrite ae_drvs. } { now rewrite ae_driver. }
    rewrite R'. exists (es ++ es'). now rewrite add_events_app.
  Qed.

  Lemma query_forP {S A} (f : S -> A -> pgm S) g l : (forall s a, query (f s a) (g s a)) ->
    forall s, query (forP f s l) (foldM g s l).
  Proof.
    intros H. induction l as [|a l IH]; intros s; cbn [forP foldM]; [apply query_ret|].
    change (match g s a with Ok s' => foldM g s' l | Err e => Err e end)
      with (rbind (g s a) (fun s' => foldM g s' l)).
    apply query_bind; auto.
  Qed.

  Lemma query_forB {S A R} (f : S -> A -> pgm (S + R)) g l : (forall s a, query (f s a) (g s a)) ->
    forall s, query (forB f s l) (forR g s l).
  Proof.
    intros H. induction l as [|a l IH]; intros s; cbn [forB forR]; [apply query_ret|].
    replace (match g s a with Err e => Err e | Ok (inl s') => forR g s' l | Ok (inr y) => Ok (inr y) end)
      with (rbind (g s a) (fun x => match x with inl s' => forR g s' l | inr y => Ok (inr y) end))
      by (destruct (g s a) as [[]|]; reflexivity).
    apply query_bind; auto. intros [s'|y]; [auto|apply query_ret].
  Qed.

  (** Asking for a driver record and a driver. *)
  Lemma query_drv_get n : query (act (ODrvGet n)) (Ok (get_drv rows n)).
  Proof. intros w E1 E2. exists []. rewrite run_act. cbn. now rewrite E1. Qed.

  Definition askR (port : option Z) (c : dcmd) (silent : res dreply) : res dreply :=
    match port with
    | None => Err ZMQError
    | Some p => match dr p c with Some r => Ok r | None => silent end
    end.

  Lemma query_driver port c : query (act (ODriver port c)) (askR port c (Err Blocked)).
  Proof.
    intros w E1 E2. rewrite run_act. cbn [exec]. unfold ask, askR. rewrite E2.
    destruct port as [p|]; [|now exists []].
    destruct (dr p c); now exists [EvRequest p c].
  Qed.

  Lemma query_lpp port c :
    query (act (ODriverLpp port c)) (askR port c (Ok (mkDReply false DdNone))).
  Proof.
    intros w E1 E2. rewrite run_act. cbn [exec]. unfold ask, askR. rewrite E2.
    destruct port as [p|]; [|now exists []].
    destruct (dr p c); now exists [EvRequest p c].
  Qed.

  (** ** The functions of daemon/job.py as pure functions *)
  Definition driver_ofR (d : daemon) (cn : string) : res (component * drvstate) :=
    rbind (need (dget (df_components (dm_df d)) cn)) (fun cmp =>
    rbind (Ok (get_drv rows (c_driver cmp))) (fun o =>
    match o with None => Err AssertionError | Some dv => Ok (cmp, dv) end)).

  Lemma query_driver_of d cn : query (driver_of d cn) (driver_ofR d cn).
  Proof.
    unfold driver_of, driver_ofR. apply query_bind; [apply query_lift|]. intros cmp.
    apply query_bind; [apply query_drv_get|]. intros [dv|]; [apply query_ret|].
    intros w _ _. now exists [].
  Qed.

  Definition validate_roleR d t (u : unit) (rc : string * string) : res (unit + unit) :=
    if String.eqb (t_role t) (fst rc) then
      rbind (driver_ofR d (snd rc)) (fun x =>
      rbind (askR (dv_port (snd x)) (CValidate t (c_address (fst x)) (c_channel (fst x)))
               (Ok (mkDReply false DdNone)))
        (fun ret => if dr_ok ret then Ok (inr tt) else Ok (inl tt)))
    else Ok (inl tt).

  Lemma query_validate_role d t u rc : query (validate_role d t u rc) (validate_roleR d t u rc).
  Proof.
    unfold validate_role, validate_roleR. destruct (String.eqb _ _); [|apply query_ret].
    apply query_bind; [apply query_driver_of|]. intros x.
    apply query_bind; [apply query_lpp|]. intros ret. destruct (dr_ok ret); apply query_ret.
  Qed.

  Definition validate_taskR d pip (u : unit) (t : task) : res (unit + unit) :=
    rbind (forR (validate_roleR d t) tt (pp_components pip)) (fun x =>
      match x with inr tt => Ok (inl tt) | inl tt => Ok (inr tt) end).

  Lemma query_validate_task d pip u t : query (validate_task d pip u t) (validate_taskR d pip u t).
  Proof.
    unfold validate_task, validate_taskR. apply query_bind.
    - apply query_forB. intros. apply query_validate_role.
    - intros [[]|[]]; apply query_ret.
  Qed.

  Definition method_validateR d method pip : res bool :=
    rbind (forR (validate_taskR d pip) tt method) (fun x =>
      match x with inl tt => Ok true | inr tt => Ok false end).

  Lemma query_method_validate d method pip :
    query (method_validate d method pip) (method_validateR d method pip).
  Proof.
    unfold method_validate, method_validateR. apply query_bind.
    - apply query_forB. intros. apply query_validate_task.
    - intros [[]|[]]; apply query_ret.
  Qed.

  Definition add_capabsR d (capabs : list string) (cn : string) : res (list string) :=
    rbind (driver_ofR d cn) (fun x =>
    rbind (askR (dv_port (snd x)) (CCapabilities (c_address (fst x)) (c_channel (fst x))) (Err Blocked))
      (fun ret => match dr_ok ret, dr_data ret with
                  | true, DdCaps l => Ok (capabs ++ l)
                  | _, _ => Ok capabs
                  end)).

  Lemma query_add_capabs d capabs cn : query (add_capabs d capabs cn) (add_capabsR d capabs cn).
  Proof.
    unfold add_capabs, add_capabsR. apply query_bind; [apply query_driver_of|]. intros x.
    apply query_bind; [apply query_driver|]. intros ret.
    destruct (dr_ok ret); [|apply query_ret]. destruct (dr_data ret); apply query_ret.
  Qed.

  Definition match_pipelineR d method cands pip : res (list string) :=
    if negb (subset (set_of (map t_role method)) (set_of (dkeys (pp_components pip)))) then Ok cands
    else
      rbind (foldM (add_capabsR d) [] (dvals (pp_components pip))) (fun capabs =>
      if subset (set_of (map t_technique method)) capabs then
        rbind (method_validateR d method pip) (fun v =>
        if v then Ok (cands ++ [pp_name pip]) else Ok cands)
      else Ok cands).

  Lemma query_match_pipeline d method cands pip :
    query (match_pipeline d method cands pip) (match_pipelineR d method cands pip).
  Proof.
    unfold match_pipeline, match_pipelineR. destruct (negb _); [apply query_ret|].
    apply query_bind; [apply query_forP; intros; apply query_add_capabs|]. intros capabs.
    destruct (subset _ _); [|apply query_ret].
    apply query_bind; [apply query_method_validate|]. intros []; apply query_ret.
  Qed.

  Definition find_matchingR d method : res (list string) :=
    foldM (match_pipelineR d method) [] (dvals (df_pipelines (dm_df d))).

  Lemma query_find_matching d method :
    query (find_matching_pipelines d method) (find_matchingR d method).
  Proof. apply query_forP. intros. apply query_match_pipeline. Qed.
End Query.

(** ** Meaning *)
Lemma pipeline_dec (x y : pipeline) : {x = y} + {x <> y}.
Proof.
  repeat decide equality.
Qed.

Section Meaning.
  Context (w : world) (d : daemon).
  Notation rows := (w_drvs w).
  Notation dr := (w_driver w).

  Lemma driver_ofR_ok cn cmp dv : driver_ofR rows d cn = Ok (cmp, dv) <->
    dget (df_components (dm_df d)) cn = Some cmp /\ get_drv rows (c_driver cmp) = Some dv.
  Proof.
    unfold driver_ofR. destruct (dget _ cn) as [c|]; cbn.
    - destruct (get_drv _ (c_driver c)) as [v|] eqn:E; cbn.
      + split.
        * intros H. injection H as <- <-. auto.
        * intros [H1 H2]. injection H1 as <-. rewrite E in H2. now injection H2 as <-.
      + split; [discriminate|]. intros [H1 H2]. injection H1 as <-. congruence.
    - split; [discriminate|]. intros [H _]. discriminate.
  Qed.

  (** One role of the inner loop. *)
  Lemma validate_roleR_break t u rc : validate_roleR rows dr d t u rc = Ok (inr tt) <->
    t_role t = fst rc /\ accepts w d (snd rc) t.
  Proof.
    unfold validate_roleR. destruct (String.eqb_spec (t_role t) (fst rc)) as [E|E].
    2:{ split; [discriminate|]. intros [H _]. contradiction. }
    unfold accepts, component_port. destruct (driver_ofR rows d (snd rc)) as [[cmp dv]|e] eqn:Ed; cbn.
    - apply driver_ofR_ok in Ed as [E1 E2].
      unfold askR. destruct (dv_port dv) as [p|] eqn:Ep; cbn.
      + destruct (dr p _) as [r|] eqn:Er; cbn.
        * destruct (dr_ok r) eqn:Eo; cbn.
          -- split; auto. intros _. split; auto. exists cmp, p, r. split; [|auto].
             split; auto. eauto.
          -- split; [discriminate|]. intros (_ & cmp' & p' & r' & (C1 & dv' & C2 & C3) & C4 & C5).
             rewrite E1 in C1. injection C1 as <-. rewrite E2 in C2. injection C2 as <-.
             rewrite Ep in C3. injection C3 as <-. rewrite Er in C4. injection C4 as <-. congruence.
        * split; [discriminate|]. intros (_ & cmp' & p' & r' & (C1 & dv' & C2 & C3) & C4 & C5).
          rewrite E1 in C1. injection C1 as <-. rewrite E2 in C2. injection C2 as <-.
          rewrite Ep in C3. injection C3 as <-. congruence.
      + split; [discriminate|]. intros (_ & cmp' & p' & r' & (C1 & dv' & C2 & C3) & C4 & C5).
        rewrite E1 in C1. injection C1 as <-. rewrite E2 in C2. injection C2 as <-. congruence.
    - split; [discriminate|]. intros (_ & cmp' & p' & r' & (C1 & dv' & C2 & C3) & _).
      assert (driver_ofR rows d (snd rc) = Ok (cmp', dv')) by now apply driver_ofR_ok. congruence.
  Qed.

  Lemma forR_break t l : forall u x, forR (validate_roleR rows dr d t) u l = Ok x ->
    (x = inr tt <-> exists rc, In rc l /\ t_role t = fst rc /\ accepts w d (snd rc) t).
  Proof.
    induction l as [|rc l IH]; intros u x; cbn [forR].
    - intros E. injection E as <-. split; [discriminate|]. intros (rc & [] & _).
    - pose proof (validate_roleR_break t u rc) as B.
      destruct (validate_roleR rows dr d t u rc) as [[u'|[]]|e] eqn:E; [| |discriminate].
      + intros H. rewrite (IH u' x H). split; intros (rc' & Hin & H'); [exists rc'; split; auto; now right|].
        destruct Hin as [<-|Hin]; [|eauto]. exfalso. apply B in H'. discriminate.
      + intros H. injection H as <-. split; auto. intros _. exists rc. split; [now left|].
        now apply B.
  Qed.

  Definition task_ok (pip : pipeline) (t : task) : Prop :=
    exists cn, In (t_role t, cn) (pp_components pip) /\ accepts w d cn t.

  Lemma task_ok_iff pip t : task_ok pip t <->
    exists rc, In rc (pp_components pip) /\ t_role t = fst rc /\ accepts w d (snd rc) t.
  Proof.
    unfold task_ok. split.
    - intros (cn & H1 & H2). exists (t_role t, cn). auto.
    - intros ([r cn] & H1 & H2 & H3). cbn in *. subst. eauto.
  Qed.

  Lemma validate_taskR_ok pip u t x : validate_taskR rows dr d pip u t = Ok x ->
    (x = inl tt <-> task_ok pip t).
  Proof.
    unfold validate_taskR. destruct (forR _ tt _) as [y|e] eqn:E; [|discriminate].
    pose proof (forR_break t _ _ _ E) as B. rewrite task_ok_iff, <- B.
    destruct y as [[]|[]]; cbn; intros H; injection H as <-; split; congruence.
  Qed.

  Lemma method_validateR_ok method pip v : method_validateR rows dr d method pip = Ok v ->
    (v = true <-> forall t, In t method -> task_ok pip t).
  Proof.
    unfold method_validateR.
    assert (G : forall l u x, forR (validate_taskR rows dr d pip) u l = Ok x ->
              (x = inl tt <-> forall t, In t l -> task_ok pip t)).
    { induction l as [|t l IH]; intros u x; cbn [forR].
      - intros E. injection E as <-. destruct u. split; auto. intros _ t [].
      - destruct (validate_taskR rows dr d pip u t) as [[u'|r]|e] eqn:E; [| |discriminate].
        + apply validate_taskR_ok in E. destruct u'. assert (task_ok pip t) by now apply E.
          intros H1. rewrite (IH _ _ H1). split; [intros H2 t' [<-|Ht]; auto|intros H2 t' Ht; auto with *].
        + apply validate_taskR_ok in E. intros H1. injection H1 as <-.
          split; [discriminate|]. intros H. destruct r.
          assert (inr tt = inl tt :> unit + unit) by (apply E, H; now left). discriminate. }
    destruct (forR _ tt _) as [x|e] eqn:E; [|discriminate]. rewrite <- (G _ _ _ E).
    destruct x as [[]|[]]; cbn; intros H; injection H as <-; split; congruence.
  Qed.

  Lemma add_capabsR_ok caps cn caps' : add_capabsR rows dr d caps cn = Ok caps' ->
    forall t, In t caps' <-> In t caps \/ offers w d cn t.
  Proof.
    unfold add_capabsR. destruct (driver_ofR rows d cn) as [[cmp dv]|e] eqn:Ed; [|discriminate].
    apply driver_ofR_ok in Ed as [E1 E2]. cbn [rbind fst snd]. unfold askR.
    destruct (dv_port dv) as [p|] eqn:Ep; [|discriminate].
    destruct (dr p _) as [r|] eqn:Er; [|discriminate]. cbn [rbind]. intros H t.
    assert (O : offers w d cn t <-> dr_ok r = true /\ exists l, dr_data r = DdCaps l /\ In t l).
    { unfold offers, component_port. split.
      - intros (cmp' & p' & r' & l & (C1 & dv' & C2 & C3) & C4 & C5 & C6 & C7).
        rewrite E1 in C1. injection C1 as <-. rewrite E2 in C2. injection C2 as <-.
        rewrite Ep in C3. injection C3 as <-. rewrite Er in C4. injection C4 as <-. eauto.
      - intros (H1 & l & H2 & H3). exists cmp, p, r, l. split; [|auto]. split; eauto. }
    rewrite O. destruct (dr_ok r).
    - destruct (dr_data r); injection H as <-;
        try (split; [auto|]; intros [K|(_ & l' & K & _)]; [auto|discriminate]).
      rewrite in_app_iff. split.
      + intros [K|K]; eauto.
      + intros [K|(_ & l' & K & K')]; [auto|]. injection K as <-. auto.
    - injection H as <-. split; auto. intros [K|[K _]]; [auto|discriminate].
  Qed.

  Lemma all_capabs l : forall caps caps', foldM (add_capabsR rows dr d) caps l = Ok caps' ->
    forall t, In t caps' <-> In t caps \/ exists cn, In cn l /\ offers w d cn t.
  Proof.
    induction l as [|cn l IH]; intros caps caps'; cbn [foldM].
    - intros E t. injection E as <-. split; auto. intros [H|(cn & [] & _)]; auto.
    - destruct (add_capabsR rows dr d caps cn) as [c1|e] eqn:E; [|discriminate].
      intros H t. rewrite (IH _ _ H t), (add_capabsR_ok _ _ _ E t). split.
      + intros [[K|K]|(cn' & K1 & K2)]; [auto| |]; right.
        * exists cn. split; [now left|auto].
        * exists cn'. split; [now right|auto].
      + intros [K|(cn' & [<-|K1] & K2)]; auto. right. eauto.
  Qed.

  (** The decision for one pipeline. *)
  Lemma match_pipelineR_ok method cands pip l : match_pipelineR rows dr d method cands pip = Ok l ->
    exists b, (b = true <-> can_run w d method pip) /\
              l = cands ++ (if b : bool then [pp_name pip] else []).
  Proof.
    unfold match_pipelineR.
    destruct (subset (set_of (map t_role method)) _) eqn:Er; cbn [negb].
    2:{ intros E. injection E as <-. exists false. split; [|now rewrite app_nil_r].
        split; [discriminate|]. intros H. exfalso.
        assert (subset (set_of (map t_role method)) (set_of (dkeys (pp_components pip))) = true).
        { apply subset_spec. intros r Hr. apply (proj1 (set_of_In _ _)) in Hr. apply in_map_iff in Hr as (t & <- & Ht).
          apply (proj2 (set_of_In _ _)). destruct (H t Ht) as [(cn & K & _) _]. apply (in_map fst) in K. exact K. }
        congruence. }
    destruct (foldM _ [] _) as [caps|e] eqn:Ec; [|discriminate]. cbn [rbind].
    pose proof (all_capabs _ _ _ Ec) as Hc.
    destruct (subset (set_of (map t_technique method)) caps) eqn:Es.
    2:{ intros E. injection E as <-. exists false. split; [|now rewrite app_nil_r].
        split; [discriminate|]. intros H. exfalso.
        assert (subset (set_of (map t_technique method)) caps = true).
        { apply subset_spec. intros r Hr. apply (proj1 (set_of_In _ _)) in Hr. apply in_map_iff in Hr as (t & <- & Ht).
          apply Hc. right. destruct (H t Ht) as [_ (rc & K1 & K2)]. exists (snd rc).
          split; auto. now apply in_map. }
        congruence. }
    destruct (method_validateR rows dr d method pip) as [v|e] eqn:Ev; [|discriminate]. cbn [rbind].
    pose proof (method_validateR_ok _ _ _ Ev) as Hv.
    intros E. exists v. split.
    - rewrite Hv. unfold can_run. split.
      + intros H t Ht. split; [apply H; auto|].
        rewrite subset_spec in Es.
        assert (In (t_technique t) caps) as K by (apply Es, set_of_In, in_map; auto).
        apply Hc in K as [[]|(cn & K1 & K2)]. apply in_map_iff in K1 as (rc & <- & K1). eauto.
      + intros H t Ht. apply H; auto.
    - destruct v; injection E as <-; auto. now rewrite app_nil_r.
  Qed.

  Lemma find_matchingR_ok method l : find_matchingR rows dr d method = Ok l ->
    matching w d method l.
  Proof.
    unfold find_matchingR, matching.
    assert (G : forall ps cands l, foldM (match_pipelineR rows dr d method) cands ps = Ok l ->
       exists ps', selected (can_run w d method) ps ps' /\ l = cands ++ map pp_name ps').
    { induction ps as [|p ps IH]; intros cands l0; cbn [foldM].
      - intros E. injection E as <-. exists []. split; [|now rewrite app_nil_r].
        exists (fun _ => true). split; auto. intros a [].
      - destruct (match_pipelineR rows dr d method cands p) as [c1|e] eqn:E; [|discriminate].
        intros H. apply match_pipelineR_ok in E as (b & Hb & ->).
        apply IH in H as (ps' & (f & Hf & ->) & ->).
        (* decide membership by position: [f] extended at [p] must agree on equal pipelines *)
        destruct b.
        + exists (p :: filter f ps). split; [|cbn; now rewrite <- app_assoc].
          exists (fun a => if in_dec (fun x y : pipeline => pipeline_dec x y) a ps then f a else true).
          split.
          * intros a Ha. destruct (in_dec _ a ps) as [Hi|Hi]; [auto|].
            destruct Ha as [<-|Ha]; [|contradiction]. split; auto. intros _. now apply Hb.
          * cbn [filter]. destruct (in_dec _ p ps) as [Hi|Hi].
            -- assert (f p = true) as -> by (apply Hf; auto; now apply Hb). f_equal.
               apply filter_ext_in. intros a Ha. destruct (in_dec _ a ps); [auto|contradiction].
            -- f_equal. apply filter_ext_in. intros a Ha. destruct (in_dec _ a ps); [auto|contradiction].
        + exists (filter f ps). split; [|cbn; now rewrite app_nil_r].
          exists (fun a => if in_dec (fun x y : pipeline => pipeline_dec x y) a ps then f a else false).
          split.
          * intros a Ha. destruct (in_dec _ a ps) as [Hi|Hi]; [auto|].
            destruct Ha as [<-|Ha]; [|contradiction]. exact Hb.
          * cbn [filter]. destruct (in_dec _ p ps) as [Hi|Hi].
            -- destruct (f p) eqn:Ef; [apply Hf in Ef; auto; apply Hb in Ef; discriminate|].
               apply filter_ext_in. intros a Ha. destruct (in_dec _ a ps); [auto|contradiction].
            -- apply filter_ext_in. intros a Ha. destruct (in_dec _ a ps); [auto|contradiction]. }
    intros H. apply G in H. exact H.
  Qed.

  (** No error when everything answers. *)
  Lemma find_matchingR_total method : all_reachable w d ->
    exists l, find_matchingR rows dr d method = Ok l.
  Proof.
    intros Hr. unfold find_matchingR.
    assert (G : forall ps, (forall p, In p ps -> In p (dvals (df_pipelines (dm_df d)))) ->
      forall cands, exists l, foldM (match_pipelineR rows dr d method) cands ps = Ok l).
    { induction ps as [|p ps IH]; intros Hps cands; cbn [foldM]; [eauto|].
      assert (Hd : forall rc, In rc (pp_components p) -> exists cmp dv port,
        driver_ofR rows d (snd rc) = Ok (cmp, dv) /\ dv_port dv = Some port /\
        exists r, dr port (CCapabilities (c_address cmp) (c_channel cmp)) = Some r).
      { intros rc Hrc. destruct (Hr p rc (Hps p (or_introl eq_refl)) Hrc)
          as (cmp & port & r & (C1 & dv & C2 & C3) & C4).
        exists cmp, dv, port. split; [now apply driver_ofR_ok|]. eauto. }
      assert (M : exists c1, match_pipelineR rows dr d method cands p = Ok c1).
      { unfold match_pipelineR. destruct (negb _); [eauto|].
        assert (C : forall l caps, (forall cn, In cn l -> exists rc, In rc (pp_components p) /\ snd rc = cn) ->
          exists caps', foldM (add_capabsR rows dr d) caps l = Ok caps').
        { induction l as [|cn l IHl]; intros caps Hl; cbn [foldM]; [eauto|].
          destruct (Hl cn (or_introl eq_refl)) as (rc & H1 & <-).
          destruct (Hd rc H1) as (cmp & dv & port & E1 & E2 & r & E3).
          unfold add_capabsR at 1. rewrite E1. cbn [rbind fst snd]. unfold askR. rewrite E2, E3. cbn [rbind].
          destruct (dr_ok r); [destruct (dr_data r)|]; apply IHl; intros; apply Hl; now right. }
        destruct (C (dvals (pp_components p)) []) as [caps ->].
        { intros cn Hcn. apply in_map_iff in Hcn as (rc & <- & H). eauto. }
        cbn [rbind]. destruct (subset _ caps); [|eauto].
        assert (V : exists v, method_validateR rows dr d method p = Ok v).
        { unfold method_validateR.
          assert (E : forall s e, forR (validate_taskR rows dr d p) s method <> Err e).
          { apply forR_no_err. intros s t e _ E. unfold validate_taskR in E.
            destruct (forR _ tt (pp_components p)) as [[[]|[]]|e'] eqn:E2; try discriminate.
            revert E2. apply forR_no_err. intros u rc e2 Hrc E3. unfold validate_roleR in E3.
            destruct (String.eqb _ _); [|discriminate].
            destruct (Hd rc Hrc) as (cmp & dv & port & E4 & E5 & _). rewrite E4 in E3.
            cbn [rbind fst snd] in E3. unfold askR in E3. rewrite E5 in E3.
            destruct (dr port _) as [r'|]; cbn [rbind] in E3; [destruct (dr_ok r')|]; discriminate. }
          destruct (forR _ tt method) as [[[]|[]]|e] eqn:E1; [cbn; eauto|cbn; eauto|].
          now apply E in E1. }
        destruct V as [v ->]. cbn [rbind]. destruct v; eauto. }
      destruct M as [c1 ->]. apply IH. intros; apply Hps; now right. }
    apply G. auto.
  Qed.
End Meaning.

Lemma find_matching_spec d method w x w' :
  run exec (find_matching_pipelines d method) w = (x, w') ->
  (exists es, w' = add_events w es) /\
  (forall l, x = Ok l -> matching w d method l) /\
  (all_reachable w d -> exists l, x = Ok l).
Proof.
  intros H. destruct (query_find_matching (w_drvs w) (w_driver w) d method w eq_refl eq_refl) as [es E].
  rewrite H in E. injection E as -> ->. split; [eauto|]. split.
  - intros l E. now apply find_matchingR_ok.
  - intros Hr. apply (find_matchingR_total w d method Hr).
Qed.
