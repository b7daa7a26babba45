(** * JobProofs: checking and starting queued jobs *)
From Coq Require Import List String Ascii ZArith Bool Lia Sorted Permutation.
From Verif Require Import Base BaseFacts PyStr Types ConfigModel Prog ProgFacts World WorldFacts
  Replies CmdModel KetchupModel JobModel SpecQueue SpecJob KetchupProofs PipCmdProofs MatchProofs.
Import ListNotations.
Open Scope list_scope.
Open Scope Z_scope.

(** ** check_queued *)
Definition mark (c : jcol) (ids : list Z) (l : list job) : list job :=
  map (fun j => if memZ (j_id j) ids then set_jcol j c else j) l.

Lemma mark_nil c l : mark c [] l = l.
Proof. unfold mark. cbn. apply map_id. Qed.

Lemma mark_ids c ids l : map j_id (mark c ids l) = map j_id l.
Proof.
  unfold mark. rewrite map_map. apply map_ext. intros j. destruct (memZ _ _); auto using set_jcol_id.
Qed.

Lemma set_jcol_idem j c : set_jcol (set_jcol j c) c = set_jcol j c.
Proof. destruct c; reflexivity. Qed.

Lemma memZ_app i l1 l2 : memZ i (l1 ++ l2) = memZ i l1 || memZ i l2.
Proof. induction l1 as [|a l1 IH]; cbn; auto. rewrite IH. now rewrite orb_assoc. Qed.

Lemma mark_snoc c ids i l : upd_jobs i [c] (mark c ids l) = mark c (ids ++ [i]) l.
Proof.
  unfold upd_jobs, mark. rewrite map_map. apply map_ext. intros j.
  rewrite memZ_app. cbn [memZ].
  destruct (memZ (j_id j) ids) eqn:E; cbn [orb].
  - rewrite set_jcol_id. cbn [set_jcols fold_left]. rewrite set_jcol_idem. destruct (Z.eqb _ _); auto.
  - cbn [set_jcols fold_left]. rewrite Bool.orb_false_r. reflexivity.
Qed.

Lemma mark_mark c ids1 ids2 l : mark c ids2 (mark c ids1 l) = mark c (ids1 ++ ids2) l.
Proof.
  unfold mark. rewrite map_map. apply map_ext. intros a. rewrite memZ_app.
  destruct (memZ (j_id a) ids1) eqn:Em; cbn [orb].
  - rewrite set_jcol_id, set_jcol_idem. destruct (memZ (j_id a) ids2); reflexivity.
  - reflexivity.
Qed.

Lemma in_get_job l i : In i (map j_id l) -> exists j, get_job l i = Some j.
Proof.
  intros H. destruct (get_job l i) as [j|] eqn:E; [eauto|].
  exfalso. revert H. now apply get_job_None.
Qed.

Lemma matching_nonempty w d m l : matching w d m l ->
  (l <> [] <-> exists p, In p (dvals (df_pipelines (dm_df d))) /\ can_run w d m p).
Proof.
  intros (ps & (f & Hf & ->) & ->). split.
  - intros H. destruct (filter f _) as [|p r] eqn:E; [now elim H|].
    exists p. assert (In p (filter f (dvals (df_pipelines (dm_df d))))) as Hp by (rewrite E; now left).
    apply filter_In in Hp as [H1 H2]. split; auto. now apply Hf.
  - intros (p & Hp & Hc) E. apply map_eq_nil in E.
    assert (In p (filter f (dvals (df_pipelines (dm_df d))))) as Hi.
    { apply filter_In. split; auto. now apply Hf. }
    rewrite E in Hi. destruct Hi.
Qed.

Section Check.
  Context (w0 : world) (d : daemon).

  Definition to_mark (j : job) : Prop := j_status j = Sq /\ some_match w0 d j.

  Lemma check_loop q : forall acc w x w',
    w_drvs w = w_drvs w0 -> w_driver w = w_driver w0 ->
    (forall j, In j q -> In (j_id j) (map j_id (w_jobs w))) ->
    run exec (forP (check_one d) acc q) w = (x, w') ->
    exists ids es, w' = add_events (set_jobs w (mark (JStatus Sqw) ids (w_jobs w)) (w_seq w)) es /\
      (forall i, In i ids -> exists j, In j q /\ j_id j = i /\ to_mark j) /\
      (forall m, x = Ok m ->
         (forall j, In j q -> to_mark j -> In (j_id j) ids) /\
         exists ms, m = acc ++ ms /\
           Forall2 (fun j e => fst e = j_id j /\ matching w0 d (pl_method (j_payload j)) (snd e)) q ms) /\
      (all_reachable w0 d -> exists m, x = Ok m).
  Proof.
    induction q as [|j q IH]; intros acc w x w' E1 E2 Hq H.
    - rewrite run_forP_nil in H. injection H as <- <-. exists [], [].
      split; [cbn; rewrite mark_nil; now rewrite set_jobs_same|].
      split; [intros i []|]. split; [|eauto].
      intros m E. injection E as <-. split; [intros j []|]. exists []. split; [now rewrite app_nil_r|constructor].
    - rewrite run_forP_cons in H. unfold check_one in H at 1. rewrite run_bind in H.
      destruct (query_find_matching (w_drvs w0) (w_driver w0) d (pl_method (j_payload j)) w E1 E2) as [es R].
      rewrite R in H. destruct (find_matchingR _ _ _ _) as [pips|e] eqn:Ef.
      2:{ injection H as <- <-. exists [], es. rewrite mark_nil, set_jobs_same by auto.
          split; auto. split; [intros i []|]. split; [discriminate|].
          intros Hr. destruct (find_matchingR_total w0 d (pl_method (j_payload j)) Hr) as [l El].
          rewrite Ef in El. discriminate. }
      apply find_matchingR_ok in Ef. pose proof (matching_nonempty _ _ _ _ Ef) as Hn.
      rewrite run_bind in H.
      assert (S : exists mk, run exec (match pips, j_status j with
           | _ :: _, Sq => bind (update_job_id (j_id j) [JStatus Sqw]) (fun _ => Ret tt)
           | _, _ => Ret tt end) (add_events w es) =
           (Ok tt, add_events (set_jobs w (mark (JStatus Sqw) (if mk : bool then [j_id j] else []) (w_jobs w)) (w_seq w)) es) /\
           (mk = true <-> to_mark j)).
      { destruct pips as [|pn pips].
        - exists false. rewrite mark_nil, set_jobs_same by auto. cbn. split; auto.
          split; [discriminate|]. intros [_ K]. now apply Hn in K.
        - destruct (j_status j) eqn:Es;
            try (exists false; rewrite mark_nil, set_jobs_same by auto; cbn; split; [auto|];
                 unfold to_mark; rewrite Es; split; [discriminate|intros [K _]; discriminate]).
          exists true. rewrite run_bind, run_update_job_id.
          destruct (in_get_job (upd_jobs (j_id j) [JStatus Sqw] (w_jobs (add_events w es))) (j_id j)) as [j1 ->].
          { rewrite upd_jobs_ids, ae_jobs. apply Hq. now left. }
          cbn [run]. split.
          + f_equal. rewrite ae_set_jobs, ae_jobs, ae_seq. f_equal.
            change [j_id j] with (@nil Z ++ [j_id j]). rewrite <- mark_snoc, mark_nil. reflexivity.
          + split; auto. intros _. split; auto. apply Hn. discriminate. }
      destruct S as (mk & S & Hmk). rewrite S in H. cbv beta iota in H. rewrite run_ret in H.
      apply IH in H as (ids & es' & -> & I1 & I2 & I3).
      2:{ rewrite ae_drvs. exact E1. } 2:{ rewrite ae_driver. exact E2. }
      2:{ intros j' Hj'. rewrite ae_jobs. cbn. rewrite mark_ids. apply Hq. now right. }
      exists ((if mk then [j_id j] else []) ++ ids), (es ++ es').
      split.
      { rewrite ae_set_jobs, ae_jobs, ae_seq, add_events_app. rewrite <- mark_mark. reflexivity. }
      split.
      { intros i Hi. apply in_app_iff in Hi as [Hi|Hi].
        - destruct mk; [|destruct Hi]. destruct Hi as [<-|[]]. exists j. split; [now left|].
          split; auto. now apply Hmk.
        - destruct (I1 i Hi) as (j' & K1 & K2). exists j'. split; [now right|auto]. }
      split; [|exact I3].
      intros m E. destruct (I2 m E) as (K1 & ms & -> & K2). split.
      { intros j' [<-|Hj'] Ht; apply in_app_iff.
        - left. apply Hmk in Ht. subst mk. now left.
        - right. auto. }
      exists ((j_id j, pips) :: ms). split; [now rewrite <- app_assoc|]. constructor; auto.
  Qed.
End Check.

Lemma check_queued_spec d w x w' : wf_queue w -> run exec (check_queued d) w = (x, w') ->
  (exists es jobs', w' = add_events (set_jobs w jobs' (w_seq w)) es /\
     Forall2 (fun j j' => j' = j \/
                (j_status j = Sq /\ some_match w d j /\ j' = with_jstatus j Sqw)) (w_jobs w) jobs' /\
     (forall m, x = Ok m ->
        Forall2 (fun j j' => j_status j = Sq -> some_match w d j -> j' = with_jstatus j Sqw)
          (w_jobs w) jobs')) /\
  (forall m, x = Ok m -> exists q, exactly (fun j => queued (j_status j)) (w_jobs w) q /\
     Forall2 (fun j e => fst e = j_id j /\ matching w d (pl_method (j_payload j)) (snd e)) q m) /\
  (all_reachable w d -> exists m, x = Ok m).
Proof.
  intros Hwf H. unfold check_queued in H. rewrite run_bind, run_act in H. cbn [exec jobs_where] in H.
  set (q := filter _ (w_jobs w)) in H.
  apply (check_loop w d) in H as (ids & es & -> & H1 & H2 & H3); auto.
  2:{ intros j Hj. apply filter_In in Hj as [Hj _]. now apply in_map. }
  assert (Hnd := wf_NoDup w Hwf).
  split; [|split].
  - exists es, (mark (JStatus Sqw) ids (w_jobs w)). split; auto. split.
    + unfold mark.
      assert (G : forall l, (forall j, In j l -> In j (w_jobs w)) ->
        Forall2 (fun j j' => j' = j \/ (j_status j = Sq /\ some_match w d j /\ j' = with_jstatus j Sqw)) l
         (map (fun j => if memZ (j_id j) ids then set_jcol j (JStatus Sqw) else j) l)).
      { induction l as [|j l IH]; intros Hl; constructor; [|apply IH; intros; apply Hl; now right].
        destruct (memZ (j_id j) ids) eqn:Em; [|now left]. right.
        apply memZ_In in Em. destruct (H1 _ Em) as (j' & K1 & K2 & K3 & K4).
        apply filter_In in K1 as [K1 _].
        assert (j' = j) as ->.
        { pose proof (In_get_job _ _ Hnd K1) as G1.
          pose proof (In_get_job _ _ Hnd (Hl j (or_introl eq_refl))) as G2. congruence. }
        split; auto. }
      apply G. auto.
    + intros m E. destruct (H2 m E) as [K1 _]. unfold mark.
      assert (G : forall l, (forall j, In j l -> In j (w_jobs w)) ->
        Forall2 (fun j j' => j_status j = Sq -> some_match w d j -> j' = with_jstatus j Sqw) l
         (map (fun j => if memZ (j_id j) ids then set_jcol j (JStatus Sqw) else j) l)).
      { induction l as [|j l IH]; intros Hl; constructor; [|apply IH; intros; apply Hl; now right].
        intros Hs Hm.
        assert (memZ (j_id j) ids = true) as ->; [|reflexivity].
        apply memZ_In, K1; [|split; auto]. apply filter_In. split; [apply Hl; now left|]. now rewrite Hs. }
      apply G. auto.
  - intros m E. destruct (H2 m E) as [_ (ms & -> & K)]. exists q. split; [|exact K].
    unfold q. apply exactly_filter; [apply Hwf|].
    intros j. unfold queued. destruct (j_status j); intuition congruence.
  - exact H3.
Qed.

(** ** action_queued: sorting *)
Lemma insert_sorted_perm x l : Permutation (insert_sorted x l) (x :: l).
Proof.
  induction l as [|y l IH]; cbn; auto. destruct (Z.leb _ _); auto.
  rewrite IH. apply perm_swap.
Qed.
Lemma sort_jobs_perm l : Permutation (sort_jobs l) l.
Proof. induction l as [|x l IH]; cbn; auto. rewrite insert_sorted_perm. now constructor. Qed.

Lemma insert_sorted_sorted x l : StronglySorted Z.lt (map fst l) -> ~ In (fst x) (map fst l) ->
  StronglySorted Z.lt (map fst (insert_sorted x l)).
Proof.
  induction l as [|y l IH]; cbn; intros H Hn; [repeat constructor|].
  inversion H as [|? ? H1 H2]; subst.
  destruct (Z.leb_spec (fst x) (fst y)) as [L|L].
  - assert (fst x < fst y) by (apply Z.le_neq; split; auto).
    cbn. constructor; auto. constructor; auto. eapply Forall_impl; [|exact H2]. cbn. intros; lia.
  - cbn. constructor; [apply IH; auto|].
    rewrite Forall_forall in *. intros i Hi.
    apply (Permutation_in i (Permutation_map fst (insert_sorted_perm x l))) in Hi.
    cbn in Hi. destruct Hi as [<-|Hi]; auto.
Qed.
Lemma sort_jobs_sorted l : NoDup (map fst l) -> StronglySorted Z.lt (map fst (sort_jobs l)).
Proof.
  induction l as [|x l IH]; cbn; intros H; [constructor|]. inversion H; subst.
  apply insert_sorted_sorted; auto. intros Hi.
  apply (Permutation_in _ (Permutation_map fst (sort_jobs_perm l))) in Hi. auto.
Qed.

(** ** The pure greedy assignment *)
Definition suits (j : job) (avail : dict pipstate) (pn : string) : bool :=
  match dget avail pn with
  | Some ps => p_ready ps && opt_eqb String.eqb (p_sample ps) (Some (pl_sample (j_payload j)))
  | None => false
  end.
Definition pick (j : job) (avail : dict pipstate) (l : list string) : option string :=
  find (suits j avail) l.
Fixpoint assign (jobs : list job) (avail : dict pipstate) (ms : list (Z * list string))
    : list (Z * string) :=
  match ms with
  | [] => []
  | m :: r =>
      match get_job jobs (fst m) with
      | None => []
      | Some j => match pick j avail (snd m) with
                  | None => assign jobs avail r
                  | Some pn => (fst m, pn) :: assign jobs (ddel avail pn) r
                  end
      end
  end.

Lemma find_split {A} (f : A -> bool) l a : find f l = Some a ->
  exists pre post, l = pre ++ a :: post /\ f a = true /\ forall x, In x pre -> f x = false.
Proof.
  induction l as [|b l IH]; cbn; [discriminate|]. destruct (f b) eqn:E.
  - intros H. injection H as <-. exists [], l. split; auto. split; auto. intros x [].
  - intros H. destruct (IH H) as (pre & post & -> & H1 & H2). exists (b :: pre), post.
    split; auto. split; auto. intros x [<-|Hx]; auto.
Qed.

(** The available pipelines are the free ones that are not in [used]. *)
Definition avail_ok (w : world) (used : list string) (avail : dict pipstate) : Prop :=
  NoDup (dkeys avail) /\
  forall pn ps, dget avail pn = Some ps <->
    get_pip (w_pips w) pn = Some ps /\ p_jobid ps = None /\ ~ In pn used.

Lemma suits_spec w used avail j pn : avail_ok w used avail ->
  (suits j avail pn = true <-> open_for w j pn /\ ~ In pn used).
Proof.
  intros [_ H]. unfold suits, open_for. destruct (dget avail pn) as [ps|] eqn:E.
  - apply H in E as (E1 & E2 & E3). rewrite andb_true_iff. split.
    + intros [K1 K2]. split; auto. exists ps. repeat split; auto.
      destruct (p_sample ps) as [s|]; cbn in K2; [|discriminate]. apply String.eqb_eq in K2. now subst.
    + intros [(ps' & K1 & K2 & K3 & K4) _]. rewrite E1 in K1. injection K1 as <-. split; auto.
      rewrite K4. cbn. apply String.eqb_refl.
  - split; [discriminate|]. intros [(ps' & K1 & K2 & _) K3].
    assert (dget avail pn = Some ps') by now apply H. congruence.
Qed.

Lemma avail_ok_del w used avail pn : avail_ok w used avail ->
  avail_ok w (pn :: used) (ddel avail pn).
Proof.
  intros [H1 H2]. split; [now apply NoDup_ddel|]. intros pn' ps. rewrite dget_ddel by auto.
  destruct (String.eqb_spec pn' pn) as [->|E].
  - split; [discriminate|]. intros (_ & _ & K). elim K. now left.
  - rewrite H2. cbn. intuition congruence.
Qed.

Lemma assign_greedy w used avail : forall ms,
  avail_ok w used avail ->
  StronglySorted Z.lt (map fst ms) ->
  (forall m, In m ms -> exists j, get_job (w_jobs w) (fst m) = Some j) ->
  let asg := assign (w_jobs w) avail ms in
  StronglySorted Z.lt (map fst asg) /\ NoDup (map snd asg) /\
  (forall x, In x asg -> ~ In (snd x) used /\ In (fst x) (map fst ms)) /\
  (forall i pn, In (i, pn) asg -> exists j pre post,
     In (i, pre ++ pn :: post) ms /\ get_job (w_jobs w) i = Some j /\
     open_for w j pn /\ ~ taken asg i pn /\
     forall pn', In pn' pre -> open_for w j pn' -> In pn' used \/ taken asg i pn') /\
  (forall i l j, In (i, l) ms -> get_job (w_jobs w) i = Some j ->
     ~ In i (map fst asg) -> forall pn, In pn l -> open_for w j pn -> In pn used \/ taken asg i pn).
Proof.
  intros ms. revert used avail. induction ms as [|[i l] ms IH]; intros used avail Ha Hs Hj asg.
  - cbn in asg. subst asg. repeat split; try constructor; cbn; intros; contradiction.
  - inversion Hs as [|? ? Hs1 Hs2]; subst. rewrite Forall_forall in Hs2.
    destruct (Hj (i, l) (or_introl eq_refl)) as [j Ej]. cbn [fst] in Ej.
    subst asg. cbn [assign fst snd]. rewrite Ej.
    destruct (pick j avail l) as [pn|] eqn:Ep.
    + apply find_split in Ep as (pre & post & -> & P1 & P2).
      destruct (IH (pn :: used) (ddel avail pn)) as (A1 & A2 & A3 & A4 & A5); auto using avail_ok_del.
      { intros m Hm. apply Hj. now right. }
      set (asg := assign (w_jobs w) (ddel avail pn) ms) in *.
      apply (suits_spec w used) in P1 as [P1 P3]; auto.
      assert (Hlt : forall x, In x asg -> i < fst x).
      { intros x Hx. apply Hs2. cbn. now apply A3. }
      split; [|split; [|split; [|split]]].
      * cbn. constructor; auto. rewrite Forall_forall. intros i' Hi'.
        apply in_map_iff in Hi' as (x & <- & Hx). auto.
      * cbn. constructor; auto. intros Hi. apply in_map_iff in Hi as (x & Ex & Hx).
        destruct (A3 x Hx) as [K _]. apply K. now left.
      * intros x [<-|Hx]; cbn; [split; auto|]. destruct (A3 x Hx) as [K1 K2].
        split; [intros K; apply K1; now right|]. now right.
      * intros i' pn' [E|Hx].
        -- injection E as <- <-. exists j, pre, post. split; [now left|]. split; auto. split; auto.
           split.
           ++ intros (i' & [E|Hi'] & L); [injection E as <-; lia|]. apply Hlt in Hi'. cbn in Hi'. lia.
           ++ intros pn' Hp Ho. left. destruct (in_dec string_dec pn' used) as [|Hu]; auto.
              assert (suits j avail pn' = true) by (apply (suits_spec w used); auto).
              rewrite (P2 _ Hp) in H. discriminate.
        -- destruct (A4 i' pn' Hx) as (j' & pre' & post' & B1 & B2 & B3 & B4 & B5).
           exists j', pre', post'. split; [now right|]. split; auto. split; auto. split.
           ++ intros (i'' & [E|Hi''] & L).
              ** injection E as -> ->. destruct (A3 _ Hx) as [K _]. apply K. now left.
              ** apply B4. exists i''. auto.
           ++ intros pn'' Hp Ho. destruct (B5 pn'' Hp Ho) as [[E|K]|K]; auto.
              ** right. exists i. split; [left; now rewrite E|]. apply (Hlt (i', pn')). auto.
              ** right. destruct K as (i'' & K1 & K2). exists i''. split; [now right|auto].
      * intros i' l' j' [E|Hin] Gj Hn pn' Hp Ho.
        -- injection E as <- <-. elim Hn. now left.
        -- destruct (A5 i' l' j' Hin Gj) with (pn := pn') as [[E|K]|K]; auto.
           ++ intros K. apply Hn. now right.
           ++ right. exists i. split; [left; now rewrite E|].
              apply (Hs2 i'). change i' with (fst (i', l')). now apply in_map.
           ++ right. destruct K as (i'' & K1 & K2). exists i''. split; [now right|auto].
    + destruct (IH used avail) as (A1 & A2 & A3 & A4 & A5); auto.
      { intros m Hm. apply Hj. now right. }
      set (asg := assign (w_jobs w) avail ms) in *.
      split; auto. split; auto. split; [|split].
      * intros x Hx. destruct (A3 x Hx). split; auto. now right.
      * intros i' pn' Hx. destruct (A4 i' pn' Hx) as (j' & pre' & post' & B1 & B2).
        exists j', pre', post'. split; [now right|auto].
      * intros i' l' j' [E|Hin] Gj Hn pn' Hp Ho; [|eauto].
        injection E as <- <-. left. rewrite Ej in Gj. injection Gj as <-.
        destruct (in_dec string_dec pn' used) as [|Hu]; auto.
        assert (suits j avail pn' = true) by (apply (suits_spec w used); auto).
        unfold pick in Ep. rewrite (find_none _ _ Ep _ Hp) in H. discriminate.
Qed.

(** ** Starting one job *)
Lemma has_dir_In l dd : has_dir l dd = true <-> In dd l.
Proof.
  unfold has_dir. rewrite existsb_exists. unfold jobdir_eqb. split.
  - intros ([s i] & H & E). apply andb_true_iff in E as [E1 E2]. cbn in *.
    apply String.eqb_eq in E1. apply Z.eqb_eq in E2. destruct dd; cbn in *; subst. auto.
  - intros H. exists dd. split; auto. now rewrite String.eqb_refl, Z.eqb_refl.
Qed.

Lemma run_launch_exists d j pn w : In (job_dir d (j_id j)) (w_dirs w) ->
  run exec (launch d j pn) w = (Err FileExistsError, w).
Proof.
  intros H. unfold launch. rewrite run_bind, run_act. cbn [exec].
  rewrite (proj2 (has_dir_In _ _) H). reflexivity.
Qed.

Lemma job_args_spec d j pn : start_args d j pn (job_args d j pn).
Proof.
  unfold start_args, job_args. cbn. repeat split; auto.
  - now apply filter_In in H.
  - apply filter_In in H as [_ H]. now apply mem_In.
  - intros [H1 H2]. apply filter_In. split; auto. now apply mem_In.
Qed.

Lemma run_launch d j pn w : ~ In (job_dir d (j_id j)) (w_dirs w) ->
  has_char "'" pn = false -> In pn (dkeys (df_pipelines (dm_df d))) ->
  get_job (w_jobs w) (j_id j) = Some j ->
  exists w', run exec (launch d j pn) w = (Ok tt, w') /\ started d [(j_id j, pn)] w w'.
Proof.
  intros Hd Hq Hc Hj. unfold launch. rewrite run_bind, run_act. cbn [exec].
  destruct (has_dir _ _) eqn:E; [apply has_dir_In in E; contradiction|].
  rewrite run_bind, run_lift. apply dget_Some_key in Hc as [p ->]. cbn [need].
  rewrite run_bind, run_act. cbn [exec]. rewrite run_bind, run_update_pip by auto.
  rewrite run_bind, run_act. cbn [exec]. rewrite run_bind, run_act. cbn [exec].
  rewrite run_bind, run_update_job_id.
  set (w2 := add_event _ _).
  assert (J2 : w_jobs w2 = w_jobs w) by reflexivity.
  rewrite J2. match goal with |- context [get_job (upd_jobs ?i ?cs ?l) ?k] =>
    destruct (in_get_job (upd_jobs i cs l) k) as [j1 ->] end.
  { rewrite upd_jobs_ids. apply get_job_In in Hj as [H1 H2]. now apply in_map. }
  eexists. split; [reflexivity|]. unfold started. subst w2. cbn -[upd_pips upd_jobs get_pip get_job].
  split; [|split; [|split; [|split; [|split; [|split]]]]]; auto.
  - exists [job_args d j pn]. split; auto. constructor; [|constructor].
    exists j. split; auto. apply job_args_spec.
  - apply upd_pips_names.
  - intros pn'. rewrite get_pip_upd. unfold assigned_to. cbn.
    rewrite (String.eqb_sym pn' pn). destruct (String.eqb pn pn'); auto.
  - unfold upd_jobs. apply map_ext. intros a. cbn. rewrite Bool.orb_false_r. reflexivity.
  - intros dd. split.
    + intros [<-|H]; auto. right. exists (j_id j, pn). split; [now left|reflexivity].
    + intros [H|(x & [<-|[]] & ->)]; auto.
Qed.

(** ** Composition of starts *)
Lemma started_nil d w : started d [] w w.
Proof.
  unfold started. cbn. repeat split; auto.
  - exists []. split; [now rewrite app_nil_r|constructor].
  - now rewrite map_id.
  - intros [H|(x & [] & _)]; auto.
Qed.

Lemma get_job_mark c ids l i : ~ In i ids -> get_job (mark c ids l) i = get_job l i.
Proof.
  intros H. unfold get_job, mark. induction l as [|j l IH]; cbn; auto.
  destruct (memZ (j_id j) ids) eqn:E.
  - rewrite set_jcol_id. destruct (Z.eqb_spec (j_id j) i) as [<-|N]; auto.
    elim H. now apply memZ_In.
  - destruct (Z.eqb (j_id j) i); auto.
Qed.

Lemma started_cons d i pn asg w w1 w2 :
  ~ In i (map fst asg) -> ~ In pn (map snd asg) ->
  started d [(i, pn)] w w1 -> started d asg w1 w2 -> started d ((i, pn) :: asg) w w2.
Proof.
  intros Hi Hp (A1 & A2 & A3 & A4 & A5 & A6 & A7 & A8 & A9 & A10 & A11)
    (B1 & B2 & B3 & B4 & B5 & B6 & B7 & B8 & B9 & B10 & B11).
  assert (A5' : w_jobs w1 = mark (JLaunched (Some (w_now w))) [i] (w_jobs w)) by exact A5.
  split; [|split; [|split; [|split; [|split; [|split]]]]]; try congruence.
  - destruct A1 as (args1 & E1 & F1), B1 as (args2 & E2 & F2).
    exists (args1 ++ args2). split; [rewrite E2, E1; now rewrite <- app_assoc|].
    change ((i, pn) :: asg) with ([(i, pn)] ++ asg). apply Forall2_app; auto.
    assert (G : forall l, Forall2 (fun x a => exists j, get_job (w_jobs w1) (fst x) = Some j /\ start_args d j (snd x) a) l args2 ->
      (forall x, In x l -> In (fst x) (map fst asg)) ->
      Forall2 (fun x a => exists j, get_job (w_jobs w) (fst x) = Some j /\ start_args d j (snd x) a) l args2).
    { clear F2 E2. revert args2. intros args2 l F. induction F as [|x a l args2 (j & K1 & K2) F IH]; intros Hl; constructor.
      - exists j. split; auto. rewrite A5', get_job_mark in K1; auto.
        intros [Ex|[]]. apply Hi. rewrite Ex. apply Hl. now left.
      - apply IH. intros; apply Hl; now right. }
    apply G; auto. intros x Hx. now apply in_map.
  - intros pn'. rewrite B3, A3. unfold assigned_to. cbn [find fst snd].
    destruct (String.eqb_spec pn pn') as [<-|N]; cbn; auto.
    destruct (find _ asg) as [x|] eqn:Ef; cbn; auto.
    apply find_some in Ef as [K1 K2]. apply String.eqb_eq in K2. elim Hp. rewrite <- K2. now apply in_map.
  - rewrite B5, A5', A11. unfold mark. rewrite map_map. apply map_ext. intros a. cbn [map].
    cbn [memZ]. rewrite Bool.orb_false_r. cbn [fst]. destruct (Z.eqb (j_id a) i) eqn:E; cbn [orb].
    + rewrite set_jcol_id, set_jcol_idem. destruct (memZ _ _); auto.
    + reflexivity.
  - intros dd. rewrite B6, A6. split.
    + intros [[K|(x & [<-|[]] & ->)]|(x & K & ->)]; auto.
      * right. exists (i, pn). split; [now left|auto].
      * right. exists x. split; [now right|auto].
    + intros [K|(x & [<-|K] & ->)]; auto.
      * left. right. exists (i, pn). split; [now left|auto].
      * right. eauto.
  - repeat split; congruence.
Qed.

Lemma run_try d j avail l : forall w,
  run exec (forB (try_pip d j) avail l) w =
  match pick j avail l with
  | None => (Ok (inl avail), w)
  | Some pn => match run exec (launch d j pn) w with
               | (Ok _, w') => (Ok (inr (ddel avail pn)), w')
               | (Err e, w') => (Err e, w')
               end
  end.
Proof.
  induction l as [|pn l IH]; intros w; [reflexivity|].
  cbn [forB pick find]. rewrite run_bind. unfold try_pip at 1, suits at 1.
  destruct (dget avail pn) as [ps|] eqn:E; [|apply IH].
  destruct (p_ready ps && _) eqn:Er; [|apply IH].
  rewrite run_bind. destruct (run exec (launch d j pn) w) as [[u|e] w']; reflexivity.
Qed.

Definition dir_of (d : daemon) (i : Z) : jobdir := (st_storage (dm_settings d), i).

Lemma action_loop d ms : forall avail w,
  StronglySorted Z.lt (map fst ms) ->
  NoDup (dkeys avail) ->
  (forall m, In m ms -> exists j, get_job (w_jobs w) (fst m) = Some j) ->
  (forall m pn, In m ms -> In pn (snd m) ->
     has_char "'" pn = false /\ In pn (dkeys (df_pipelines (dm_df d)))) ->
  let asg := assign (w_jobs w) avail ms in
  NoDup (map snd asg) ->
  exists x w', run exec (forP (action_one d) avail ms) w = (x, w') /\
  (((exists a, x = Ok a) /\ started d asg w w' /\ (forall y, In y asg -> ~ In (dir_of d (fst y)) (w_dirs w))) \/
   (exists asg1 y asg2, asg = asg1 ++ y :: asg2 /\ x = Err FileExistsError /\
      In (dir_of d (fst y)) (w_dirs w) /\ started d asg1 w w')).
Proof.
  induction ms as [|[i l] ms IH]; intros avail w Hs Hna Hj Hp asg Hnd.
  - exists (Ok avail), w. split; [reflexivity|]. left. split; [eauto|]. split; [apply started_nil|].
    intros y [].
  - inversion Hs as [|? ? Hs1 Hs2]; subst. rewrite Forall_forall in Hs2. cbn in Hs2.
    destruct (Hj (i, l) (or_introl eq_refl)) as [j Ej]. cbn [fst] in Ej.
    subst asg. cbn [assign fst snd] in *. rewrite Ej in *.
    rewrite run_forP_cons. unfold action_one at 1. rewrite run_bind, run_act. cbn [exec fst snd].
    rewrite Ej, run_bind, run_try.
    destruct (pick j avail l) as [pn|] eqn:Ep.
    + apply find_split in Ep as (pre & post & -> & P1 & P2).
      destruct (Hp (i, pre ++ pn :: post) pn) as [Q1 Q2]; [now left|apply in_app_iff; right; now left|].
      assert (j_id j = i) as Ei by (now apply get_job_In in Ej).
      destruct (in_dec (fun a b : jobdir => ltac:(decide equality; [apply Z.eq_dec|apply string_dec]))
                  (dir_of d i) (w_dirs w)) as [Hd|Hd].
      * rewrite run_launch_exists by (rewrite Ei; exact Hd). eexists _, _. split; [reflexivity|].
        right. exists [], (i, pn), (assign (w_jobs w) (ddel avail pn) ms). split; auto. split; auto.
        split; auto. apply started_nil.
      * destruct (run_launch d j pn w) as (w1 & -> & S1); auto.
        { rewrite Ei. exact Hd. } { rewrite Ei. exact Ej. }
        cbn [run]. rewrite Ei in S1. cbn [map snd] in Hnd. inversion Hnd as [|? ? N1 N2]; subst.
        assert (Hjobs : forall i', i' <> j_id j -> get_job (w_jobs w1) i' = get_job (w_jobs w) i').
        { intros i' Hi'. destruct S1 as (_ & _ & _ & _ & S & _).
          change (map _ (w_jobs w)) with (mark (JLaunched (Some (w_now w))) [j_id j] (w_jobs w)) in S.
          rewrite S. apply get_job_mark. intros [K|[]]. congruence. }
        assert (Hne : forall m, In m ms -> fst m <> j_id j).
        { intros m Hm K. assert (j_id j < fst m) by (apply Hs2, in_map; auto). lia. }
        assert (Ea : forall ms' avail', (forall m, In m ms' -> In m ms) -> assign (w_jobs w1) avail' ms' = assign (w_jobs w) avail' ms').
        { induction ms' as [|m ms' IHm]; intros avail' Hm; cbn; auto.
          rewrite Hjobs by (apply Hne, Hm; now left).
          destruct (get_job (w_jobs w) (fst m)) as [j0|]; auto.
          destruct (pick j0 avail' (snd m)); [f_equal|]; apply IHm; intros; apply Hm; now right. }
        destruct (IH (ddel avail pn) w1) as (x & w2 & R & C); auto using NoDup_ddel.
        { intros m Hm. rewrite Hjobs by auto. apply Hj. now right. }
        { intros m pn' Hm. apply Hp. now right. }
        { rewrite Ea by auto. auto. }
        rewrite Ea in C by auto. set (asg := assign (w_jobs w) (ddel avail pn) ms) in *.
        assert (Hfst : forall y, In y asg -> In (fst y) (map fst ms)).
        { unfold asg. clear. generalize (ddel avail pn). induction ms as [|m ms IH]; intros a y; cbn; [auto|].
          destruct (get_job _ _); [|intros []]. destruct (pick _ _ _); [intros [<-|H]; [now left|]|intros H];
          right; eapply IH; eauto. }
        assert (Hni : ~ In (j_id j) (map fst asg)).
        { intros K. apply in_map_iff in K as (y & K1 & K2). apply Hfst in K2. apply Hs2 in K2. lia. }
        assert (Hdirs : forall dd, In dd (w_dirs w1) <-> In dd (w_dirs w) \/ dd = dir_of d (j_id j)).
        { intros dd. destruct S1 as (_ & _ & _ & _ & _ & S & _). rewrite S. split; intros [K|K]; auto.
          - destruct K as (y & [<-|[]] & ->). auto.
          - right. exists (j_id j, pn). split; [now left|auto]. }
        exists x, w2. split; [exact R|].
        destruct C as [(C1 & C2 & C3)|(asg1 & y & asg2 & C1 & C2 & C3 & C4)].
        -- left. split; auto. split; [eapply started_cons; eauto|].
           intros y [<-|Hy]; [exact Hd|]. intros K. apply (C3 y Hy). apply Hdirs. now left.
        -- right. exists ((j_id j, pn) :: asg1), y, asg2. rewrite C1. split; auto. split; auto. split.
           ++ apply Hdirs in C3 as [C3|C3]; auto. injection C3 as C3. elim Hni. rewrite <- C3, C1, map_app.
              apply in_app_iff. right. now left.
           ++ eapply started_cons; eauto.
              ** intros K. apply Hni. rewrite C1, map_app. apply in_app_iff. now left.
              ** intros K. apply N1. rewrite C1, map_app. apply in_app_iff. now left.
    + cbn [run]. apply IH; auto.
      { intros m Hm. apply Hj. now right. }
      { intros m pn' Hm. apply Hp. now right. }
Qed.

Lemma by_name_spec l : NoDup (map p_name l) ->
  NoDup (dkeys (by_name l)) /\ forall n p, dget (by_name l) n = Some p <-> get_pip l n = Some p.
Proof.
  intros H. unfold by_name.
  assert (G : forall l (acc : dict pipstate), NoDup (map p_name l) -> NoDup (dkeys acc) ->
    NoDup (dkeys (fold_left (fun a p => dset a (p_name p) p) l acc)) /\
    forall n, dget (fold_left (fun a p => dset a (p_name p) p) l acc) n =
      match get_pip l n with Some p => Some p | None => dget acc n end).
  { clear. induction l as [|p l IH]; intros acc H Ha; cbn [fold_left]; [split; auto|].
    inversion H as [|? ? H1 H2]; subst. destruct (IH (dset acc (p_name p) p)) as [I1 I2]; auto using NoDup_dset.
    split; auto. intros n. rewrite I2. unfold get_pip at 2. cbn [find]. fold (get_pip l n).
    rewrite dget_dset, (String.eqb_sym n). destruct (String.eqb_spec (p_name p) n) as [<-|N]; auto.
    destruct (get_pip l (p_name p)) as [p'|] eqn:E; auto.
    apply get_pip_In in E as [E1 E2]. elim H1. rewrite <- E2. now apply in_map. }
  destruct (G l [] H) as [G1 G2]; [constructor|]. split; auto.
  intros n p. rewrite G2. cbn. destruct (get_pip l n); split; congruence.
Qed.

Lemma get_pip_filter f l n p : NoDup (map p_name l) ->
  (get_pip (filter f l) n = Some p <-> get_pip l n = Some p /\ f p = true).
Proof.
  intros H. split.
  - intros E. apply get_pip_In in E as [E1 E2]. apply filter_In in E1 as [E1 E3]. split; auto.
    rewrite <- E2. now apply In_get_pip.
  - intros [E1 E2]. apply get_pip_In in E1 as [E1 E3]. rewrite <- E3. apply In_get_pip.
    + clear E1 E2 E3. induction l as [|a l IH]; cbn in *; [constructor|]. inversion H; subst.
      destruct (f a); auto. cbn. constructor; auto. intros K. apply in_map_iff in K as (b & K1 & K2).
      apply filter_In in K2 as [K2 _]. apply H2. rewrite <- K1. now apply in_map.
    + apply filter_In. auto.
Qed.

Lemma action_queued_spec d matched w x w' :
  NoDup (map p_name (w_pips w)) -> NoDup (map fst matched) ->
  (forall m, In m matched -> exists j, get_job (w_jobs w) (fst m) = Some j) ->
  (forall m pn, In m matched -> In pn (snd m) ->
     has_char "'" pn = false /\ In pn (dkeys (df_pipelines (dm_df d)))) ->
  run exec (action_queued d matched) w = (x, w') ->
  exists asg, greedy w matched asg /\
  ((x = Ok tt /\ started d asg w w' /\
    (forall y, In y asg -> ~ In (st_storage (dm_settings d), fst y) (w_dirs w))) \/
   (exists asg1 y asg2, asg = asg1 ++ y :: asg2 /\ x = Err FileExistsError /\
      In (st_storage (dm_settings d), fst y) (w_dirs w) /\ started d asg1 w w')).
Proof.
  intros Hn Hm Hj Hp H. unfold action_queued in H. rewrite run_bind, run_act in H. cbn [exec] in H.
  set (free := filter _ (w_pips w)) in H.
  assert (Hnf : NoDup (map p_name free)).
  { unfold free. clear - Hn. induction (w_pips w) as [|a l IH]; cbn in *; [constructor|]. inversion Hn; subst.
    destruct (Bool.eqb _ _); auto. cbn. constructor; auto. intros K. apply in_map_iff in K as (b & K1 & K2).
    apply filter_In in K2 as [K2 _]. apply H1. rewrite <- K1. now apply in_map. }
  destruct (by_name_spec free Hnf) as [B1 B2].
  assert (Hav : avail_ok w [] (by_name free)).
  { split; auto. intros pn ps. rewrite B2. unfold free. rewrite get_pip_filter by auto.
    destruct (p_jobid ps); cbn; intuition congruence. }
  pose proof (sort_jobs_sorted _ Hm) as Hs. pose proof (sort_jobs_perm matched) as Pm.
  assert (Hj' : forall m, In m (sort_jobs matched) -> exists j, get_job (w_jobs w) (fst m) = Some j).
  { intros m K. apply Hj. eapply Permutation_in; eauto. }
  destruct (assign_greedy w [] (by_name free) (sort_jobs matched) Hav Hs Hj') as (G1 & G2 & G3 & G4 & G5).
  destruct (action_loop d (sort_jobs matched) (by_name free) w Hs B1 Hj') as (x1 & w1 & R & C); auto.
  { intros m pn K. apply Hp. eapply Permutation_in; eauto. }
  rewrite run_bind, R in H.
  exists (assign (w_jobs w) (by_name free) (sort_jobs matched)). split.
  - split; auto. split; auto. split.
    + intros i pn K. destruct (G4 i pn K) as (j & pre & post & K1 & K2 & K3 & K4 & K5).
      exists j, pre, post. split; [eapply Permutation_in; eauto|]. split; auto. split; auto. split; auto.
      intros pn' P O. destruct (K5 pn' P O) as [[]|]; auto.
    + intros i l j K1 K2 K3 pn K4 K5. destruct (G5 i l j) with (pn := pn) as [[]|]; auto.
      eapply Permutation_in; [apply Permutation_sym|]; eauto.
  - destruct C as [((a & ->) & C2 & C3)|(asg1 & y & asg2 & C1 & -> & C3 & C4)].
    + left. cbn in H. injection H as <- <-. auto.
    + right. injection H as <- <-. exists asg1, y, asg2. auto.
Qed.
