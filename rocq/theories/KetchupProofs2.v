(** * KetchupProofs2: exactly what the commands for jobs do (C11, C16, C17, C19, C20) *)
From Coq Require Import List String Ascii ZArith Bool Lia.
From Verif Require Import Base BaseFacts PyStr Types ConfigModel Prog ProgFacts World WorldFacts
  Replies CmdModel KetchupModel SpecQueue KetchupProofs SpecCancel.
Import ListNotations.
Open Scope list_scope.
Open Scope Z_scope.

Definition want (x : jstatus) (j : job) : jstatus :=
  match j_status j with Sq | Sqw => Scd | Sr => Srd | _ => x end.
Definition todo (l : list job) : list job := filter (fun j => negb (finishedb (j_status j))) l.

Lemma with_status_upd i s l : upd_jobs i [JStatus s] l = with_status i s l.
Proof. reflexivity. Qed.
Lemma upd_twice i a b l : upd_jobs i [JStatus b] (upd_jobs i [JStatus a] l) = upd_jobs i [JStatus b] l.
Proof.
  unfold upd_jobs. rewrite map_map. apply map_ext. intros j. destruct (Z.eqb (j_id j) i) eqn:E; [|rewrite E; reflexivity].
  rewrite set_jcols_id, E. reflexivity.
Qed.
Lemma upd_has i a b l : get_job l i = Some a -> exists c, get_job (upd_jobs i [JStatus b] l) i = Some c.
Proof. intros H. rewrite get_job_upd, Z.eqb_refl, H. cbn. eauto. Qed.

(** Once a status has been chosen the loop succeeds. *)
Lemma loop_some la l : forall x data w a, get_job (w_jobs w) la = Some a ->
  exists data', run exec (forP (cancel_one la) (Some x, data) l) w =
    (Ok (Some (fold_left want l x), data ++ data'),
     match todo l with [] => w | _ => set_jobs w (upd_jobs la [JStatus (fold_left want (todo l) x)] (w_jobs w)) (w_seq w) end) /\
    (data' = [] <-> todo l = []).
Proof.
  induction l as [|j l IH]; intros x data w a Ha.
  - exists []. rewrite app_nil_r. split; [reflexivity|]. cbn. tauto.
  - rewrite run_forP_cons. cbn [cancel_one fold_left].
    assert (Fin : finishedb (j_status j) = true -> want x j = x /\ todo (j :: l) = todo l).
    { intros F. unfold todo, want. cbn [filter]. rewrite F. destruct (j_status j); auto; discriminate. }
    assert (G : forall y, want x j = y -> finishedb (j_status j) = false ->
      exists data', run exec (bind (update_job_id la [JStatus y]) (fun j' => Ret (Some y, data ++ [j'])%list)) w =
        (Ok (Some y, data ++ [data']), set_jobs w (upd_jobs la [JStatus y] (w_jobs w)) (w_seq w))).
    { intros y _ _. destruct (upd_has la a y _ Ha) as [c Hc]. exists c. rewrite run_bind, run_update_job_id, Hc. reflexivity. }
    assert (K : finishedb (j_status j) = false -> forall y, want x j = y ->
      exists data', match run exec (bind (update_job_id la [JStatus y]) (fun j' => Ret (Some y, data ++ [j'])%list)) w with
                    | (Ok st, w1) => run exec (forP (cancel_one la) st l) w1
                    | (Err e, w1) => (Err e, w1)
                    end =
        (Ok (Some (fold_left want l (want x j)), data ++ data'),
         match todo (j :: l) with [] => w | _ => set_jobs w (upd_jobs la [JStatus (fold_left want (todo (j :: l)) x)] (w_jobs w)) (w_seq w) end) /\
        (data' = [] <-> todo (j :: l) = [])).
    { intros F y Ey. destruct (G y Ey F) as [c ->]. destruct (upd_has la a y _ Ha) as [c' Hc'].
      destruct (IH y (data ++ [c]) (set_jobs w (upd_jobs la [JStatus y] (w_jobs w)) (w_seq w)) c' Hc') as (d' & -> & Hd').
      exists (c :: d'). rewrite <- app_assoc, Ey. unfold todo. cbn [filter]. rewrite F. cbn [negb fold_left]. rewrite Ey.
      split; [|split; discriminate]. f_equal. fold (todo l). destruct (todo l) as [|t tl] eqn:Et; [reflexivity|].
      cbn [w_jobs set_jobs w_seq]. rewrite upd_twice. reflexivity. }
    destruct (j_status j) eqn:Es;
      try (destruct (Fin eq_refl) as [-> ->]; apply (IH x data w a Ha));
      apply (K eq_refl); unfold want; rewrite Es; reflexivity.
Qed.

Lemma loop_none la l : forall w a, get_job (w_jobs w) la = Some a ->
  match todo l with
  | [] => run exec (forP (cancel_one la) (None, []) l) w = (Ok (None, []), w)
  | j :: _ =>
      if jstatus_eqb (j_status j) Srd then run exec (forP (cancel_one la) (None, []) l) w = (Err UnboundLocalError, w)
      else exists x c data, run exec (forP (cancel_one la) (None, []) l) w =
        (Ok (x, c :: data), set_jobs w (upd_jobs la [JStatus (fold_left want (todo l) Sq)] (w_jobs w)) (w_seq w))
  end.
Proof.
  induction l as [|j l IH]; intros w a Ha; [reflexivity|].
  rewrite run_forP_cons. cbn [cancel_one].
  assert (Fin : finishedb (j_status j) = true -> todo (j :: l) = todo l).
  { intros F. unfold todo. cbn [filter]. rewrite F. reflexivity. }
  assert (Op : finishedb (j_status j) = false -> todo (j :: l) = j :: todo l).
  { intros F. unfold todo. cbn [filter]. rewrite F. reflexivity. }
  assert (K : forall y, finishedb (j_status j) = false -> want Sq j = y ->
      exists x c data, match run exec (bind (update_job_id la [JStatus y]) (fun j' => Ret (Some y, [] ++ [j'])%list)) w with
                    | (Ok st, w1) => run exec (forP (cancel_one la) st l) w1
                    | (Err e, w1) => (Err e, w1)
                    end =
        (Ok (x, c :: data), set_jobs w (upd_jobs la [JStatus (fold_left want (todo (j :: l)) Sq)] (w_jobs w)) (w_seq w))).
  { intros y F Ey. destruct (upd_has la a y _ Ha) as [c Hc]. rewrite run_bind, run_update_job_id, Hc. cbn [run].
    destruct (loop_some la l y ([] ++ [c]) (set_jobs w (upd_jobs la [JStatus y] (w_jobs w)) (w_seq w)) c Hc) as (d' & E & _).
    rewrite E. do 3 eexists. rewrite (Op F). cbn [fold_left]. rewrite Ey. cbn [app].
    f_equal. destruct (todo l) as [|t tl]; [reflexivity|]. cbn [w_jobs set_jobs w_seq]. rewrite upd_twice. reflexivity. }
  destruct (j_status j) eqn:Es; try (rewrite (Fin eq_refl); apply (IH w a Ha));
    rewrite (Op eq_refl), Es; cbn [jstatus_eqb]; try reflexivity; rewrite <- (Op eq_refl); apply (K _ eq_refl);
    unfold want; rewrite Es; reflexivity.
Qed.

Lemma last_any {A} (a : A) l : forall x y, last (a :: l) x = last (a :: l) y.
Proof. revert a. induction l as [|b l IH]; intros a x y; [reflexivity|]. exact (IH b x y). Qed.
Lemma last_map {A B} (f : A -> B) l : forall d, last (map f l) (f d) = f (last l d).
Proof. induction l as [|a [|b l] IH]; intros d; try reflexivity. exact (IH d). Qed.
Lemma want_last l : forall x, (forall j, In j l -> finishedb (j_status j) = false) ->
  fold_left want l x = last (map (fun j => cancelled (j_status j)) (to_cancel l)) x.
Proof.
  induction l as [|j l IH]; intros x H; [reflexivity|]. cbn [fold_left].
  assert (Hl : forall j, In j l -> finishedb (j_status j) = false) by (intros; apply H; now right).
  rewrite (IH _ Hl). unfold to_cancel. cbn [filter].
  assert (L : forall (m : list jstatus) y z, last (y :: m) z = last m y).
  { induction m as [|b m IHm]; intros y z; [reflexivity|].
    change (last (y :: b :: m) z) with (last (b :: m) z). rewrite !IHm. reflexivity. }
  specialize (H j (or_introl eq_refl)). unfold want.
  destruct (j_status j) eqn:Es; try discriminate H; cbn [jstatus_eqb negb]; cbn [map]; rewrite ?L, ?Es; reflexivity.
Qed.

Lemma todo_open ids l : todo (filter (fun j => memZ (j_id j) ids) l) = open_jobs ids l.
Proof.
  unfold todo, open_jobs. induction l as [|j l IH]; [reflexivity|]. cbn [filter].
  destruct (memZ (j_id j) ids); cbn [andb filter]; rewrite IH; reflexivity.
Qed.

Lemma C16_exact_lemma port ids w d : w_daemon w = Some d -> ids <> [] ->
  (forall i, In i ids -> get_job (w_jobs w) i <> None) ->
  match open_jobs ids (w_jobs w) with
  | [] => exists r, run exec (ketchup_cancel port ids) w = (Ok r, w) /\ r_ok r = true
  | j :: _ =>
      if jstatus_eqb (j_status j) Srd then run exec (ketchup_cancel port ids) w = (Err UnboundLocalError, w)
      else exists r, run exec (ketchup_cancel port ids) w =
        (Ok r, set_jobs w (with_status (last ids 0)
                 (cancelled (j_status (last (to_cancel (open_jobs ids (w_jobs w))) j))) (w_jobs w)) (w_seq w)) /\ r_ok r = true
  end.
Proof.
  intros Ed Hne Hids.
  unfold ketchup_cancel. rewrite run_with_daemon, Ed. unfold cancel.
  rewrite run_bind, run_act. cbn [exec jobs_where].
  set (sel := filter _ (w_jobs w)). set (la := last ids 0) in *.
  replace (find _ ids) with (@None Z).
  2:{ destruct (find _ ids) as [i|] eqn:E; auto. apply find_some in E as [Hi E].
      apply negb_true_iff, memZ_not_In in E. exfalso. apply E.
      destruct (get_job (w_jobs w) i) as [j|] eqn:Ej; [|contradiction (Hids i Hi Ej)].
      apply get_job_In in Ej as [A B]. rewrite <- B. apply in_map. unfold sel. apply filter_In. split; [exact A|].
      apply memZ_In. rewrite B. exact Hi. }
  assert (Hla : In la ids).
  { unfold la. clear -Hne. destruct ids as [|i0 ids']; [congruence|]. clear Hne.
    revert i0. induction ids' as [|a l IH]; intros i0; [now left|].
    right. change (last (i0 :: a :: l) 0) with (last (a :: l) 0). apply IH. }
  destruct (get_job (w_jobs w) la) as [a|] eqn:Ea; [|contradiction (Hids la Hla Ea)].
  pose proof (loop_none la sel w a Ea) as L. unfold sel in L. rewrite todo_open in L. fold sel in L.
  rewrite run_bind.
  destruct (open_jobs ids (w_jobs w)) as [|j us] eqn:Eu.
  - rewrite L. cbn. eauto.
  - destruct (jstatus_eqb (j_status j) Srd) eqn:Er; [rewrite L; reflexivity|].
    destruct L as (x & c & data & L). rewrite L. cbn [snd]. rewrite run_ret.
    eexists (mkReply true _ _). split; [|reflexivity].
    f_equal. f_equal. rewrite with_status_upd. f_equal.
    assert (U : forall k, In k (j :: us) -> finishedb (j_status k) = false).
    { intros k Hk. rewrite <- Eu in Hk. unfold open_jobs in Hk. apply filter_In in Hk. destruct Hk as [_ Hk].
      apply andb_prop in Hk. destruct (finishedb (j_status k)); [destruct Hk; discriminate|reflexivity]. }
    rewrite (want_last _ _ U).
    assert (T : to_cancel (j :: us) = j :: to_cancel us) by (unfold to_cancel; cbn [filter]; rewrite Er; reflexivity).
    rewrite T. cbn [map].
    rewrite (last_any (cancelled (j_status j)) _ Sq (cancelled (j_status j))).
    change (cancelled (j_status j) :: map (fun j0 => cancelled (j_status j0)) (to_cancel us))
      with (map (fun j0 => cancelled (j_status j0)) (j :: to_cancel us)).
    apply (last_map (fun j0 => cancelled (j_status j0))).
Qed.

Lemma jobs_of_set w l l' s : set_jobs w l s = set_jobs w l' s -> l = l'.
Proof. intros H. change (w_jobs (set_jobs w l s) = l'). rewrite H. reflexivity. Qed.
Lemma map_eq_in {A B} (f g : A -> B) l : map f l = map g l -> forall a, In a l -> f a = g a.
Proof.
  induction l as [|x l IH]; intros H a; [intros []|]. cbn in H. injection H as H1 H2. intros [<-|Ha]; auto.
Qed.
Lemma unfinished_status s : finishedb s = false -> s <> Srd -> cancelled s <> s.
Proof. destruct s; cbn; intros H1 H2 H3; congruence. Qed.
Lemma same_status j : with_jstatus j (j_status j) = j.
Proof. destruct j; reflexivity. Qed.

Lemma C16_iff_lemma port ids w d : wf_queue w -> w_daemon w = Some d -> ids <> [] ->
  (forall i, In i ids -> get_job (w_jobs w) i <> None) ->
  ((exists r, run exec (ketchup_cancel port ids) w = (Ok r, set_jobs w (cancel_all ids (w_jobs w)) (w_seq w)) /\ r_ok r = true) <->
   match open_jobs ids (w_jobs w) with
   | [] => True
   | j :: rest => j_id j = last ids 0 /\ j_status j <> Srd /\ forall j', In j' rest -> j_status j' = Srd
   end).
Proof.
  intros Hw Ed Hne Hids. pose proof (wf_NoDup w Hw) as Hn. pose proof (C16_exact_lemma port ids w d Ed Hne Hids) as X.
  assert (Ho : forall j, In j (open_jobs ids (w_jobs w)) <-> In j (w_jobs w) /\ In (j_id j) ids /\ finishedb (j_status j) = false).
  { intros j. unfold open_jobs. rewrite filter_In, andb_true_iff, memZ_In, negb_true_iff. tauto. }
  assert (Hla : In (last ids 0) ids).
  { clear -Hne. destruct ids as [|i0 ids']; [congruence|]. clear Hne.
    revert i0. induction ids' as [|a l IH]; intros i0; [now left|].
    right. change (last (i0 :: a :: l) 0) with (last (a :: l) 0). apply IH. }
  assert (Hfin : forall a, In a (w_jobs w) -> In (j_id a) ids -> ~ In a (open_jobs ids (w_jobs w)) ->
     with_jstatus a (cancelled (j_status a)) = a).
  { intros a Ha Hi Hno. destruct (finishedb (j_status a)) eqn:F.
    - replace (cancelled (j_status a)) with (j_status a) by (destruct (j_status a); auto; discriminate). apply same_status.
    - exfalso. apply Hno. apply Ho. auto. }
  assert (NDo : NoDup (map j_id (open_jobs ids (w_jobs w)))).
  { unfold open_jobs. clear -Hn. induction (w_jobs w) as [|a l IH]; cbn [filter]; [constructor|].
    cbn in Hn. apply NoDup_cons_iff in Hn. destruct Hn as [H1 H2]. destruct (_ && _); [|auto].
    cbn. constructor; [|auto]. intros H. apply H1. apply in_map_iff in H. destruct H as (b & E & Hb). apply filter_In in Hb.
    rewrite <- E. apply in_map. apply Hb. }
  destruct (open_jobs ids (w_jobs w)) as [|j rest] eqn:Eu.
  - destruct X as (r & X & Hr). split; [auto|]. intros _. exists r. split; [|exact Hr]. rewrite X. f_equal.
    symmetry. apply set_jobs_same; [|reflexivity]. unfold cancel_all. rewrite <- (map_id (w_jobs w)) at 1.
    apply map_ext_in. intros a Ha. destruct (memZ (j_id a) ids) eqn:Em; [|reflexivity]. apply memZ_In in Em.
    symmetry. apply Hfin; auto.
  - destruct (jstatus_eqb (j_status j) Srd) eqn:Er.
    + assert (Es : j_status j = Srd) by (destruct (j_status j); auto; discriminate).
      split; [intros (r & H & _); rewrite X in H; discriminate|]. intros (_ & H & _). contradiction.
    + assert (Es : j_status j <> Srd) by (intros E; rewrite E in Er; discriminate).
      destruct X as (r & X & Hr). split.
      * intros (r' & H & _). rewrite X in H. apply (f_equal snd) in H. cbn [snd] in H. apply jobs_of_set in H.
        unfold with_status, cancel_all in H. pose proof (map_eq_in _ _ _ H) as P.
        assert (Q : forall k, In k (j :: rest) -> j_status k <> Srd -> j_id k = last ids 0).
        { intros k Hk Hs. apply Ho in Hk. destruct Hk as (K1 & K2 & K3). specialize (P k K1). cbv beta in P.
          apply memZ_In in K2. rewrite K2 in P. destruct (Z.eqb_spec (j_id k) (last ids 0)) as [E|E]; [exact E|]. exfalso.
          apply (unfinished_status _ K3 Hs). apply (f_equal j_status) in P. cbn in P. congruence. }
        split; [apply Q; [now left|exact Es]|]. split; [exact Es|]. intros k Hk.
        destruct (jstatus_eqb (j_status k) Srd) eqn:Ek; [destruct (j_status k); auto; discriminate|]. exfalso.
        assert (E1 : j_id k = last ids 0) by (apply Q; [now right|]; intros E; rewrite E in Ek; discriminate).
        assert (E2 : j_id j = last ids 0) by (apply Q; [now left|exact Es]).
        cbn in NDo. apply NoDup_cons_iff in NDo. destruct NDo as [N _]. apply N. rewrite E2, <- E1. apply in_map. exact Hk.
      * intros (E1 & _ & E3). exists r. split; [|exact Hr]. rewrite X. f_equal. f_equal.
        assert (T : to_cancel (j :: rest) = [j]).
        { unfold to_cancel. cbn [filter]. rewrite Er. cbn [negb]. f_equal. clear -E3. induction rest as [|k rest IH]; [reflexivity|].
          cbn [filter]. rewrite (E3 k (or_introl eq_refl)). cbn. apply IH. intros k' Hk'. apply E3. now right. }
        rewrite T. cbn [last]. unfold with_status, cancel_all. apply map_ext_in. intros a Ha.
        assert (Hj : In j (w_jobs w)) by (apply Ho; now left).
        destruct (Z.eqb_spec (j_id a) (last ids 0)) as [E|E].
        -- assert (a = j).
           { pose proof (In_get_job _ _ Hn Ha) as G1. pose proof (In_get_job _ _ Hn Hj) as G2. rewrite E, <- E1, G2 in G1. congruence. }
           subst a. replace (memZ (j_id j) ids) with true; [reflexivity|]. symmetry. apply memZ_In. rewrite E. exact Hla.
        -- destruct (memZ (j_id a) ids) eqn:Em; [|reflexivity]. apply memZ_In in Em.
           destruct (finishedb (j_status a)) eqn:F.
           ++ replace (cancelled (j_status a)) with (j_status a) by (destruct (j_status a); auto; discriminate).
              symmetry. apply same_status.
           ++ assert (In a (j :: rest)) as [->|K] by (apply Ho; auto); [contradiction|].
              rewrite (E3 a K). cbn. rewrite <- (E3 a K). symmetry. apply same_status.
Qed.

(** ** The job reported by submit (C11) *)
Lemma submit_reports_first port f cwd name w r w' :
  wf_queue w ->
  run exec (ketchup_submit port f cwd name) w = (Ok r, w') -> r_ok r = true ->
  exists before j after, w_jobs w' = (before ++ j :: after)%list /\ j_submitted j = w_now w /\
    (forall j', In j' before -> j_submitted j' <> w_now w) /\
    r_msg r = MSubmitted (j_id j) (j_jobname j) /\ r_data r = RJob j.
Proof.
  intros Hw H Hr. unfold ketchup_submit in H. rewrite run_with_daemon in H.
  destruct (w_daemon w) as [d|]; [|injection H as <- <-; discriminate].
  rewrite run_submit in H. destruct f as [| |e|v]; try (injection H as <- <-; discriminate); try discriminate.
  cbv zeta in H.
  destruct (unknown_repo _ _) as [x|]; [injection H as <- <-; discriminate|].
  set (p := fill_paths cwd (vp_payload (upgrade v))) in *.
  set (nj := fresh_job _ _ _ _) in *.
  destruct (submit_read_back w nj Hw eq_refl) as (j & E1 & E2). rewrite E1 in H.
  injection H as <- <-. cbn [r_msg r_data w_jobs set_jobs].
  assert (F : forall l, match find (fun j => Z.eqb (j_submitted j) (w_now w)) l with
     | Some a => exists b c, l = (b ++ a :: c)%list /\ j_submitted a = w_now w /\ forall x, In x b -> j_submitted x <> w_now w
     | None => forall x, In x l -> j_submitted x <> w_now w end).
  { induction l as [|a l IH]; [intros x []|]. cbn [find]. destruct (Z.eqb_spec (j_submitted a) (w_now w)) as [E|E].
    - exists [], l. split; [reflexivity|]. split; [exact E|intros x []].
    - destruct (find _ l) as [a'|].
      + destruct IH as (b & c & -> & Ea & Hb). exists (a :: b), c. split; [reflexivity|]. split; [exact Ea|].
        intros x [<-|Hx]; auto.
      + intros x [<-|Hx]; auto. }
  specialize (F (w_jobs w)). destruct (find _ (w_jobs w)) as [a|].
  - subst a. destruct F as (b & c & E & Ea & Hb). exists b, j, (c ++ [nj])%list.
    split; [rewrite E, <- app_assoc; reflexivity|]. auto.
  - subst j. exists (w_jobs w), nj, []. auto.
Qed.
Lemma submit_reports_iff port f cwd name w r w' :
  wf_queue w ->
  run exec (ketchup_submit port f cwd name) w = (Ok r, w') -> r_ok r = true ->
  (r_msg r = MSubmitted (w_seq w + 1) name <-> forall j, In j (w_jobs w) -> j_submitted j <> w_now w).
Proof.
  intros Hw H Hr. split.
  - intros M. destruct (submit_reports_first _ _ _ _ _ _ _ Hw H Hr) as (b & j & a & E & _ & Hb & Em & _).
    rewrite M in Em. injection Em as Ei _.
    destruct (submit_adds _ _ _ _ _ _ _ Hw H Hr) as (v & v' & p & _ & _ & _ & -> & Lt). cbn [w_jobs set_jobs] in E.
    destruct a as [|a0 a] using rev_ind.
    + apply app_inj_tail in E. destruct E as [-> _]. exact Hb.
    + clear IHa. rewrite app_comm_cons, app_assoc in E. apply app_inj_tail in E. destruct E as [E _].
      assert (I : In j (w_jobs w)) by (rewrite E; apply in_elt). specialize (Lt j I). lia.
  - intros Ht. destruct (submit_reports _ _ _ _ _ _ _ Hw Ht H Hr) as (p & M & _). exact M.
Qed.

(** ** Cancelling twice (C17) *)
Lemma only_one l i j : NoDup (map j_id l) -> get_job l i = Some j -> filter (fun x => Z.eqb (j_id x) i) l = [j].
Proof.
  induction l as [|a l IH]; intros N G; [discriminate G|]. cbn [map] in N. inversion N as [|? ? Nx Nl]. subst.
  unfold get_job in G. cbn [find] in G. cbn [filter]. destruct (Z.eqb_spec (j_id a) i) as [E|E].
  - injection G as ->. f_equal. clear IH Nl. induction l as [|b l IHl]; [reflexivity|]. cbn [filter].
    destruct (Z.eqb_spec (j_id b) i) as [E'|E'].
    + exfalso. apply Nx. cbn. left. congruence.
    + apply IHl; [|intros X; apply Nx; cbn; auto]. inversion N as [|? ? A B]. subst. inversion B. subst.
      constructor; [|assumption]. intros X. apply A. cbn. auto.
  - apply IH; assumption.
Qed.
Lemma open_one w i j : wf_queue w -> get_job (w_jobs w) i = Some j -> finishedb (j_status j) = false ->
  open_jobs [i] (w_jobs w) = [j].
Proof.
  intros Hw G F. unfold open_jobs.
  assert (E : filter (fun j => memZ (j_id j) [i] && negb (finishedb (j_status j))) (w_jobs w) =
              filter (fun j => negb (finishedb (j_status j))) (filter (fun x => Z.eqb (j_id x) i) (w_jobs w))).
  { clear G F. induction (w_jobs w) as [|a l IH]; [reflexivity|]. cbn [filter]. cbn [memZ] in IH |- *. rewrite orb_false_r.
    destruct (Z.eqb (j_id a) i); cbn [andb filter]; [|exact IH]. destruct (negb _); rewrite IH; reflexivity. }
  rewrite E, (only_one _ _ _ (wf_NoDup w Hw) G). cbn [filter]. rewrite F. reflexivity.
Qed.
Lemma cancel_running_twice port i w d w1 x1 x2 w2 j : wf_queue w -> w_daemon w = Some d ->
  run exec (ketchup_cancel port [i]) w = (x1, w1) ->
  run exec (ketchup_cancel port [i]) w1 = (x2, w2) ->
  get_job (w_jobs w) i = Some j -> j_status j = Sr \/ j_status j = Srd -> x2 = Err UnboundLocalError.
Proof.
  intros Hw Ed H1 H2 G S.
  assert (K : forall w, wf_queue w -> w_daemon w = Some d -> forall j, get_job (w_jobs w) i = Some j -> j_status j = Srd ->
    run exec (ketchup_cancel port [i]) w = (Err UnboundLocalError, w)).
  { intros w0 Hw0 Ed0 j0 G0 S0. assert (X := C16_exact_lemma port [i] w0 d Ed0).
    rewrite (open_one w0 i j0 Hw0 G0) in X by (rewrite S0; reflexivity). rewrite S0 in X. apply X; [discriminate|].
    intros i' [<-|[]]. congruence. }
  destruct S as [S|S].
  - assert (X := C16_exact_lemma port [i] w d Ed). rewrite (open_one w i j Hw G) in X by (rewrite S; reflexivity).
    rewrite S in X. cbn [jstatus_eqb] in X. destruct X as (r & X & _); [discriminate|intros i' [<-|[]]; congruence|].
    rewrite X in H1. apply (f_equal snd) in H1. cbn [snd] in H1.
    assert (Ew : w1 = set_jobs w (with_status i Srd (w_jobs w)) (w_seq w)).
    { rewrite <- H1. unfold to_cancel. cbn [filter]. rewrite S. cbn [jstatus_eqb negb last]. rewrite S. reflexivity. }
    clear H1 X. subst w1.
    assert (Ids : map j_id (with_status i Srd (w_jobs w)) = map j_id (w_jobs w)).
    { unfold with_status. rewrite map_map. apply map_ext. intros a. destruct (Z.eqb (j_id a) i); reflexivity. }
    rewrite (K (set_jobs w (with_status i Srd (w_jobs w)) (w_seq w))) with (j := with_jstatus j Srd) in H2.
    + injection H2 as <- _. reflexivity.
    + destruct Hw as (A & B & C). split; [|split]; cbn [w_jobs set_jobs w_seq].
      * rewrite Ids. exact A.
      * rewrite Forall_forall in *. intros a Ha. unfold with_status in Ha. apply in_map_iff in Ha.
        destruct Ha as (b & <- & Hb). specialize (B b Hb). destruct (Z.eqb (j_id b) i); exact B.
      * exact C.
    + exact Ed.
    + cbn [w_jobs set_jobs]. rewrite <- with_status_upd, get_job_upd, Z.eqb_refl, G. reflexivity.
    + reflexivity.
  - rewrite (K w Hw Ed j G S) in H1. injection H1 as _ <-. rewrite (K w Hw Ed j G S) in H2. injection H2 as <- _. reflexivity.
Qed.
Lemma cancel_twice_iff port i w d w1 x1 x2 w2 j : wf_queue w -> w_daemon w = Some d ->
  run exec (ketchup_cancel port [i]) w = (x1, w1) ->
  run exec (ketchup_cancel port [i]) w1 = (x2, w2) ->
  get_job (w_jobs w) i = Some j ->
  ((exists r, x2 = Ok r /\ r_ok r = true) <-> j_status j <> Sr /\ j_status j <> Srd) /\
  (j_status j = Sr \/ j_status j = Srd -> x2 = Err UnboundLocalError).
Proof.
  intros Hw Ed H1 H2 G. assert (R := cancel_running_twice port i w d w1 x1 x2 w2 j Hw Ed H1 H2 G). split; [|exact R].
  split.
  - intros (r & -> & _). split; intros S; [specialize (R (or_introl S))|specialize (R (or_intror S))]; discriminate R.
  - intros [A B]. exact (proj2 (cancel_twice port i w d w1 x1 x2 w2 Hw Ed H1 H2) j G A B).
Qed.

(** ** Searching with wildcards (C19) *)
Lemma str_app_assoc (a b c : string) : ((a ++ b) ++ c = a ++ (b ++ c))%string.
Proof. induction a as [|x a IH]; cbn; [reflexivity|rewrite IH; reflexivity]. Qed.
Lemma like_pattern t : forall s, like (t ++ "%") s = true <-> exists m b, s = (m ++ b)%string /\ pattern_of t m.
Proof.
  induction t as [|c t IH]; intros s.
  - change ("" ++ "%")%string with "%"%string. rewrite like_end. split; [|auto]. intros _. exists ""%string, s. split; [reflexivity|constructor].
  - change (String c t ++ "%")%string with (String c (t ++ "%")).
    destruct (Ascii.eqb_spec c "%") as [->|N].
    + rewrite like_any. split.
      * intros (a & b & -> & H). apply IH in H. destruct H as (m & b' & -> & P).
        exists (a ++ m)%string, b'. split; [now rewrite str_app_assoc|]. now constructor.
      * intros (m & b & -> & P). inversion P as [|p a s' P' | |p c' c'' s' Nc]; subst; [|congruence].
        exists a, (s' ++ b)%string. split; [now rewrite str_app_assoc|]. apply IH. eauto.
    + destruct s as [|d s].
      * apply Ascii.eqb_neq in N. cbn [like]. rewrite N. split; [discriminate|].
        intros (m & b & E & P). destruct m; [|discriminate E]. inversion P; subst.
        apply Ascii.eqb_neq in N. congruence.
      * rewrite like_one by (now apply Ascii.eqb_neq). rewrite andb_true_iff, orb_true_iff, !Ascii.eqb_eq, IH. split.
        -- intros (Hc & m & b & -> & P). exists (String d m), b. split; [reflexivity|].
           destruct Hc as [->|Hc]; [now constructor|now constructor].
        -- intros (m & b & E & P). inversion P; subst.
           ++ congruence.
           ++ cbn in E. injection E as -> ->. split; [auto|eauto].
           ++ cbn in E. injection E as -> ->. split; [auto|eauto].
Qed.
Lemma search_pattern port t w d :
  wf_queue w -> w_daemon w = Some d -> has_char "'" t = false ->
  exists r l, run exec (ketchup_search port t) w = (Ok r, w) /\
    exactly (fun j => exists n, j_jobname j = Some n /\ exists a m b, n = (a ++ m ++ b)%string /\ pattern_of t m) (w_jobs w) l /\
    (r_ok r = true <-> l <> []) /\ (r_ok r = true -> r_data r = RJobs l).
Proof.
  intros Hw Ed Hq. rewrite (run_search port t w d Ed Hq).
  eexists. exists (filter (matches t) (w_jobs w)). split; [reflexivity|].
  split; [|split].
  - apply exactly_filter; auto. intros j. unfold matches. destruct (j_jobname j) as [n|].
    + change ("%" ++ t ++ "%")%string with (String "%" (t ++ "%")). rewrite like_any. split.
      * intros (a & b & -> & H). apply like_pattern in H. destruct H as (m & b' & -> & P). exists (a ++ m ++ b')%string.
        split; [reflexivity|]. eauto.
      * intros (n' & E & a & m & b & -> & P). injection E as ->. exists a, (m ++ b)%string. split; [reflexivity|].
        apply like_pattern. eauto.
    + split; [discriminate|]. intros (n' & E & _). discriminate.
  - destruct (filter _ _); cbn; split; congruence.
  - destruct (filter _ _); [discriminate|auto].
Qed.

(** ** When a snapshot is made (C20) *)
Lemma snapshot_loop_ok l : forall w x w', run exec (forP snapshot_one tt l) w = (Ok x, w') ->
  forall j, In j l -> j_jobpath j <> None /\ w_merge w (j_id j) = None.
Proof.
  induction l as [|a l IH]; intros w x w' H j I; [destruct I|].
  rewrite run_forP_cons in H. unfold snapshot_one at 1, merge_netcdfs in H. cbn [j_jobpath set_jcol j_snappath] in H.
  rewrite run_bind, run_assert in H. destruct (is_some (j_jobpath a)) eqn:Hs; cbv beta iota in H; [|discriminate H].
  rewrite run_archive in H. cbn [j_id set_jcol] in H. destruct (w_merge w (j_id a)) as [e|] eqn:Em; [discriminate H|].
  destruct I as [<-|I].
  - split; [|exact Em]. destruct (j_jobpath a); [discriminate|discriminate Hs].
  - destruct (IH _ _ _ H j I) as [A B]. split; [exact A|exact B].
Qed.
Lemma snapshot_iff port ids w d : wf_queue w -> w_daemon w = Some d ->
  ((exists r w', run exec (ketchup_snapshot port ids) w = (Ok r, w') /\ r_ok r = true) <->
   (forall i, In i ids -> exists j, get_job (w_jobs w) i = Some j /\
     j_status j <> Sq /\ j_status j <> Sqw /\ j_jobpath j <> None /\ w_merge w i = None)).
Proof.
  intros Hw Ed. split.
  - intros (r & w' & H & Hr) i Hi. rewrite (run_snapshot port ids w d Ed) in H.
    destruct (first_some _ ids) as [r0|] eqn:E.
    + injection H as <- _. exfalso. apply first_some_In in E. destruct E as (i0 & _ & E). unfold snapshot_refuse in E.
      destruct (get_job _ i0) as [j|]; [|injection E as <-; discriminate Hr].
      destruct (j_status j); try discriminate E; injection E as <-; discriminate Hr.
    + rewrite first_some_none in E. specialize (E i Hi). apply snapshot_refuse_none in E. destruct E as (j & Ej & N1 & N2).
      destruct (run exec (forP _ _ _) w) as [[[]|e] w1] eqn:Er; [|discriminate H].
      assert (Ij := Ej). apply get_job_In in Ij. destruct Ij as [Ij Eid].
      destruct (snapshot_loop_ok _ _ _ _ Er j Ij) as [P M]. rewrite get_job_filter in Ej by exact Hi.
      exists j. rewrite <- Eid at 2. repeat split; auto.
  - intros H. destruct (snapshot_done port ids w d Hw Ed H) as (r & l & _ & E & Hr). eauto.
Qed.
