(** * TrigProofs3: triggers in the job process *)
From Coq Require Import List String ZArith Bool Lia.
From Verif Require Import Base BaseFacts Types Prog ProgFacts JobThreadModel SpecWorker SpecTrig
  JobThreadProofs JobThreadProofs2 JobThreadProofs3 TrigProofs TrigProofs2.
Import ListNotations.
Open Scope prog_scope.
Open Scope Z_scope.

Lemma tsteps_jsteps s tr s' : tsteps s tr s' -> jsteps s s'.
Proof. intros H. apply jsteps_tsteps. eauto. Qed.
Lemma tsteps_one s i e s2 : tsteps s [OWork i e] s2 ->
  exists k o kont r, nth_error (s_wk s) i = Some k /\ k_prog k = Op o kont /\ allowed k o r /\ e = Ev o r.
Proof.
  intros H. remember [OWork i e] as tr eqn:E. destruct H as [|tr l m j k o kont r H En P A|tr l l' o kont r H M].
  - discriminate E.
  - change [OWork i e] with ([] ++ [OWork i e])%list in E. apply app_inj_tail in E as [-> E].
    injection E as -> <-. remember [] as tr0 eqn:E0. remember (mkJsys l m) as s0 eqn:Es.
    destruct H as [|? ? ? ? ? ? ? ? H|? ? ? ? ? ? H]; [|destruct tr; discriminate E0 | destruct tr; discriminate E0].
    subst s. exists k, o, kont, r. auto.
  - change [OWork i e] with ([] ++ [OWork i e])%list in E. apply app_inj_tail in E as [-> E]. discriminate E.
Qed.

(** The task the worker is at. *)
Definition cur_view (v : jview) (c : option task) : option task := match v with VCurrent c' => c' | _ => c end.
Definition cur_of (l : list jview) : option task := fold_left (fun c v => cur_view v c) l None.
Lemma cur_of_snoc l v : cur_of (l ++ [v]) = cur_view v (cur_of l).
Proof. unfold cur_of. rewrite fold_left_app. reflexivity. Qed.
Lemma trigs_cur : forall l c h st, trigs fresh l (At c h st) -> c = cur_of l.
Proof.
  induction l as [|v l IH] using rev_ind; intros c h st H.
  - cbn in H. unfold fresh in H. injection H as -> _ _. reflexivity.
  - apply trigs_snoc in H as (s1 & H & O & T). rewrite cur_of_snoc.
    destruct s1 as [|c1 h1 st1]; [destruct v; discriminate T|]. pose proof (IH _ _ _ H) as ->.
    destruct v; destruct h1; try destruct st1; cbn in T; try discriminate T; try (injection T as <- _ _; reflexivity).
    destruct (stop_of (cur_of l)); [|discriminate T]. injection T as <- _ _. reflexivity.
Qed.
Lemma current_events f snap ts ws s' : jsteps (job_start f snap ts ws) s' ->
  forall i k, nth_error (s_wk s') i = Some k -> k_current k = cur_of (views (k_events k)).
Proof.
  remember (job_start f snap ts ws) as s eqn:E. intros H. induction H as [s|s1 s2 s3 H IH J].
  - subst. cbn. intros i k En. rewrite nth_error_map in En. destruct (nth_error ws i); [|discriminate En].
    injection En as <-. reflexivity.
  - specialize (IH E). destruct J as [l m i k o kont r En P A|l l' o kont r M]; cbn [s_wk] in *.
    + intros j k' Ej. destruct (nth_put _ _ _ _ _ _ En Ej) as [[<- ->]|[N Ej']]; [|eauto].
      cbn [wk_after k_current k_events]. rewrite views_app. change (views [Ev o r]) with [view (Ev o r)].
      rewrite cur_of_snoc, <- (IH _ _ En).
      destruct o; cbn in A; try (destruct r; reflexivity). subst r. reflexivity.
    + destruct o; cbn in M; try (subst l'; exact IH); try (destruct M as [-> _]; exact IH).
      destruct M as [_ (k & En & ->)]. intros j k' Ej.
      destruct (nth_put _ _ _ _ _ _ En Ej) as [[<- ->]|[N Ej']]; [|eauto]. cbn. eauto.
Qed.

(** C110: a task is sent only when its start trigger was announced. *)
Lemma start_announced f snap ts ws tr s' a i e b t n : tsteps (job_start f snap ts ws) tr s' ->
  tr = (a ++ OWork i e :: b)%list -> starts e = Some t -> t_start_with t = Some n -> announced i n a.
Proof.
  intros H E S W. destruct (tsteps_cut _ _ _ H _ _ _ E) as (s1 & s2 & H1 & _ & X).
  destruct (tsteps_one _ _ _ _ X) as (k & o & kont & r & En & P & A & ->).
  destruct o; try discriminate S. cbn in S. injection S as ->.
  destruct (worker_trigs _ _ _ _ _ _ _ (tsteps_jsteps _ _ _ H1) En) as (st & T & G).
  rewrite P in G. cbn [jgood] in G. destruct (G (Ok (BAnswer true))) as [O (st' & T' & _)].
  destruct st as [|c h p]; [discriminate T'|]. cbn in O. subst c.
  pose proof (trigs_facts _ _ T) as (_ & _ & F & _).
  destruct h as [m|]; [discriminate T'|]. destruct (F eq_refl n W) as (ns & K & Kn).
  destruct (mi_wk _ _ (tsteps_minv _ _ _ _ _ _ H1) _ _ En) as [_ _ SE]. eauto.
Qed.
(** ... and stopped only when its stop trigger was. *)
Lemma stop_announced f snap ts ws tr s' a i e b : tsteps (job_start f snap ts ws) tr s' ->
  tr = (a ++ OWork i e :: b)%list -> stops e = true ->
  exists t n, busy i a = Some t /\ t_stop_with t = Some n /\ announced i n a.
Proof.
  intros H E S. destruct (tsteps_cut _ _ _ H _ _ _ E) as (s1 & s2 & H1 & _ & X).
  destruct (tsteps_one _ _ _ _ X) as (k & o & kont & r & En & P & A & ->).
  destruct o; try discriminate S.
  destruct (worker_trigs _ _ _ _ _ _ _ (tsteps_jsteps _ _ _ H1) En) as (st & T & G).
  rewrite P in G. cbn [jgood] in G. destruct (G (Ok DNothing)) as [O (st' & T' & _)].
  destruct st as [|c h p]; [discriminate T'|].
  pose proof (trigs_facts _ _ T) as (_ & _ & _ & F). pose proof (trigs_cur _ _ _ _ T) as C.
  destruct h as [m|]; [discriminate T'|]. destruct p; [|discriminate T'].
  destruct (F eq_refl) as (n & ns & l' & Sn & L & Kn).
  destruct (mi_wk _ _ (tsteps_minv _ _ _ _ _ _ H1) _ _ En) as [CU _ SE].
  pose proof (current_events _ _ _ _ _ (tsteps_jsteps _ _ _ H1) _ _ En) as CE.
  rewrite <- C in CE. rewrite CE in CU. destruct c as [t|]; [|discriminate Sn].
  exists t, n. split; [congruence|]. split; [exact Sn|]. eapply SE; [|exact Kn]. rewrite L.
  apply in_app_iff. right. left. reflexivity.
Qed.
(** What a worker sees when it looks. *)
Lemma look_announced f snap ts ws tr s' a i e b ns n : tsteps (job_start f snap ts ws) tr s' ->
  tr = (a ++ OWork i e :: b)%list -> view e = VNames ns -> (In n ns <-> announced i n a).
Proof.
  intros H E V. destruct (tsteps_cut _ _ _ H _ _ _ E) as (s1 & s2 & H1 & _ & X).
  destruct (tsteps_one _ _ _ _ X) as (k & o & kont & r & En & P & A & ->).
  destruct (mi_wk _ _ (tsteps_minv _ _ _ _ _ _ H1) _ _ En) as [_ NA _].
  destruct o; cbn in V; cbn in A; try (destruct r; discriminate V). subst r. injection V as <-. apply NA.
Qed.

(** ** Holding *)
Lemma trigs_crash : forall l s s', trigs s l s' -> In VCrash l -> s' = Over.
Proof.
  induction l as [|v l IH]; intros s s' H I1; [contradiction|]. cbn [trigs] in H. destruct H as [O H].
  destruct I1 as [->|I1].
  - destruct s as [|c [n|] []]; cbn in H; try contradiction.
    destruct l as [|w l]; [exact H|]. cbn in H. destruct H as [_ H]. destruct w; contradiction.
  - destruct (trig s v); [eauto | contradiction].
Qed.
Lemma holding_live f snap ts ws s' i k n : jsteps (job_start f snap ts ws) s' -> nth_error (s_wk s') i = Some k ->
  holding n k -> alive k = true /\ k_crashed k = false /\
    forall o kont, k_prog k = Op o kont -> o = JNames.
Proof.
  intros H E (t & W & T). destruct (worker_trigs _ _ _ _ _ _ _ H E) as (st & T' & G).
  rewrite (trigs_fun _ _ _ _ T' T) in G. clear T'. split; [|split].
  - unfold alive. destruct (k_prog k) as [a|e|o kont]; cbn in G; [discriminate G | subst e; reflexivity | reflexivity].
  - destruct (k_crashed k) eqn:C; [|reflexivity].
    pose proof (jobs_kinv _ _ _ _ _ H) as F.
    assert (In VCrash (views (k_events k))) as K.
    { assert (exists w, kinv f w k) as [w [_ _ _ KC]]; [|apply KC; exact C].
      clear - F E. revert i E. induction F as [|w k' ws l K F IH]; intros [|i] E; cbn in E; try discriminate E.
      - injection E as <-. eauto.
      - eauto. }
    discriminate (trigs_crash _ _ _ T K).
  - intros o kont P. rewrite P in G. cbn [jgood] in G.
    destruct o; try reflexivity; exfalso.
    + destruct (G (Ok tt)) as [_ (? & T' & _)]. discriminate T'.
    + destruct (G (Ok SOffline)) as [_ (? & T' & _)]. discriminate T'.
    + destruct (G (Ok 0)) as [_ (? & T' & _)]. discriminate T'.
    + destruct (G (Ok BOffline)) as [_ (? & T' & _)]. discriminate T'.
    + destruct (G (Ok DOffline)) as [_ (? & T' & _)]. discriminate T'.
    + destruct (G (Ok DOffline)) as [_ (? & T' & _)]. discriminate T'.
    + destruct (G (Ok tt)) as [_ (? & T' & _)]. discriminate T'.
    + destruct (G (Ok BOffline)) as [_ (? & T' & _)]. discriminate T'.
    + destruct (G (Ok tt)) as [_ (? & T' & _)]. discriminate T'.
Qed.
Lemma holding_unfinished f snap ts ws s' i k n b : jsteps (job_start f snap ts ws) s' ->
  nth_error (s_wk s') i = Some k -> holding n k -> s_main s' <> Ret b.
Proof.
  intros H E K M. destruct (holding_live _ _ _ _ _ _ _ _ H E K) as (A & C & _).
  pose proof (jobs_gone _ _ _ _ _ _ H M) as G. rewrite Forall_forall in G.
  destruct (G k (nth_error_In _ _ E)) as [X|X]; congruence.
Qed.
Lemma sends_app : forall l1 l2, sends (l1 ++ l2) = (sends l1 ++ sends l2)%list.
Proof. induction l1 as [|v l IH]; intros l2; [reflexivity|]. destruct v; cbn; rewrite ?IH; reflexivity. Qed.
Lemma holds_on f snap ts ws tr s i k n tr2 s2 : tsteps (job_start f snap ts ws) tr s ->
  nth_error (s_wk s) i = Some k -> holding n k -> tsteps s tr2 s2 -> ~ announced i n (tr ++ tr2) ->
  exists k2, nth_error (s_wk s2) i = Some k2 /\ holding n k2 /\
    sends (views (k_events k2)) = sends (views (k_events k)).
Proof.
  intros H E K H2. induction H2 as [|tr2 l m j k' o kont r H2 IH En P A|tr2 l l' o kont r H2 IH M]; intros NA.
  - exists k. auto.
  - rewrite app_assoc in NA.
    assert (NA' : ~ announced i n (tr ++ tr2)) by (intros X; apply NA, announced_more, X).
    destruct (IH NA') as (k2 & E2 & K2 & S2). cbn [s_wk] in *.
    destruct (Nat.eq_dec j i) as [->|N].
    + rewrite En in E2. injection E2 as ->.
      pose proof (tsteps_trans _ _ _ _ _ H H2) as HH.
      destruct (holding_live _ _ _ _ _ i k2 n (tsteps_jsteps _ _ _ HH) En K2) as (_ & _ & JN).
      pose proof (JN _ _ P) as ->. cbn in A. subst r.
      eexists. split; [apply (nth_put_same _ _ _ _ En)|]. cbn [wk_after k_events].
      rewrite views_app, sends_app. split.
      * destruct K2 as (t & W & T). exists t. split; [exact W|]. cbn [wk_after k_events].
        rewrite views_app. apply trigs_snoc. eexists. split; [exact T|]. split; [exact I|].
        cbn. destruct (mem n (k_names k2)) eqn:B; [|reflexivity]. exfalso. apply NA'.
        destruct (mi_wk _ _ (tsteps_minv _ _ _ _ _ _ HH) _ _ En) as [_ NM _]. apply NM, mem_In, B.
      * cbn. rewrite app_nil_r. exact S2.
    + exists k2. rewrite nth_put_other by exact N. auto.
  - rewrite app_assoc in NA.
    assert (NA' : ~ announced i n (tr ++ tr2)) by (intros X; apply NA, announced_more, X).
    destruct (IH NA') as (k2 & E2 & K2 & S2). cbn [s_wk] in *.
    destruct o; cbn in M; try solve [subst l'; exists k2; auto]; try solve [destruct M as [-> _]; exists k2; auto].
    destruct M as [_ (k3 & E3 & ->)]. destruct (Nat.eq_dec i0 i) as [->|N].
    + rewrite E3 in E2. injection E2 as ->. eexists. split; [apply (nth_put_same _ _ _ _ E3)|].
      split; [exact K2 | exact S2].
    + exists k2. rewrite nth_put_other by exact N. auto.
Qed.

(** ** A name that nobody bears any more *)
Definition turns_in (ts : list task) (o : jop) : Prop :=
  match o with JCurrent (Some t) => In t ts | _ => True end.
Lemma TI_crash {A} ts : all_ops (turns_in ts) (crash : jpgm A).
Proof. cbn. split; [exact I|]. intros [x|e]; exact I. Qed.
Lemma TI_store ts d : all_ops (turns_in ts) (store d).
Proof. destruct d; cbn [store]; [apply TI_crash | exact I |]. cbn. split; [exact I|]. intros [x|e]; exact I. Qed.
Lemma TI_act ts o : turns_in ts o -> all_ops (turns_in ts) (jact o).
Proof. intros H. apply all_ops_do. exact H. Qed.
Lemma TI_wait_start ts f t : all_ops (turns_in ts) (wait_start f t).
Proof.
  destruct (t_start_with t) as [n|] eqn:E; [|destruct f; cbn [wait_start]; rewrite E; exact I].
  induction f as [|f IH]; cbn [wait_start]; rewrite E; [exact I|].
  apply all_ops_bind; [apply TI_act; exact I|]. intros l. destruct (mem n l); [exact I | exact IH].
Qed.
Lemma TI_wait_ready ts f : all_ops (turns_in ts) (wait_ready f).
Proof.
  induction f as [|f IH]; cbn [wait_ready]; [exact I|].
  apply all_ops_bind; [apply TI_act; exact I|]. intros [| | |[] r c]; try exact IH; [apply TI_crash | exact I].
Qed.
Lemma TI_wait_running ts f t0 : all_ops (turns_in ts) (wait_running f t0).
Proof.
  induction f as [|f IH]; cbn [wait_running]; [exact I|].
  apply all_ops_bind; [apply TI_act; exact I|]. intros now.
  apply all_ops_bind; [apply TI_act; exact I|]. intros s. cbv zeta.
  assert (X : all_ops (turns_in ts) (if MAX_TASK_WAIT <? now - t0 then crash else wait_running f t0)).
  { destruct (MAX_TASK_WAIT <? now - t0); [apply TI_crash | exact IH]. }
  destruct s as [| | |cs [] [[]|]]; try exact X; try exact I. apply TI_crash.
Qed.
Lemma TI_task_loop ts f pr t : forall tp, all_ops (turns_in ts) (task_loop f pr t tp).
Proof.
  induction f as [|f IH]; intros tp; cbn [task_loop]; [exact I|].
  apply all_ops_bind; [apply TI_act; exact I|]. intros tn.
  apply all_ops_bind.
  { destruct (pr <? tn - tp); [|exact I]. apply all_ops_bind; [apply TI_act; exact I|]. intros d.
    apply all_ops_bind; [apply TI_store|]. intros _. exact I. }
  intros tp'. apply all_ops_bind; [apply TI_act; exact I|]. intros s.
  assert (X : all_ops (turns_in ts) (match t_stop_with t with
      | None => task_loop f pr t tp'
      | Some n => l <- jact JNames;; (if mem n (l : list string) then d <- jact JStop;; store d
                                      else task_loop f pr t tp')
      end)).
  { destruct (t_stop_with t) as [n|]; [|apply IH].
    apply all_ops_bind; [apply TI_act; exact I|]. intros l. destruct (mem n l); [|apply IH].
    apply all_ops_bind; [apply TI_act; exact I|]. intros d. apply TI_store. }
  destruct s as [| | |cs [] [[]|]]; try exact X; try exact I. apply TI_crash.
Qed.
Lemma TI_one_task ts f pr co t : In t ts -> all_ops (turns_in ts) (one_task f pr co t).
Proof.
  intros H. unfold one_task. apply all_ops_bind; [apply TI_act; exact H|]. intros _.
  apply all_ops_bind; [apply TI_wait_start|]. intros _.
  apply all_ops_bind; [apply TI_wait_ready|]. intros _.
  apply all_ops_bind; [apply TI_act; exact I|]. intros t0.
  apply all_ops_bind; [apply TI_act; exact I|]. intros [|b]; [apply TI_crash|].
  apply all_ops_bind; [apply TI_wait_running|]. intros _.
  apply all_ops_bind; [apply TI_act; exact I|]. intros tp.
  apply all_ops_bind; [apply TI_task_loop|]. intros _.
  apply all_ops_bind; [apply TI_act; exact I|]. intros d.
  apply all_ops_bind; [apply TI_store|]. intros _. destruct co; [|exact I].
  apply all_ops_bind; [apply TI_act; exact I|]. intros _. exact I.
Qed.
Lemma TI_job f pr ts : all_ops (turns_in ts) (job_thread f pr ts).
Proof.
  unfold job_thread. apply all_ops_bind.
  - generalize (Some [] : option (list task)) as co.
    assert (G : forall l, (forall t, In t l -> In t ts) -> forall co, all_ops (turns_in ts) (forP (one_task f pr) co l)).
    { induction l as [|t l IH]; intros HI co; cbn [forP]; [exact I|].
      apply all_ops_bind; [apply TI_one_task, HI; left; reflexivity|]. intros co'. apply IH.
      intros t' K. apply HI. right. exact K. }
    intros co. apply G. auto.
  - intros _. apply all_ops_bind; [apply TI_act; exact I|]. intros [|b]; [apply TI_crash | exact I].
Qed.
Lemma all_ops_leads_rest {A} (P : jop -> Prop) (p : jpgm A) : all_ops P p -> forall l q, leads p l q -> all_ops P q.
Proof.
  induction p as [a|e|o k IH]; cbn; intros H l q L.
  - destruct L as [_ ->]. exact I.
  - destruct L as [_ ->]. exact I.
  - destruct L as [[_ ->]|(r & l' & -> & L)]; [exact H|]. eapply IH; [apply H | exact L].
Qed.
Lemma worker_turns f snap ts ws s' i k o kont : jsteps (job_start f snap ts ws) s' ->
  nth_error (s_wk s') i = Some k -> k_prog k = Op o kont -> turns_in (k_tasks k) o.
Proof.
  intros H E P. pose proof (jobs_kinv _ _ _ _ _ H) as F.
  assert (exists w, kinv f w k) as [w [T L N _]].
  { clear - F E. revert i E. induction F as [|w k' ws l K F IH]; intros [|i] E; cbn in E; try discriminate E.
    - injection E as <-. eauto.
    - eauto. }
  destruct (wk_port w) as [p|] eqn:Pw.
  - specialize (L ltac:(discriminate)). pose proof (all_ops_leads_rest _ _ (TI_job _ _ _) _ _ L) as X.
    rewrite P in X. cbn in X. rewrite T. exact (proj1 X).
  - destruct (N eq_refl) as [X _]. congruence.
Qed.
Lemma past_on f snap ts ws tr s n tr2 s2 : tsteps (job_start f snap ts ws) tr s ->
  past n s -> ~ looked n tr -> tsteps s tr2 s2 -> past n s2 /\ ~ looked n (tr ++ tr2).
Proof.
  intros H PA NL H2. induction H2 as [|tr2 l m j k' o kont r H2 [IH1 IH2] En P A|tr2 l l' o kont r H2 [IH1 IH2] M].
  - rewrite app_nil_r. auto.
  - split.
    + intros k K. apply In_nth_error in K as [i K]. cbn [s_wk] in K.
      destruct (nth_put _ _ _ _ _ _ En K) as [[<- ->]|[N K']].
      * destruct (IH1 _ (nth_error_In _ _ En)) as [C1 [C2|C2]]; [exfalso; exact (C2 _ _ P)|].
        cbn [wk_after k_current k_prog k_tasks]. split; [|right; exact C2].
        pose proof (worker_turns _ _ _ _ _ _ _ _ _ (tsteps_jsteps _ _ _ (tsteps_trans _ _ _ _ _ H H2)) En P) as TI.
        destruct o; try exact C1. destruct t as [t|]; [|intros (t' & X & _); discriminate X].
        cbn in TI. intros (t' & X & Nm). injection X as <-. exact (C2 _ TI Nm).
      * exact (IH1 _ (nth_error_In _ _ K')).
    + rewrite app_assoc, looked_snoc. intros [X|(i & X & _)]; [auto | discriminate X].
  - split.
    + intros k K. cbn [s_wk] in K.
      destruct o; cbn in M; try (subst l'; exact (IH1 _ K)); try (destruct M as [-> _]; exact (IH1 _ K)).
      destruct M as [_ (k3 & E3 & ->)]. apply In_nth_error in K as [q K].
      destruct (nth_put _ _ _ _ _ _ E3 K) as [[<- ->]|[N K']].
      * exact (IH1 _ (nth_error_In _ _ E3)).
      * exact (IH1 _ (nth_error_In _ _ K')).
    + rewrite app_assoc, looked_snoc. intros [X|(i & X & Nm)]; [auto|].
      destruct o; try discriminate X. cbn in X. injection X as ->. cbn in M.
      destruct M as [-> (k & E & _)].
      destruct (mi_wk _ _ (tsteps_minv _ _ _ _ _ _ (tsteps_trans _ _ _ _ _ H H2)) _ _ E) as [C _ _].
      rewrite <- C in Nm. exact (proj1 (IH1 _ (nth_error_In _ _ E)) Nm).
Qed.

(** ** A start trigger that no task bears *)
Lemma past_start f snap ts ws n : (forall w t, In w ws -> In t (wk_tasks w) -> t_name t <> Some n) ->
  past n (job_start f snap ts ws).
Proof.
  intros H k K. cbn in K. apply in_map_iff in K as (w & <- & K). cbn. split.
  - intros (t & X & _). discriminate X.
  - right. intros t. apply H. exact K.
Qed.
Lemma unknown_never f snap ts ws tr s' i n : (forall w t, In w ws -> In t (wk_tasks w) -> t_name t <> Some n) ->
  tsteps (job_start f snap ts ws) tr s' -> ~ announced i n tr.
Proof.
  intros U H A. destruct (past_on f snap ts ws [] _ n tr s' (ts_nil _) (past_start f snap ts ws n U)) as [_ X].
  - intros (a & x & b & j & E & _). destruct a; discriminate E.
  - exact H.
  - apply X. eapply announced_looked. exact A.
Qed.
(** A worker that waits with its first task. *)
Lemma first_holds f snap ts ws tr s' i w t rest n : nth_error ws i = Some w -> wk_port w <> None ->
  wk_tasks w = t :: rest -> t_start_with t = Some n -> tsteps (job_start f snap ts ws) tr s' ->
  ~ announced i n tr ->
  exists k, nth_error (s_wk s') i = Some k /\
    ((k_events k = [] /\ k_crashed k = false /\ alive k = true) \/ holding n k) /\ sends (views (k_events k)) = [].
Proof.
  intros Ew Pw Tw Wt H.
  assert (G : ~ announced i n tr -> exists k, nth_error (s_wk s') i = Some k /\
    ((k_events k = [] /\ k_crashed k = false /\ k_prog k = job_thread f (d_pollrate (wk_device w)) (t :: rest))
     \/ holding n k) /\ sends (views (k_events k)) = []).
  { induction H as [|tr l m j k o kont r H IH En P A|tr l l' o kont r H IH M]; intros NA.
    - exists (wk_start f w). cbn. rewrite nth_error_map, Ew. split; [reflexivity|]. split; [|reflexivity].
      left. split; [reflexivity|]. split; [reflexivity|]. rewrite Tw. destruct (wk_port w); [reflexivity | congruence].
    - assert (NA' : ~ announced i n tr) by (intros X; apply NA, announced_more, X).
      destruct (IH NA') as (k2 & E2 & D & S2). cbn [s_wk] in *.
      destruct (Nat.eq_dec j i) as [->|N].
      + rewrite En in E2. injection E2 as ->. destruct D as [(E0 & C0 & P0)|D].
        * rewrite P0 in P. cbn in P.
          assert (X : forall q, q = Op o kont -> match q with
             | Op o' _ => o' = o | _ => True end) by (intros q ->; reflexivity).
          pose proof (X _ P) as Xo. cbn in Xo. subst o. clear X.
          cbn in A. subst r.
          eexists. split; [apply (nth_put_same _ _ _ _ En)|]. cbn [wk_after k_events]. rewrite E0. cbn.
          split; [|reflexivity]. right. exists t. split; [exact Wt|]. cbn [wk_after k_events]. rewrite E0. cbn.
          split; [exact I|]. rewrite Wt. reflexivity.
        * assert (H1 : tsteps (mkJsys l m) [OWork i (Ev o r)] (mkJsys (put_wk i (wk_after k2 o r (kont r)) l) m)).
          { change [OWork i (Ev o r)] with ([] ++ [OWork i (Ev o r)])%list. eapply ts_worker; [constructor | eassumption..]. }
          destruct (holds_on _ _ _ _ _ _ i k2 n _ _ H En D H1 NA) as (k3 & E3 & D3 & S3).
          exists k3. cbn [s_wk] in E3. split; [exact E3|]. split; [right; exact D3 | congruence].
      + exists k2. rewrite nth_put_other by exact N. auto.
    - assert (NA' : ~ announced i n tr) by (intros X; apply NA, announced_more, X).
      destruct (IH NA') as (k2 & E2 & D & S2). cbn [s_wk] in *.
      destruct o; cbn in M; try solve [subst l'; exists k2; auto]; try solve [destruct M as [-> _]; exists k2; auto].
      destruct M as [_ (k3 & E3 & ->)]. destruct (Nat.eq_dec i0 i) as [->|N].
      + rewrite E3 in E2. injection E2 as ->. eexists. split; [apply (nth_put_same _ _ _ _ E3)|].
        split; [exact D | exact S2].
      + exists k2. rewrite nth_put_other by exact N. auto. }
  intros NA. destruct (G NA) as (k & E & [(E0 & C0 & P0)|D] & S); exists k; (split; [exact E|]); (split; [|exact S]).
  - left. split; [exact E0|]. split; [exact C0|]. unfold alive. rewrite P0. reflexivity.
  - right. exact D.
Qed.
Lemma first_unfinished f snap ts ws tr s' i w t rest n b : nth_error ws i = Some w -> wk_port w <> None ->
  wk_tasks w = t :: rest -> t_start_with t = Some n -> tsteps (job_start f snap ts ws) tr s' ->
  ~ announced i n tr -> s_main s' <> Ret b.
Proof.
  intros Ew Pw Tw Wt H NA M.
  destruct (first_holds _ _ _ _ _ _ _ _ _ _ _ Ew Pw Tw Wt H NA) as (k & E & [(_ & C & A)|D] & _).
  - pose proof (jobs_gone _ _ _ _ _ _ (tsteps_jsteps _ _ _ H) M) as G. rewrite Forall_forall in G.
    destruct (G k (nth_error_In _ _ E)) as [X|X]; congruence.
  - exact (holding_unfinished _ _ _ _ _ _ _ _ _ (tsteps_jsteps _ _ _ H) E D M).
Qed.

(** ** Playing executions with their traces *)
Definition obs_of (s : jsys) (m : mv) : list obs :=
  match m with
  | W i a =>
      match nth_error (s_wk s) i with
      | Some k => match k_prog k with
                  | Op o _ => match give k o a with Some r => [OWork i (Ev o r)] | None => [] end
                  | _ => []
                  end
      | None => []
      end
  | M z => match s_main s with
           | Op o _ => match mgive (s_wk s) o z with Some (r, _) => [OMain o r] | None => [] end
           | _ => []
           end
  end.
Fixpoint tmoves (s : jsys) (l : list mv) : option (list obs * jsys) :=
  match l with
  | [] => Some ([], s)
  | m :: r => match move s m with
              | Some s' => option_map (fun p => (obs_of s m ++ fst p, snd p)%list) (tmoves s' r)
              | None => None
              end
  end.
Lemma move_tsteps s m s' : move s m = Some s' -> tsteps s (obs_of s m) s'.
Proof.
  destruct s as [l p]. destruct m as [i a|z]; cbn.
  - destruct (nth_error l i) as [k|] eqn:E; [|discriminate].
    destruct (k_prog k) as [|?|o kont] eqn:P; try discriminate.
    destruct (give k o a) as [r|] eqn:G; [|discriminate].
    intros H; injection H as <-. change [OWork i (Ev o r)] with ([] ++ [OWork i (Ev o r)])%list.
    eapply ts_worker; [constructor | exact E | exact P | eapply give_allowed; exact G].
  - destruct p as [|?|o kont]; try discriminate.
    destruct (mgive l o z) as [[r l']|] eqn:G; [|discriminate].
    intros H; injection H as <-. change [OMain o r] with ([] ++ [OMain o r])%list.
    eapply ts_main; [constructor | eapply mgive_mexec; exact G].
Qed.
Lemma tmoves_tsteps : forall l s tr s', tmoves s l = Some (tr, s') -> tsteps s tr s'.
Proof.
  induction l as [|m l IH]; intros s tr s' H; cbn in H.
  - injection H as <- <-. constructor.
  - destruct (move s m) as [s1|] eqn:E; [|discriminate H].
    destruct (tmoves s1 l) as [[tr1 s2]|] eqn:E1; cbn in H; [|discriminate H]. injection H as <- <-.
    eapply tsteps_trans; [eapply move_tsteps; exact E | apply IH; exact E1].
Qed.
