(** * SysProofs13: the order of the times of a job started once (C91) *)
From Coq Require Import List String Ascii ZArith Bool Sorted Lia.
From Verif Require Import Base PyStr BaseFacts Types ConfigModel Prog ProgFacts World WorldFacts Replies
  CmdModel KetchupModel TomatoModel JobModel PipModel DrvModel SysModel RGFacts RGX RGY SysOps
  SpecQueue SpecSys SpecSys2 SpecTime SysProofs SysProofs2 SysProofs3 SysProofs6 SysProofs10 SysProofs12.
Import ListNotations.
Open Scope list_scope.
Open Scope Z_scope.

(** ** Processes come from starts *)
Definition thread_job (t : thread) : list Z :=
  match t_kind t with KJob _ a => [ja_jobid a] | _ => [] end.
Definition jobs_of (ts : list thread) : list Z := flat_map thread_job ts.
Definition count (i : Z) (l : list Z) : nat := count_occ Z.eq_dec l i.
Arguments jobs_of : simpl never.
Arguments count : simpl never.
Definition counted (s : sys) : Prop := forall i,
  (count i (map ja_jobid (w_spawned (s_world s))) + count i (jobs_of (s_threads s)) <=
   count i (map ja_jobid (starts (s_world s))))%nat.

Lemma count_app i a b : count i (a ++ b) = (count i a + count i b)%nat.
Proof. apply count_occ_app. Qed.
Lemma count_del i (l : list jobargs) n a : nth_error l n = Some a ->
  (count i (map ja_jobid (del_nth n l)) + count i [ja_jobid a] = count i (map ja_jobid l))%nat.
Proof.
  revert n. induction l as [|x l IH]; intros [|n] H; cbn in H; try discriminate.
  - inversion H. subst. unfold count. cbn. destruct (Z.eq_dec (ja_jobid a) i); lia.
  - specialize (IH n H). unfold count in *. cbn in *.
    destruct (Z.eq_dec (ja_jobid x) i), (Z.eq_dec (ja_jobid a) i); lia.
Qed.
Lemma jobs_of_set ts n t t' : nth_error ts n = Some t -> t_kind t' = t_kind t ->
  jobs_of (set_nth n t' ts) = jobs_of ts.
Proof.
  unfold jobs_of. revert n. induction ts as [|x ts IH]; intros [|n] H Hk; cbn in *; try discriminate; auto.
  - inversion H. subst. unfold thread_job. rewrite Hk. reflexivity.
  - now rewrite (IH n).
Qed.
Lemma jobs_of_filter ts : jobs_of (filter (fun t => negb (is_mgr (t_kind t))) ts) = jobs_of ts.
Proof.
  unfold jobs_of. induction ts as [|x ts IH]; cbn; auto.
  destruct (is_mgr (t_kind x)) eqn:E; cbn; rewrite IH; auto.
  unfold thread_job at 2. destruct (t_kind x); try discriminate; reflexivity.
Qed.
Lemma starts_other o w : (forall a, o <> OSpawnJob a) -> starts (snd (exec o w)) = starts w.
Proof. intros H. op_cases o; try reflexivity. elim (H a). reflexivity. Qed.
Lemma counted_exec o s ts r : counted s -> jobs_of ts = jobs_of (s_threads s) ->
  counted (mkSys (snd (exec o (s_world s))) ts r).
Proof.
  intros H E i. cbn [s_world s_threads]. rewrite E. specialize (H i).
  destruct o; try (rewrite spawned_other, starts_other by congruence; exact H).
  cbn. rewrite map_app, count_app. unfold starts in H. cbn in *.
  unfold count in *. cbn. destruct (Z.eq_dec (ja_jobid a) i); lia.
Qed.
Lemma counted_step l s s' : counted s -> step l s = Some s' -> counted s'.
Proof.
  intros H Hs.
  assert (K : forall s2, s_world s2 = s_world s -> jobs_of (s_threads s2) = jobs_of (s_threads s) -> counted s2).
  { intros s2 E1 E2 i. rewrite E1, E2. apply H. }
  assert (W : forall w2 ts r, w_spawned w2 = w_spawned (s_world s) -> w_log w2 = w_log (s_world s) ->
    jobs_of ts = jobs_of (s_threads s) -> counted (mkSys w2 ts r)).
  { intros w2 ts r E1 E2 E3 i. cbn [s_world s_threads]. unfold starts. rewrite E1, E2, E3. apply H. }
  assert (A : forall t, thread_job t = [] -> jobs_of (s_threads s ++ [t]) = jobs_of (s_threads s)).
  { intros t Ht. unfold jobs_of. rewrite flat_map_app. cbn. rewrite Ht, !app_nil_r. reflexivity. }
  destruct l; cbn in Hs;
    repeat match type of Hs with (match ?x with _ => _ end) = _ => destruct x eqn:?; try discriminate end;
    try (injection Hs as <-).
  - apply K; [reflexivity|apply A; reflexivity].
  - unfold step_thread in Hs. destruct (t_pgm t) as [a|e|o c] eqn:Ep; [|discriminate|].
    + destruct (mgr_pass (t_kind t)); [|discriminate]. destruct (t_done t); [discriminate|].
      destruct (s_run s); injection Hs as <-; apply K; cbn; try reflexivity; eapply jobs_of_set; eauto; reflexivity.
    + pose proof (counted_exec o s) as X. destruct (exec o (s_world s)) as [r w2]. injection Hs as <-.
      apply X; [exact H|]. eapply jobs_of_set; eauto; reflexivity.
  - apply K; [reflexivity|]. cbn. eapply jobs_of_set; eauto; reflexivity.
  - apply W; try reflexivity. apply jobs_of_filter.
  - apply K; [reflexivity|]. apply A. unfold thread_job. cbn. destruct k; try reflexivity. discriminate.
  - apply K; reflexivity.
  - apply W; try reflexivity. apply jobs_of_filter.
  - intros i0. specialize (H i0). pose proof (count_del i0 _ _ _ Heqo) as D. cbn.
    unfold jobs_of in *. rewrite flat_map_app, count_app. cbn in *.
    unfold starts in *. cbn. eapply Nat.le_trans; [|exact H]. rewrite <- D. lia.
  - intros i0. specialize (H i0). pose proof (count_del i0 _ _ _ Heqo) as D. cbn. unfold starts in *. cbn.
    eapply Nat.le_trans; [|exact H]. rewrite <- D. lia.
  - apply K; [reflexivity|apply A; reflexivity].
  - apply W; reflexivity.
  - apply W; reflexivity.
  - apply W; reflexivity.
  - apply W; reflexivity.
  - apply W; reflexivity.
  - apply W; reflexivity.
Qed.
Lemma counted_start w : w_spawned w = [] -> counted (start_sys w).
Proof. intros H i. cbn. rewrite H. apply Nat.le_0_l. Qed.

(** No job has two processes. *)
Definition single (s : sys) : Prop :=
  NoDup (map ja_jobid (w_spawned (s_world s)) ++ jobs_of (s_threads s)).
Lemma single_intro s : counted s -> NoDup (map ja_jobid (starts (s_world s))) -> single s.
Proof.
  intros H N. apply (NoDup_count_occ Z.eq_dec). intros i.
  pose proof (proj1 (NoDup_count_occ Z.eq_dec _) N i) as M. specialize (H i).
  rewrite count_occ_app. unfold count in H. lia.
Qed.
Lemma nodup_app_r {A} (a b : list A) : NoDup (a ++ b) -> NoDup b.
Proof. induction a as [|x a IH]; cbn; auto. intros H. inversion H. auto. Qed.
Lemma two_threads ts n m a b pa aa pb ab : nth_error ts n = Some a -> nth_error ts m = Some b -> n <> m ->
  t_kind a = KJob pa aa -> t_kind b = KJob pb ab -> NoDup (jobs_of ts) -> ja_jobid aa <> ja_jobid ab.
Proof.
  assert (P : forall ts m b pb ab, nth_error ts m = Some b -> t_kind b = KJob pb ab -> In (ja_jobid ab) (jobs_of ts)).
  { intros ts0 m0 b0 pb0 ab0 H Hk. unfold jobs_of. apply in_flat_map. exists b0.
    split; [eapply nth_error_In; eauto|]. unfold thread_job. rewrite Hk. now left. }
  revert n m. induction ts as [|t ts IH]; intros n m Ha Hb Hn Ka Kb N; [destruct n; discriminate|].
  unfold jobs_of in N. cbn [flat_map] in N. fold (jobs_of ts) in N.
  destruct n as [|n], m as [|m]; cbn in Ha, Hb; [congruence| | |].
  - inversion Ha. subst t. unfold thread_job in N. rewrite Ka in N. cbn in N. inversion N. subst.
    intros E. apply H1. rewrite E. eapply P; eauto.
  - inversion Hb. subst t. unfold thread_job in N. rewrite Kb in N. cbn in N. inversion N. subst.
    intros E. apply H1. rewrite <- E. eapply P; eauto.
  - eapply IH; eauto. eapply nodup_app_r; eauto.
Qed.

(** A job that is connected has had a process. *)
Definition conn_at (i : Z) (w : world) : option Z :=
  match get_job (w_jobs w) i with Some j => j_connected j | None => None end.
Definition run_before (s : sys) : Prop :=
  forall i, conn_at i (s_world s) <> None -> In i (jobs_of (s_threads s)).

Lemma conn_upd i id cs w : wf_queue w -> conn_at i (snd (exec (OJobUpdate id cs) w)) <> conn_at i w ->
  id = i /\ exists c, In (JConnected c) cs.
Proof.
  intros _ H. unfold conn_at in H. cbn [exec snd set_jobs w_jobs] in H. rewrite get_job_upd in H.
  destruct (get_job (w_jobs w) i) as [j|] eqn:E; [|elim H; destruct (Z.eqb i id); reflexivity]. cbn in H.
  destruct (Z.eqb_spec i id) as [->|]; [|elim H; reflexivity]. split; [reflexivity|].
  assert (X : forall cs j, (forall c, ~ In (JConnected c) cs) -> j_connected (set_jcols cs j) = j_connected j).
  { clear. induction cs as [|c cs IH]; intros j H; [reflexivity|]. cbn. unfold set_jcols in IH. rewrite IH.
    - destruct c; try reflexivity. elim (H t). now left.
    - intros x Hx. apply (H x). now right. }
  assert (Y : forall cs, (exists c, In (JConnected c) cs) \/ forall c, ~ In (JConnected c) cs).
  { clear. induction cs as [|c cs [(x & IH)|IH]]; [right; intros c []|left; exists x; now right|].
    destruct c; try (right; intros x [Hx|Hx]; [discriminate|eapply IH; eauto]). left. eexists. now left. }
  destruct (Y cs) as [Hc|Hc]; [exact Hc|]. elim H. apply X. exact Hc.
Qed.
Lemma may_conn k id cs c : may k (OJobUpdate id cs) -> In (JConnected c) cs -> exists pid a, k = KJob pid a.
Proof.
  intros [[]|H] Hc. destruct k; cbn in H; try contradiction; eauto.
  - destruct H as [-> | ->]; cbn in Hc; intuition discriminate.
  - destruct H as [(s & t & _ & ->)|[->|(t & ->)]]; cbn in Hc; intuition discriminate.
Qed.
Lemma conn_insert i j w : wf_queue w -> conn_at i (snd (exec (OJobInsert j) w)) <> conn_at i w ->
  conn_at i w = None /\ conn_at i (snd (exec (OJobInsert j) w)) = j_connected j.
Proof.
  intros _. unfold conn_at. cbn [exec snd set_jobs w_jobs]. rewrite get_job_app. destruct (get_job (w_jobs w) i) as [x|]; [congruence|].
  cbn. destruct (Z.eqb _ _); cbn; [auto|congruence].
Qed.
Lemma conn_other o i w : (forall j, o <> OJobInsert j) -> (forall id cs, o <> OJobUpdate id cs) ->
  conn_at i (snd (exec o w)) = conn_at i w.
Proof. intros H1 H2. op_cases o; try reflexivity; [elim (H1 j)|elim (H2 id cs)]; reflexivity. Qed.
(** Only the process of a job changes its connected_at. *)
Lemma conn_basic k o i w : basic k o w -> wf_queue w -> conn_at i (snd (exec o w)) <> conn_at i w ->
  exists pid a, k = KJob pid a /\ ja_jobid a = i.
Proof.
  intros [Hm Ho] Hw Hc.
  assert (D : (exists j, o = OJobInsert j) \/ (exists id cs, o = OJobUpdate id cs) \/
    ((forall j, o <> OJobInsert j) /\ forall id cs, o <> OJobUpdate id cs)).
  { destruct o; try (right; right; split; congruence); eauto. }
  destruct D as [(j & ->)|[(id & cs & ->)|[D1 D2]]].
  - destruct (conn_insert _ _ _ Hw Hc) as [E1 E2]. exfalso. apply Hc. rewrite E1, E2.
    destruct Hm as [[]|Hm]. destruct k; try contradiction. destruct Hm as (p & n & t & ->). reflexivity.
  - destruct (conn_upd _ _ _ _ Hw Hc) as [-> (c & Hin)]. destruct (may_conn _ _ _ _ Hm Hin) as (pid & a & ->).
    exists pid, a. split; [reflexivity|]. symmetry. exact Ho.
  - elim Hc. apply conn_other; auto.
Qed.
Lemma jobs_mono l s s' i : step l s = Some s' -> In i (jobs_of (s_threads s)) -> In i (jobs_of (s_threads s')).
Proof.
  intros Hs H.
  assert (A : forall t, In i (jobs_of (s_threads s ++ [t]))).
  { intros t. unfold jobs_of. rewrite flat_map_app. apply in_app_iff. now left. }
  destruct l; cbn in Hs;
    repeat match type of Hs with (match ?x with _ => _ end) = _ => destruct x eqn:?; try discriminate end;
    try (injection Hs as <-); cbn [s_threads add_thread set_threads set_world]; auto;
    try (rewrite jobs_of_filter; exact H).
  - unfold step_thread in Hs. destruct (t_pgm t) as [a|e|o c] eqn:Ep; [|discriminate|].
    + destruct (mgr_pass (t_kind t)); [|discriminate]. destruct (t_done t); [discriminate|].
      destruct (s_run s); injection Hs as <-; cbn; (erewrite jobs_of_set; [exact H|eauto|reflexivity]).
    + destruct (exec o (s_world s)) as [r w2]. injection Hs as <-. cbn.
      erewrite jobs_of_set; [exact H|eauto|reflexivity].
  - erewrite jobs_of_set; [exact H|eauto|reflexivity].
Qed.
Lemma run_before_step l s s' : rg_inv wf_queue any basic s -> run_before s -> step l s = Some s' -> run_before s'.
Proof.
  intros B H Hs i Hi. eapply jobs_mono; [exact Hs|].
  assert (D : (exists n, l = LStep n) \/ forall n, l <> LStep n).
  { destruct l; try (right; congruence). left. eauto. }
  destruct D as [(n & ->)|Hn].
  - destruct (rg_guar _ _ _ (fun _ _ => I) _ _ _ B Hs) as [E|(t & o & c & En & Ep & Hg & E)].
    + apply H. rewrite E in Hi. exact Hi.
    + assert (Dc : conn_at i (snd (exec o (s_world s))) = conn_at i (s_world s) \/
        conn_at i (snd (exec o (s_world s))) <> conn_at i (s_world s)).
      { destruct (conn_at i (snd (exec o (s_world s)))) as [x|], (conn_at i (s_world s)) as [y|]; try (right; congruence); auto.
        destruct (Z.eq_dec x y); [left|right]; congruence. }
      destruct Dc as [Dc|Dc]; [apply H; rewrite E in Hi; congruence|].
      destruct (conn_basic _ _ _ _ Hg (proj1 B) Dc) as (pid & a & Hk & <-).
      unfold jobs_of. apply in_flat_map. exists t. split; [eapply nth_error_In; eauto|].
      unfold thread_job. rewrite Hk. now left.
  - destruct (step_env _ _ _ Hn Hs) as ((E1 & _) & _). apply H. unfold conn_at in *. rewrite E1 in Hi. exact Hi.
Qed.

(** ** Rows *)
Definition row_ok (j : job) : Prop :=
  (j_pid j <> None -> j_connected j <> None) /\
  forall d, j_completed j = Some d -> exists c, j_connected j = Some c /\ c <= d.
(** What is known of a job that has connected stays. *)
Definition runs_on (w w' : world) : Prop :=
  ages w w' /\ forall i c, conn_at i w = Some c -> conn_at i w' = Some c.
Lemma runs_on_refl w : runs_on w w.
Proof. split; [apply ages_refl|auto]. Qed.
Lemma runs_on_trans a b c : runs_on a b -> runs_on b c -> runs_on a c.
Proof. intros [A1 C1] [A2 C2]. split; [eapply ages_trans; eauto|auto]. Qed.

Definition I92 (w : world) : Prop := I91 w /\ forall j, In j (w_jobs w) -> row_ok j.
Definition R92 (k : kind) (w w' : world) : Prop :=
  runs_on w w' /\ match k with KJob _ a => conn_at (ja_jobid a) w' = conn_at (ja_jobid a) w | _ => True end.
Definition since (i t : Z) (w : world) : Prop := exists c, conn_at i w = Some c /\ c <= t.
Definition G92 (k : kind) (o : op) (w : world) : Prop :=
  G91 k o w /\ own_row k o /\
  match o with
  | OJobUpdate id cs =>
      (forall c, In (JConnected c) cs -> conn_at id w = None) /\
      (forall d, In (JCompleted (Some d)) cs -> since id d w)
  | _ => True
  end.
Lemma since_on i t a b : runs_on a b -> since i t a -> since i t b.
Proof. intros [_ C] (c & E & L). exists c. auto. Qed.
Lemma timely_on i t a b : runs_on a b -> timely i t a -> timely i t b.
Proof. intros [A _]. apply timely_ages. exact A. Qed.
Lemma here_on i a b : runs_on a b -> here i a -> here i b.
Proof. intros [A _]. apply here_ages. exact A. Qed.

Lemma G92_on k o w : I92 w -> G92 k o w -> runs_on w (snd (exec o w)).
Proof.
  intros [Hi _] ([Hm Hg] & Ho & Hx). split; [eapply may_ages; eauto|]. intros i c Hc.
  assert (Dc : conn_at i (snd (exec o w)) = conn_at i w \/ conn_at i (snd (exec o w)) <> conn_at i w).
  { rewrite Hc. destruct (conn_at i (snd (exec o w))) as [x|]; [|right; congruence].
    destruct (Z.eq_dec x c); [left|right]; congruence. }
  destruct Dc as [Dc|Dc]; [congruence|].
  assert (D : (exists j, o = OJobInsert j) \/ (exists id cs, o = OJobUpdate id cs) \/
    ((forall j, o <> OJobInsert j) /\ forall id cs, o <> OJobUpdate id cs)).
  { destruct o; try (right; right; split; congruence); eauto. }
  destruct D as [(j & ->)|[(id & cs & ->)|[D1 D2]]].
  - destruct (conn_insert _ _ _ (proj1 Hi) Dc) as [E1 _]. congruence.
  - destruct (conn_upd _ _ _ _ (proj1 Hi) Dc) as [-> (x & Hin)]. destruct Hx as [Hx _].
    rewrite (Hx x Hin) in Hc. discriminate.
  - elim Dc. apply conn_other; auto.
Qed.

Lemma I92_exec k o w : I92 w -> G92 k o w -> I92 (snd (exec o w)).
Proof.
  intros Hi Hg. pose proof Hi as [H1 H2]. pose proof Hg as (G1 & Ho & Hx). split; [eapply I91_exec; eauto|].
  destruct G1 as [Hm G1]. op_cases o; try exact H2.
  - intros j0 Hj. cbn [set_jobs w_jobs] in Hj. apply in_app_iff in Hj. destruct Hj as [Hj|[<-|[]]]; [auto|].
    destruct Hm as [[]|Hm]. destruct k; try contradiction. destruct Hm as (p & n & t & ->).
    split; cbn; [congruence|discriminate].
  - intros j0 Hj. cbn [set_jobs w_jobs] in Hj. unfold upd_jobs in Hj. apply in_map_iff in Hj.
    destruct Hj as (j1 & <- & Hj). destruct (Z.eqb_spec (j_id j1) id) as [E|E]; [|auto].
    destruct (H2 j1 Hj) as [P1 P2]. destruct Hx as [X1 X2].
    assert (Ec : conn_at id w = j_connected j1).
    { unfold conn_at. rewrite <- E. rewrite (In_get_job _ _ (wf_nodup _ (proj1 H1)) Hj). reflexivity. }
    rewrite Ec in X1. unfold since in X2. rewrite Ec in X2.
    destruct Hm as [[]|Hm]. destruct k; cbn in Hm; try contradiction.
    + destruct Hm as [-> | ->]; split; cbn; auto.
    + destruct Hm as [(s & t & _ & ->)|[->|(t & ->)]]; split; cbn; auto; try congruence.
      intros d Hd. inversion Hd. subst. apply X2. cbn. auto.
    + destruct Hm as [(t & ->)|[(r & s & p & ->)|(s & t & _ & ->)]]; split; cbn; auto; try congruence.
      * intros d Hd. destruct (P2 d Hd) as (c & Hc & _). rewrite (X1 (Some t)) in Hc by (cbn; auto). discriminate.
      * intros d Hd. inversion Hd. subst. apply X2. cbn. auto.
Qed.

(** Operations that are no changes to times. *)
Lemma plain92_ok k o w : may k o -> plain91 o -> own_row k o -> G92 k o w.
Proof.
  intros Hm Ho Hr. split; [apply plain91_ok; auto|]. split; [exact Hr|]. destruct o; try exact I. cbn in Ho.
  assert (X : forall c t, In c cs -> In t (times c) -> False).
  { intros c t Hc Ht. assert (In t (col_times cs)) by (apply in_flat_map; eauto). rewrite Ho in H. destruct H. }
  split; [|intros d Hd; elim (X _ d Hd); now left].
  intros [c|] Hc; [elim (X _ c Hc); now left|].
  destruct Hm as [[]|Hm]. destruct k; cbn in Hm; try contradiction.
  - destruct Hm as [-> | ->]; cbn in Hc; intuition discriminate.
  - destruct Hm as [(s & t & _ & ->)|[->|(t & ->)]]; cbn in Hc; intuition discriminate.
  - destruct Hm as [(t & ->)|[(r & s & p & ->)|(s & t & _ & ->)]]; cbn in Hc; intuition discriminate.
Qed.
Lemma ok92_plain k {A} (p : pgm A) w : (forall pid a, k <> KJob pid a) ->
  all_ops (may k) p -> all_ops plain91 p -> okp exec (rely I92 R92 k) (G92 k) p w.
Proof.
  intros Hk H1 H2. revert w. induction p as [a|e|o f IH]; intros w; cbn; auto.
  destruct H1 as [H1 K1], H2 as [H2 K2]. intros w1 _. split.
  - apply plain92_ok; auto. destruct k; try exact I. elim (Hk pid a). reflexivity.
  - destruct (exec o w1) as [r w2]. apply IH; auto.
Qed.

Section Any.
  Context (k : kind).
  Let R := rely I92 R92 k.
  Let G := G92 k.
  Let E := fun _ : world => True.

  Lemma st92 (P : world -> Prop) {A} (p : pgm A) : forall w,
    (forall a b, runs_on a b -> P a -> P b) -> all_ops (may k) p -> all_ops plain91 p ->
    all_ops (own_row k) p -> P w -> okq exec R G E p (fun _ => P) w.
  Proof.
    induction p as [a|e|o f IH]; intros w HP H1 H2 H3 Hw; cbn; [exact Hw|exact I|].
    destruct H1 as [H1 K1], H2 as [H2 K2], H3 as [H3 K3]. intros w1 [Hi [Hr _]].
    assert (Hg : G92 k o w1) by (apply plain92_ok; auto). split; [exact Hg|].
    pose proof (G92_on _ _ _ Hi Hg) as Hs. destruct (exec o w1) as [r w2]. apply IH; auto.
    eapply HP; [exact Hs|]. eapply HP; eauto.
  Qed.
  (** Reading the clock. *)
  Lemma now92 i (P : world -> Prop) w : (forall a b, runs_on a b -> P a -> P b) -> P w -> here i w ->
    okq exec R G E (act ONow) (fun t w' => timely i t w' /\ (conn_at i w <> None -> since i t w') /\ P w') w.
  Proof.
    intros HP Hw Hh. apply okq_act. intros w1 [Hi [Hr _]].
    split; [apply plain92_ok; [left; exact I|exact I|destruct k; exact I]|]. cbn [exec].
    pose proof (here_on _ _ _ Hr Hh) as (j & Ej & L). split; [exists j; split; [exact Ej|lia]|].
    split; [|eapply HP; eauto]. intros Hc. destruct (conn_at i w) as [c|] eqn:Ec; [|elim Hc; reflexivity].
    pose proof (proj2 Hr _ _ Ec) as Ec'. exists c. split; [exact Ec'|].
    unfold conn_at in Ec'. rewrite Ej in Ec'.
    destruct Hi as [(_ & Hd & _) _]. apply (Hd j); [apply (get_job_In _ _ _ Ej)|].
    unfold stamps. rewrite Ec'. rewrite !in_app_iff. right. left. now left.
  Qed.
  (** Updating a row. *)
  Lemma upd92 id cs (P : world -> Prop) w : (forall a b, runs_on a b -> P a -> P b) -> P w ->
    may k (OJobUpdate id cs) -> own_row k (OJobUpdate id cs) ->
    (forall t, In t (col_times cs) -> timely id t w) ->
    (forall c w', R w w' -> In (JConnected c) cs -> conn_at id w' = None) ->
    (forall d, In (JCompleted (Some d)) cs -> since id d w) ->
    okq exec R G E (update_job_id id cs)
      (fun j w' => j_id j = id /\ ((exists pid t, cs = [JPid (Some pid); JStatus Sr; JConnected (Some t)]) -> here id w -> conn_at id w' <> None) /\ P w') w.
  Proof.
    intros HP Hw Hm Ho Ht Hc Hd. unfold update_job_id. q_bind. apply okq_act. intros w1 [Hi [Hr Hk]].
    assert (Hg : G92 k (OJobUpdate id cs) w1).
    { split; [split; [exact Hm|intros t H; eapply timely_on; eauto]|]. split; [exact Ho|]. split.
      - intros c Hin. eapply Hc; [|exact Hin]. split; [exact Hi|split; assumption].
      - intros d Hin. eapply since_on; eauto. }
    split; [exact Hg|]. pose proof (G92_on _ _ _ Hi Hg) as Hs.
    assert (Hn : (exists pid t, cs = [JPid (Some pid); JStatus Sr; JConnected (Some t)]) -> here id w ->
      conn_at id (snd (exec (OJobUpdate id cs) w1)) <> None).
    { intros (pid & t & ->) Hh. destruct (here_on _ _ _ Hr Hh) as (j & Ej & _). unfold conn_at. cbn [exec snd set_jobs w_jobs].
      rewrite get_job_upd, Z.eqb_refl, Ej. cbn. discriminate. }
    destruct (exec (OJobUpdate id cs) w1) as [[x|e] w2]; [|exact I]. cbn [snd] in Hs, Hn.
    apply okq_act. intros w3 [_ [Hr3 _]]. split; [apply plain92_ok; [left; exact I|exact I|destruct k; exact I]|]. cbn [exec].
    destruct (get_job (w_jobs w3) id) as [j|] eqn:Ej; [|exact I].
    split; [apply (get_job_In _ _ _ Ej)|]. split.
    - intros H1 H2. specialize (Hn H1 H2). destruct (conn_at id w2) as [c|] eqn:Ec; [|elim Hn; reflexivity].
      rewrite (proj2 Hr3 _ _ Ec). discriminate.
    - eapply HP; [exact Hr3|]. eapply HP; [exact Hs|]. eapply HP; eauto.
  Qed.
End Any.

Lemma own_any k {A} (p : pgm A) : (forall pid a, k <> KJob pid a) -> all_ops (own_row k) p.
Proof.
  intros H. induction p as [a|e|o f IH]; cbn; auto. split; [|auto].
  destruct k; try exact I. elim (H pid a). reflexivity.
Qed.

(** ** The job manager *)
Section Mgr.
  Let R := rely I92 R92 KJobMgr.
  Let G := G92 KJobMgr.
  Let E := fun _ : world => True.
  Ltac ops := repeat (ops_step; cbv beta zeta).

  Lemma mg92 (P : world -> Prop) {A} (p : pgm A) w : (forall a b, runs_on a b -> P a -> P b) ->
    all_ops (may KJobMgr) p -> all_ops plain91 p -> P w -> okq exec R G E p (fun _ => P) w.
  Proof. intros. apply st92; auto. apply own_any. congruence. Qed.

  Definition J92 (l : list job) (w : world) : Prop :=
    forall j, In j l -> j_pid j <> None /\ here (j_id j) w /\ conn_at (j_id j) w <> None.
  Lemma J92_on l a b : runs_on a b -> J92 l a -> J92 l b.
  Proof.
    intros Hg H j Hj. destruct (H j Hj) as (H1 & H2 & H3). split; [exact H1|].
    split; [eapply here_on; eauto|]. destruct (conn_at (j_id j) a) as [c|] eqn:Ec; [|elim H3; reflexivity].
    rewrite (proj2 Hg _ _ Ec). discriminate.
  Qed.
  Lemma J92_skip j l w : J92 (j :: l) w -> J92 l w.
  Proof. intros H x Hx. apply H. now right. Qed.

  Lemma ok92_finish s j l w : s = Scd \/ s = Sce -> J92 (j :: l) w ->
    okq exec R G E (bind (act ONow) (fun t => bind (update_job_id (j_id j) [JStatus s; JPid None; JCompleted (Some t)])
      (fun _ => Ret tt))) (fun _ => J92 l) w.
  Proof.
    intros Hs HJ. destruct (HJ j (or_introl eq_refl)) as (_ & Hh & Hc). q_bind.
    eapply okq_weaken; [|apply now92 with (i := j_id j) (P := J92 l); [apply J92_on|eapply J92_skip; eauto|exact Hh]].
    intros t w1 (Ht & Hsn & H1). specialize (Hsn Hc). cbv beta. q_bind.
    eapply okq_weaken; [|apply upd92 with (P := J92 l); [apply J92_on|exact H1| |exact I| | |]].
    - intros j' w2 (_ & _ & H2). exact H2.
    - right. cbn. left. eauto.
    - intros t' [<-|[]]. exact Ht.
    - intros c w' _ Hin. cbn in Hin. intuition discriminate.
    - intros d Hin. cbn in Hin. destruct Hin as [X|[X|[X|[]]]]; inversion X. subst. exact Hsn.
  Qed.
  Lemma ok92_reconcile j s e l w : J92 (j :: l) w -> okq exec R G E (reconcile j s e) (fun _ => J92 l) w.
  Proof.
    intros HJ. unfold reconcile. q_bind.
    eapply okq_weaken; [|apply mg92 with (P := J92 (j :: l)); [apply J92_on|ops; fin|ops; exact I|exact HJ]].
    intros alive w1 H1. cbv beta. destruct s; try (exact (J92_skip _ _ _ H1)).
    - destruct alive; [exact (J92_skip _ _ _ H1)|]. apply ok92_finish; auto.
    - unfold finish_cancelled. q_bind.
      eapply okq_weaken; [|apply mg92 with (P := J92 (j :: l)); [apply J92_on| | |exact H1]].
      + intros u w2 H2. apply ok92_finish; auto.
      + unfold merge_netcdfs. ops; fin.
      + unfold merge_netcdfs. ops; exact I.
  Qed.
  Lemma ok92_one j l w : J92 (j :: l) w -> okq exec R G E (manage_one tt j) (fun _ => J92 l) w.
  Proof.
    intros HJ. destruct (HJ j (or_introl eq_refl)) as (Hp & _). unfold manage_one.
    destruct (j_pid j) as [p|]; [|elim Hp; reflexivity].
    q_bind. eapply okq_weaken; [|apply mg92 with (P := J92 (j :: l)); [apply J92_on|ops; fin|ops; exact I|exact HJ]].
    intros e w1 H1. apply ok92_reconcile. exact H1.
  Qed.

  Lemma ok92_launch d j pn w : here (j_id j) w -> okq exec R G E (launch d j pn) (fun _ _ => True) w.
  Proof.
    intros Hw. unfold launch.
    assert (S : forall {A} (p : pgm A) w0, here (j_id j) w0 -> all_ops (may KJobMgr) p -> all_ops plain91 p ->
      okq exec R G E p (fun _ => here (j_id j)) w0).
    { intros A p w0 H0 H1 H2. apply mg92; auto. intros x y. apply here_on. }
    q_bind. eapply okq_weaken; [|apply S; [exact Hw|ops; fin|ops; exact I]].
    intros x1 w1 H1. cbv beta. q_bind. eapply okq_weaken; [|apply S; [exact H1|ops; fin|ops; exact I]].
    intros x2 w2 H2. cbv beta. q_bind. eapply okq_weaken; [|apply S; [exact H2|ops; fin|ops; exact I]].
    intros x3 w3 H3. cbv beta. q_bind.
    eapply okq_weaken; [|apply S; [exact H3|apply ops_update_pip; right; cbn; eauto|unfold update_pip; ops; exact I]].
    intros x4 w4 H4. cbv beta. q_bind. apply okq_act. intros w5 [Hi [Hr _]].
    assert (H5 : here (j_id j) w5) by (eapply here_on; eauto).
    assert (Hm : may KJobMgr (OSpawnJob (job_args d j pn))) by (right; exact I).
    assert (Hg : G92 KJobMgr (OSpawnJob (job_args d j pn)) w5).
    { split; [split; [exact Hm|exact H5]|]. split; exact I. }
    split; [exact Hg|].
    pose proof (G92_on _ _ _ Hi Hg) as Hs. destruct (exec (OSpawnJob (job_args d j pn)) w5) as [[x|e] w6]; [|exact I].
    cbn [snd] in Hs. q_bind.
    eapply okq_weaken; [|apply now92 with (i := j_id j) (P := fun _ => True); [auto|exact I|eapply here_on; eauto]].
    intros t w7 (Ht & _). cbv beta. q_bind.
    eapply okq_weaken; [|apply upd92 with (P := fun _ => True); [auto|exact I| |exact I| | |]].
    - intros j' w8 _. exact I.
    - right. cbn. eauto.
    - intros t' [<-|[]]. exact Ht.
    - intros c w' _ Hin. cbn in Hin. intuition discriminate.
    - intros c Hin. cbn in Hin. intuition discriminate.
  Qed.
  Lemma ok92_action d m w : okq exec R G E (action_queued d m) (fun _ _ => True) w.
  Proof.
    assert (Q : forall o w, reads o -> plain91 o -> G92 KJobMgr o w).
    { intros o w0 H1 H2. apply plain92_ok; [left; exact H1|exact H2|exact I]. }
    unfold action_queued. q_bind. apply okq_act. intros w1 _. cbn [exec].
    split; [apply Q; exact I|]. q_bind.
    eapply okq_weaken; [|eapply okq_forP with (J := fun _ _ _ => True)]; [intros; exact I|exact I|].
    intros [i l] r av w2 _. unfold action_one. q_bind. apply okq_act. intros w3 [Hi _]. cbn [exec fst snd].
    split; [apply Q; exact I|].
    destruct (get_job (w_jobs w3) i) as [j|] eqn:Ej; [|exact I].
    assert (Hj : here (j_id j) w3).
    { rewrite (proj2 (get_job_In _ _ _ Ej)). eapply row_here; [apply Hi|exact Ej]. }
    q_bind. eapply okq_weaken; [|eapply okq_forB with (J := fun _ _ => here (j_id j)) (K := fun _ _ => True)].
    - intros [x|x] w4 _; exact I.
    - exact Hj.
    - intros pn r' av' w4 H4. unfold try_pip. destruct (dget av' pn); [|exact H4].
      destruct (_ && _)%bool; [|exact H4]. q_bind. eapply okq_weaken; [|apply ok92_launch; exact H4].
      intros; exact I.
  Qed.
  Lemma ok92_pass w : okq exec R G E (no_reply job_pass) (fun _ _ => True) w.
  Proof.
    assert (Q : forall o w, reads o -> plain91 o -> G92 KJobMgr o w).
    { intros o w0 H1 H2. apply plain92_ok; [left; exact H1|exact H2|exact I]. }
    unfold no_reply, job_pass. q_bind. q_bind. apply okq_act. intros w1 _. cbn [exec].
    split; [apply Q; exact I|].
    destruct (w_daemon w1) as [d|]; [|exact I].
    q_bind. eapply okq_weaken with (Q := fun _ _ => True).
    - intros _ w2 _. cbv beta. q_bind.
      eapply okq_weaken; [|apply mg92 with (P := fun _ => True); auto].
      + intros m w3 _. eapply okq_weaken; [|apply ok92_action]. intros; exact I.
      + eapply all_ops_weaken; [apply quiet_may|apply quiet_check].
      + unfold check_queued, check_one, update_job_id. ops; try exact I; [apply plain_match|reflexivity].
    - unfold manage_running. q_bind. apply okq_act. intros w2 [Hi _]. cbn [exec jobs_where].
      split; [apply Q; exact I|].
      eapply okq_weaken; [|eapply okq_forP with (J := fun r _ w => J92 r w)].
      + intros; exact I.
      + intros j Hj. apply filter_In in Hj. destruct Hj as [Hj Hp].
        assert (Ej : get_job (w_jobs w2) (j_id j) = Some j) by (apply In_get_job; [apply wf_nodup; apply Hi|exact Hj]).
        assert (Hn : j_pid j <> None) by (destruct (j_pid j); [discriminate|discriminate Hp]).
        split; [exact Hn|]. split; [eapply row_here; [apply Hi|exact Ej]|].
        unfold conn_at. rewrite Ej. apply (proj2 Hi j Hj). exact Hn.
      + intros j r [] w3 HJ. apply ok92_one. exact HJ.
  Qed.
End Mgr.

(** ** The job process *)
Section Job.
  Context (pid : Z) (a : jobargs).
  Let R := rely I92 R92 (KJob pid a).
  Let G := G92 (KJob pid a).
  Let E := fun _ : world => True.
  Let id := ja_jobid a.
  Ltac ops := repeat (ops_step; cbv beta zeta).

  Lemma ok92_job w : here id w -> conn_at id w = None ->
    okq exec R G E (no_reply (tomato_job pid a)) (fun _ _ => True) w.
  Proof.
    intros Hw Hn. unfold no_reply, tomato_job. fold id. q_bind. q_bind.
    apply okq_act. intros w1 [Hi1 [Hr1 Hk1]]. split; [apply plain92_ok; [left; exact I|exact I|exact I]|]. cbn [exec].
    pose proof (here_on _ _ _ Hr1 Hw) as H1. cbv beta in Hk1. fold id in Hk1. rewrite Hn in Hk1.
    set (t := w_now w1).
    assert (Ht : timely id t w1) by (destruct H1 as (j & Ej & L); exists j; split; [exact Ej|subst t; lia]).
    q_bind.
    eapply okq_weaken; [|apply upd92 with (P := here id); [apply here_on|exact H1|right; cbn; eauto|reflexivity| | |]]; cycle 1.
    { intros t' [<-|[]]; exact Ht. }
    { intros c w' [_ [_ Hk]] _. cbv beta in Hk. fold id in Hk. congruence. }
    { intros d Hin. cbn in Hin. intuition discriminate. }
    intros j0 w2 (_ & Hc2 & H2). specialize (Hc2 ltac:(eauto) H1).
    set (P := fun w => here id w /\ conn_at id w <> None).
    assert (HP : forall x y, runs_on x y -> P x -> P y).
    { intros x y Hxy [P1 P2]. split; [eapply here_on; eauto|].
      destruct (conn_at id x) as [c|] eqn:Ec; [|elim P2; reflexivity]. rewrite (proj2 Hxy _ _ Ec). discriminate. }
    assert (P2 : P w2) by (split; assumption).
    cbv beta. destruct (pl_outpath (ja_payload a)) as [out|]; [|exact I].
    assert (S : forall {A} (P : world -> Prop) (p : pgm A) w0, (forall a b, runs_on a b -> P a -> P b) ->
      P w0 -> all_ops (may (KJob pid a)) p -> all_ops plain91 p -> all_ops (own_row (KJob pid a)) p ->
      okq exec R G E p (fun _ => P) w0).
    { intros A P0 p w0 HP0 H0 X1 X2 X3. apply st92; auto. }
    q_bind. eapply okq_weaken; [|apply S with (P := P); [exact HP|exact P2|ops; fin|ops; exact I|ops; exact I]].
    intros x w3 P3. cbv beta. q_bind.
    eapply okq_weaken; [|apply upd92 with (P := P); [exact HP|exact P3|right; cbn; eauto 12|reflexivity|intros t' []| |]]; cycle 1.
    { intros c w' _ Hin. cbn in Hin. intuition discriminate. }
    { intros d Hin. cbn in Hin. intuition discriminate. }
    intros j w4 (Ej & _ & P4). cbv beta. rewrite Ej. q_bind.
    eapply okq_weaken; [|apply S with (P := P); [exact HP|exact P4|ops; fin|ops; exact I|ops; exact I]].
    intros ok w5 P5. cbv beta. q_bind.
    eapply okq_weaken; [|apply now92 with (i := id) (P := P); [exact HP|exact P5|apply P5]].
    intros t2 w6 (Ht2 & Hs2 & _). specialize (Hs2 (proj2 P5)). cbv beta. q_bind.
    set (P' := fun w => timely id t2 w /\ since id t2 w).
    assert (HP' : forall x y, runs_on x y -> P' x -> P' y).
    { intros x0 y Hxy [X1 X2]. split; [eapply timely_on; eauto|eapply since_on; eauto]. }
    assert (P6 : P' w6) by (split; assumption).
    eapply okq_weaken; [|apply S with (P := P'); [exact HP'|exact P6|unfold merge_netcdfs; ops; fin|unfold merge_netcdfs; ops; exact I|unfold merge_netcdfs; ops; exact I]].
    intros x7 w7 P7. cbv beta. q_bind.
    eapply okq_weaken; [|apply S with (P := P'); [exact HP'|exact P7|ops; fin|ops; exact I|ops; exact I]].
    intros x8 w8 P8. cbv beta. q_bind.
    eapply okq_weaken; [|apply upd92 with (P := fun _ => True); [auto|exact I| |reflexivity| | |]].
    - intros j' w9 _. cbv beta. q_bind.
      eapply okq_weaken; [|apply S with (P := fun _ => True); [auto|exact I| | |]].
      + intros; exact I.
      + apply ops_update_pip. right. cbn. eauto.
      + unfold update_pip. ops; exact I.
      + unfold update_pip. ops; exact I.
    - right. cbn. right. right. eexists _, _. split; [|reflexivity]. destruct ok; auto.
    - destruct ok; intros t' [<-|[]]; apply P8.
    - intros c w' _ Hin. cbn in Hin. intuition discriminate.
    - intros d Hin. cbn in Hin. destruct Hin as [X|[X|[]]]; inversion X. subst. apply P8.
  Qed.
End Job.

Lemma ok92_submit port f cwd n w :
  okq exec (rely I92 R92 KCmd) (G92 KCmd) (fun _ => True) (some_reply (ketchup_submit port f cwd n)) (fun _ _ => True) w.
Proof.
  assert (Q : forall o w, reads o -> plain91 o -> G92 KCmd o w).
  { intros o w0 H1 H2. apply plain92_ok; [left; exact H1|exact H2|exact I]. }
  unfold some_reply, ketchup_submit, with_daemon. q_bind. q_bind. apply okq_act. intros w1 _. cbn [exec].
  split; [apply Q; exact I|].
  destruct (w_daemon w1) as [d|]; [|exact I].
  unfold submit. destruct f as [| |e|v]; try exact I. cbv zeta.
  destruct (unknown_repo _ _) as [r|]; [exact I|].
  q_bind. apply okq_act. intros w2 _. cbn [exec]. split; [apply Q; exact I|].
  q_bind. unfold insert_job. q_bind. apply okq_act. intros w3 [_ [[[N _] _] _]].
  split; [split; [split; [right; cbn; eauto|exact N]|split; exact I]|].
  match goal with |- context [exec ?o ?w] => destruct (exec o w) as [[x|e] w4]; [|exact I] end.
  eapply okq_weaken; [|apply st92 with (P := fun _ => True); [auto| | | |exact I]].
  - intros; exact I.
  - repeat (ops_step; cbv beta zeta); fin.
  - repeat (ops_step; cbv beta zeta); exact I.
  - apply own_any. congruence.
Qed.

Lemma ok92_cmd c w : okp exec (rely I92 R92 KCmd) (G92 KCmd) (cmd_pgm c) w.
Proof.
  assert (P : all_ops plain91 (cmd_pgm c) -> okp exec (rely I92 R92 KCmd) (G92 KCmd) (cmd_pgm c) w).
  { intros H. apply ok92_plain; [congruence|apply ops_cmd|exact H]. }
  pose proof (plain_cmd91 c) as H.
  destruct c; try (apply P; apply H; congruence). cbn [cmd_pgm]. eapply okq_okp. apply ok92_submit.
Qed.

(** ** Starts are never forgotten *)
Lemma starts_step l s s' : step l s = Some s' -> exists p, starts (s_world s') = p ++ starts (s_world s).
Proof.
  intros Hs.
  assert (X : forall o w, exists p, starts (snd (exec o w)) = p ++ starts w).
  { intros o w. assert (D : (exists a, o = OSpawnJob a) \/ forall a, o <> OSpawnJob a).
    { destruct o; try (right; congruence). left. eauto. }
    destruct D as [(a & ->)|D]; [exists [a]; reflexivity|exists []; apply starts_other; exact D]. }
  assert (D : (exists n, l = LStep n) \/ forall n, l <> LStep n).
  { destruct l; try (right; congruence). left. eauto. }
  destruct D as [(n & ->)|Hn].
  - cbn in Hs. destruct (nth_error (s_threads s) n) as [t|]; [|discriminate].
    unfold step_thread in Hs. destruct (t_pgm t) as [a|e|o c]; [|discriminate|].
    + exists []. destruct (mgr_pass (t_kind t)); [|discriminate]. destruct (t_done t); [discriminate|].
      destruct (s_run s); injection Hs as <-; reflexivity.
    + pose proof (X o (s_world s)) as X1. destruct (exec o (s_world s)) as [r w2]. injection Hs as <-. exact X1.
  - exists []. destruct (step_env _ _ _ Hn Hs) as ((_ & _ & _ & _ & _ & _ & E) & _). unfold starts. rewrite E. reflexivity.
Qed.
Lemma starts_runs ls : forall s s', runs ls s = Some s' -> exists p, starts (s_world s') = p ++ starts (s_world s).
Proof.
  induction ls as [|l ls IH]; intros s s' H; cbn in H; [inversion H; exists []; reflexivity|].
  destruct (step l s) as [s1|] eqn:E; [|discriminate]. destruct (IH _ _ H) as [p Hp].
  destruct (starts_step _ _ _ E) as [q Hq]. exists (p ++ q). rewrite Hp, Hq, app_assoc. reflexivity.
Qed.
Definition once (s : sys) : Prop := NoDup (map ja_jobid (starts (s_world s))).
Lemma once_before ls s s' : runs ls s = Some s' -> once s' -> once s.
Proof.
  unfold once. intros H N. destruct (starts_runs _ _ _ H) as [p Hp]. rewrite Hp, map_app in N.
  eapply nodup_app_r; eauto.
Qed.
Lemma once_along ls : forall s s', runs ls s = Some s' -> once s' -> along once ls s.
Proof.
  induction ls as [|l ls IH]; intros s s' H N; cbn in H |- *.
  - inversion H. subst. exact N.
  - split; [apply (once_before (l :: ls) s s'); auto|].
    destruct (step l s) as [s1|] eqn:E; [|discriminate]. eapply IH; eauto.
Qed.

Definition ok92 (s : sys) : Prop := rg_inv wf_queue any basic s /\ counted s /\ run_before s /\ once s.
Lemma ok92_single s : ok92 s -> single s.
Proof. intros (_ & C & _ & N). apply single_intro; auto. Qed.

Lemma inv92 ls s s' : each_step forward ls s -> along ok92 ls s -> rgy_inv I92 R92 G92 s ->
  runs ls s = Some s' -> rgy_inv I92 R92 G92 s'.
Proof.
  intros Hf Ha Hi Hs.
  eapply rgy_steps with (okl := forward) (okst := ok92) (R := R92); [..|exact Hf|exact Ha|exact Hi|exact Hs].
  - intros k x. split; [apply runs_on_refl|destruct k; auto].
  - intros k x y z [H1 H2] [H3 H4]. split; [eapply runs_on_trans; eauto|]. destruct k; auto. congruence.
  - intros k o x y _ _ -> Hx Hg. eapply I92_exec; eauto.
  - intros x n m a b o c Hok _ En Em Hnm Ep Hab Hx Hg. split; [eapply G92_on; eauto|].
    destruct (t_kind b) as [| | | |pb ab|] eqn:Kb; try exact I.
    assert (Dc : conn_at (ja_jobid ab) (snd (exec o (s_world x))) = conn_at (ja_jobid ab) (s_world x) \/
      conn_at (ja_jobid ab) (snd (exec o (s_world x))) <> conn_at (ja_jobid ab) (s_world x)).
    { destruct (conn_at (ja_jobid ab) (snd (exec o (s_world x)))) as [u|], (conn_at (ja_jobid ab) (s_world x)) as [v|];
        try (right; congruence); auto. destruct (Z.eq_dec u v); [left|right]; congruence. }
    destruct Dc as [Dc|Dc]; [exact Dc|]. exfalso.
    assert (Hb : basic (t_kind a) o (s_world x)) by (destruct Hg as ([Hm _] & Ho & _); split; assumption).
    destruct (conn_basic _ _ _ _ Hb (proj1 (proj1 Hx)) Dc) as (pa & aa & Ka & Eid).
    eapply (two_threads _ n m a b); eauto. eapply nodup_app_r. apply ok92_single. exact Hok.
  - intros l s0 s1 Hl _ _ Hn Hst [H1 H2]. destruct (step_env _ _ _ Hn Hst) as (He & _ & _ & Hsub).
    pose proof (env_ages _ _ _ Hl Hn Hst) as A. pose proof He as (E1 & _).
    split; [split; [eapply I91_env; eauto|rewrite E1; exact H2]|].
    intros t _ _. unfold R92, runs_on, conn_at. rewrite E1. split; [split; [exact A|auto]|destruct (t_kind t); auto].
  - intros c x _ _. apply ok92_cmd.
  - intros k p x Hp _ _. destruct k; inversion Hp.
    + eapply okq_okp. apply ok92_pass.
    + apply ok92_plain; [congruence|apply ops_mgr; reflexivity|]. eapply all_ops_weaken; [intros o; apply (may_plain91 KPipMgr); auto|apply ops_mgr; reflexivity].
    + apply ok92_plain; [congruence|apply ops_mgr; reflexivity|]. eapply all_ops_weaken; [intros o; apply (may_plain91 KDrvMgr); auto|apply ops_mgr; reflexivity].
  - intros x _ _. apply ok92_plain; [congruence|apply ops_quit|]. eapply all_ops_weaken; [intros o; apply (may_plain91 KDrvMgr); auto|apply ops_quit].
  - intros x x' i pid a Hok Hok' [(_ & _ & Hx) _] _ Hst Ea. eapply okq_okp.
    assert (Hh : here (ja_jobid a) (s_world x')).
    { apply (here_ages _ (s_world x)); [|apply Hx; eapply nth_error_In; eauto].
      apply (env_ages (LJobStart i pid)); [exact I|congruence|exact Hst]. }
    apply ok92_job; [exact Hh|].
    destruct (conn_at (ja_jobid a) (s_world x')) as [c|] eqn:Ec; [|reflexivity]. exfalso.
    assert (Hb : In (ja_jobid a) (jobs_of (s_threads x))).
    { apply Hok. destruct (step_env (LJobStart i pid) _ _ ltac:(congruence) Hst) as ((E1 & _) & _).
      unfold conn_at in *. rewrite <- E1, Ec. discriminate. }
    pose proof (ok92_single _ Hok) as N. unfold single in N.
    assert (Hin : In (ja_jobid a) (map ja_jobid (w_spawned (s_world x)))) by (apply in_map; eapply nth_error_In; eauto).
    clear - N Hin Hb. induction (map ja_jobid (w_spawned (s_world x))) as [|y l IH]; [destruct Hin|].
    cbn in N. inversion N. subst. destruct Hin as [->|Hin]; [|auto]. apply H1. apply in_app_iff. now right.
  - intros n port pid ver ok x _ _. apply ok92_plain; [congruence|apply ops_driver|].
    eapply all_ops_weaken; [intros o; apply (may_plain91 (KDriver n)); eauto|apply ops_driver].
Qed.

Lemma along_ok92 w ls s : w_jobs w = [] -> 0 <= w_seq w -> w_spawned w = [] ->
  runs ls (start_sys w) = Some s -> once s -> along ok92 ls (start_sys w).
Proof.
  intros Hj Hq Hsp Hs N.
  assert (X : forall ls0 s0 s0', rg_inv wf_queue any basic s0 /\ counted s0 /\ run_before s0 ->
    runs ls0 s0 = Some s0' -> once s0' -> along ok92 ls0 s0).
  { induction ls0 as [|l ls0 IH]; intros s0 s0' (B & C & Rb) H N0.
    - cbn in *. inversion H. subst. repeat split; auto; apply B.
    - cbn. split; [split; [exact B|split; [exact C|split; [exact Rb|eapply once_before; eauto]]]|].
      cbn in H. destruct (step l s0) as [s1|] eqn:E; [|discriminate]. eapply IH; [|exact H|exact N0].
      split; [|split; [eapply counted_step; eauto|eapply run_before_step; eauto]].
      apply (basic_inv [l] s0 s1 B). cbn. rewrite E. reflexivity. }
  eapply X; [|exact Hs|exact N]. split; [|split; [apply counted_start; exact Hsp|]].
  - apply rg_start. unfold wf_queue. cbn. rewrite Hj. cbn. repeat split; auto; constructor.
  - intros i Hi. exfalso. unfold conn_at in Hi. cbn in Hi. rewrite Hj in Hi. apply Hi. reflexivity.
Qed.
Lemma start92 w : w_jobs w = [] -> 0 <= w_seq w -> w_spawned w = [] -> rgy_inv I92 R92 G92 (start_sys w).
Proof.
  intros Hj Hq Hsp. apply rgy_start. unfold I92, I91, wf_queue. cbn. rewrite Hj, Hsp. cbn.
  repeat split; auto; try (intros ? []); try solve [constructor]; contradiction.
Qed.

Lemma C91_order_lemma w ls s : w_jobs w = [] -> 0 <= w_seq w -> w_spawned w = [] ->
  each_step forward ls (start_sys w) -> runs ls (start_sys w) = Some s ->
  NoDup (map ja_jobid (starts (s_world s))) ->
  forall j d, In j (w_jobs (s_world s)) -> j_completed j = Some d ->
  exists c, j_connected j = Some c /\ c <= d.
Proof.
  intros Hj Hq Hsp Hf Hs N j d Hin Hd.
  pose proof (inv92 _ _ _ Hf (along_ok92 _ _ _ Hj Hq Hsp Hs N) (start92 _ Hj Hq Hsp) Hs) as ((_ & H) & _).
  exact (proj2 (H j Hin) d Hd).
Qed.

(** The time of the connection is written once. *)
Lemma C91_conn_lemma w ls s l s' i j : w_jobs w = [] -> 0 <= w_seq w -> w_spawned w = [] ->
  each_step forward ls (start_sys w) -> runs ls (start_sys w) = Some s ->
  NoDup (map ja_jobid (starts (s_world s))) -> step l s = Some s' ->
  get_job (w_jobs (s_world s)) i = Some j -> j_connected j <> None ->
  exists j', get_job (w_jobs (s_world s')) i = Some j' /\ j_connected j' = j_connected j.
Proof.
  intros Hj Hq Hsp Hf Hs N Hl Ej Hc.
  pose proof (inv92 _ _ _ Hf (along_ok92 _ _ _ Hj Hq Hsp Hs N) (start92 _ Hj Hq Hsp) Hs) as Hi.
  assert (X : conn_at i (s_world s') = conn_at i (s_world s) -> exists j', get_job (w_jobs (s_world s')) i = Some j' /\ j_connected j' = j_connected j).
  { unfold conn_at. rewrite Ej. destruct (get_job (w_jobs (s_world s')) i) as [j'|]; [eauto|congruence]. }
  apply X. clear X.
  assert (D : (exists n, l = LStep n) \/ forall n, l <> LStep n).
  { destruct l; try (right; congruence). left. eauto. }
  destruct D as [(n & ->)|Hn].
  - cbn in Hl. destruct (nth_error (s_threads s) n) as [t|] eqn:En; [|discriminate].
    unfold step_thread in Hl. destruct (t_pgm t) as [a|e|o c] eqn:Ep; [|discriminate|].
    + destruct (mgr_pass (t_kind t)); [|discriminate]. destruct (t_done t); [discriminate|].
      destruct (s_run s); injection Hl as <-; reflexivity.
    + assert (Hg : G92 (t_kind t) o (s_world s)).
      { eapply rgy_next; eauto. intros k x. split; [apply runs_on_refl|destruct k; auto]. }
      pose proof (G92_on _ _ _ (proj1 Hi) Hg) as [_ Hk].
      destruct (exec o (s_world s)) as [r w2]. injection Hl as <-. cbn [s_world set_threads snd] in *.
      destruct (conn_at i (s_world s)) as [c0|] eqn:Ec; [apply Hk; exact Ec|].
      exfalso. unfold conn_at in Ec. rewrite Ej in Ec. congruence.
  - destruct (step_env _ _ _ Hn Hl) as ((E1 & _) & _). unfold conn_at. rewrite E1. reflexivity.
Qed.
