(** * SysProofs19: completed jobs do not come back (C78) *)
From Coq Require Import List String Ascii ZArith Bool Sorted Lia.
From Verif Require Import Base PyStr BaseFacts Types ConfigModel Prog ProgFacts World WorldFacts Replies
  CmdModel KetchupModel TomatoModel JobModel PipModel DrvModel SysModel RGFacts RGX RGY SysOps
  SpecQueue SpecSys SpecSys2 SysProofs SysProofs2 SysProofs3 SysProofs5 SysProofs10 SysProofs12 SysProofs13 SysProofs18.
Import ListNotations.
Open Scope list_scope.
Open Scope Z_scope.

(** Job [i] exists; it exists and is not in status 'q'; it has been started. *)
Definition known (i : Z) (w : world) : Prop := get_job (w_jobs w) i <> None.
Definition not_q (i : Z) (w : world) : Prop := exists j, get_job (w_jobs w) i = Some j /\ j_status j <> Sq.
Definition started (i : Z) (w : world) : Prop := In i (map ja_jobid (starts w)).
Definition keeps_on (w w' : world) : Prop :=
  (forall i, known i w -> known i w') /\ (forall i, not_q i w -> not_q i w') /\
  (forall i, conn_at i w <> None -> conn_at i w' <> None).
Lemma keeps_on_refl w : keeps_on w w.
Proof. repeat split; auto. Qed.
Lemma keeps_on_trans a b c : keeps_on a b -> keeps_on b c -> keeps_on a c.
Proof. intros (A1 & A2 & A3) (B1 & B2 & B3). repeat split; auto. Qed.

Definition I78 (w : world) : Prop := wf_queue w /\ forall a, In a (starts w) -> not_q (ja_jobid a) w.
Definition R78 (k : kind) (w w' : world) : Prop :=
  keeps_on w w' /\
  match k with
  | KJobMgr => starts w' = starts w
  | KJob _ a => conn_at (ja_jobid a) w' = conn_at (ja_jobid a) w
  | _ => True
  end.
Definition G78 (k : kind) (o : op) (w : world) : Prop :=
  basic k o w /\
  match o with
  | OJobUpdate id cs =>
      (forall c, In (JConnected c) cs -> conn_at id w = None) /\ (In (JStatus Sqw) cs -> ~ started id w)
  | OSpawnJob a => not_q (ja_jobid a) w
  | _ => True
  end.

Lemma set_status cs : forall j, (forall s, In (JStatus s) cs -> s <> Sq) -> j_status j <> Sq -> j_status (set_jcols cs j) <> Sq.
Proof.
  unfold set_jcols. induction cs as [|c cs IH]; intros j H Hj; cbn; auto.
  apply IH; [intros s Hs; apply H; now right|]. destruct c; cbn; auto. apply H. now left.
Qed.
Lemma may_status k id cs s : may k (OJobUpdate id cs) -> In (JStatus s) cs -> s <> Sq.
Proof.
  intros [[]|H] Hc. destruct k; cbn in H; try contradiction.
  - destruct H as [-> | ->]; cbn in Hc; intuition congruence.
  - destruct H as [(x & t & [-> | ->] & ->)|[->|(t & ->)]]; cbn in Hc; intuition congruence.
  - destruct H as [(t & ->)|[(r & x & p & ->)|(x & t & [-> | ->] & ->)]]; cbn in Hc; intuition congruence.
Qed.
Lemma conn_dec i w w' : conn_at i w' = conn_at i w \/ conn_at i w' <> conn_at i w.
Proof.
  destruct (conn_at i w') as [x|], (conn_at i w) as [y|]; try (right; congruence); auto.
  destruct (Z.eq_dec x y); [left|right]; congruence.
Qed.
Lemma op_kinds o : (exists j, o = OJobInsert j) \/ (exists id cs, o = OJobUpdate id cs) \/
    ((forall j, o <> OJobInsert j) /\ forall id cs, o <> OJobUpdate id cs).
Proof. destruct o; try (right; right; split; congruence); eauto. Qed.

Lemma jobs_other o w : (forall j, o <> OJobInsert j) -> (forall id cs, o <> OJobUpdate id cs) ->
  w_jobs (snd (exec o w)) = w_jobs w.
Proof. intros H1 H2. op_cases o; try reflexivity; [elim (H1 j)|elim (H2 id cs)]; reflexivity. Qed.

Lemma G78_keeps k o w : wf_queue w -> G78 k o w -> keeps_on w (snd (exec o w)).
Proof.
  intros Hw [[Hm Ho] Hx].
  destruct (op_kinds o) as [(j & ->)|[(id & cs & ->)|[D1 D2]]].
  - unfold keeps_on, known, not_q. cbn [exec snd set_jobs w_jobs]. repeat split; intros i H.
    + rewrite get_job_app. destruct (get_job (w_jobs w) i); [discriminate|congruence].
    + destruct H as (j0 & E & H). exists j0. rewrite get_job_app, E. auto.
    + change (conn_at i (snd (exec (OJobInsert j) w)) <> None).
      destruct (conn_dec i w (snd (exec (OJobInsert j) w))) as [E|E]; [rewrite E; exact H|].
      apply conn_insert in E; [|exact Hw]. destruct E as [E _]. congruence.
  - unfold keeps_on, known, not_q. cbn [exec snd set_jobs w_jobs]. repeat split; intros i H.
    + rewrite get_job_upd. destruct (get_job (w_jobs w) i); [|congruence]. cbn. destruct (Z.eqb i id); discriminate.
    + destruct H as (j0 & E & H). rewrite get_job_upd, E. cbn [option_map].
      destruct (Z.eqb i id); eexists; (split; [reflexivity|]); [|exact H].
      apply set_status; [|exact H]. intros s. eapply may_status; eauto.
    + change (conn_at i (snd (exec (OJobUpdate id cs) w)) <> None).
      destruct (conn_dec i w (snd (exec (OJobUpdate id cs) w))) as [E|E]; [rewrite E; exact H|].
      apply conn_upd in E; [|exact Hw]. destruct E as [-> (c & Hc)]. destruct Hx as [Hx _].
      rewrite (Hx c Hc) in H. congruence.
  - unfold keeps_on, known, not_q, conn_at. rewrite (jobs_other _ _ D1 D2). repeat split; auto.
Qed.
Lemma I78_exec k o w : I78 w -> G78 k o w -> I78 (snd (exec o w)).
Proof.
  intros [Hw Ha] Hg. pose proof (G78_keeps _ _ _ Hw Hg) as (_ & Hq & _). split; [apply wf_exec; exact Hw|].
  assert (D : (exists a, o = OSpawnJob a) \/ forall a, o <> OSpawnJob a).
  { destruct o; try (right; congruence). left. eauto. }
  destruct D as [(a & ->)|D].
  - intros a0 [<-|Hin]; [apply Hq; apply Hg|apply Hq; apply Ha; exact Hin].
  - rewrite starts_other by exact D. intros a Hin. apply Hq. auto.
Qed.

(** Operations without conditions. *)
Definition plain78 (o : op) : Prop :=
  match o with
  | OJobUpdate _ cs => (forall c, ~ In (JConnected c) cs) /\ ~ In (JStatus Sqw) cs
  | OSpawnJob _ => False
  | _ => True
  end.
Lemma plain78_ok k o w : may k o -> own_row k o -> plain78 o -> G78 k o w.
Proof.
  intros Hm Ho Hp. split; [split; assumption|]. destruct o; try exact I; [|destruct Hp].
  cbn in Hp. destruct Hp as [P1 P2]. split; [intros c Hc; elim (P1 c); exact Hc|intros H; elim P2; exact H].
Qed.
Lemma may_plain78 k o : match k with KJobMgr | KJob _ _ => False | _ => True end -> may k o -> plain78 o.
Proof.
  intros Hk [H|H]; destruct o; try exact I; try contradiction; destruct k; try contradiction.
  cbn in H. destruct H as [-> | ->]; cbn; intuition discriminate.
Qed.
Lemma ok78_plain k {A} (p : pgm A) w : match k with KJobMgr | KJob _ _ => False | _ => True end ->
  all_ops (may k) p -> okp exec (rely I78 R78 k) (G78 k) p w.
Proof.
  intros Hk H. eapply all_ops_okp; [|exact H]. intros w0 w1 o _ Ho. apply plain78_ok; [exact Ho| |eapply may_plain78; eauto].
  destruct k; try exact I. contradiction.
Qed.

Section Any.
  Context (k : kind).
  Let R := rely I78 R78 k.
  Let G := G78 k.
  Let E := fun _ : world => True.
  (** What the operations without conditions keep. *)
  Definition kept78 (P : world -> Prop) : Prop :=
    (forall a b, R78 k a b -> P a -> P b) /\
    forall o w, I78 w -> G78 k o w -> (forall a, o <> OSpawnJob a) -> P w -> P (snd (exec o w)).
  Lemma st78 (P : world -> Prop) {A} (p : pgm A) : forall w, kept78 P -> all_ops (may k) p -> all_ops (own_row k) p ->
    all_ops plain78 p -> P w -> okq exec R G E p (fun _ => P) w.
  Proof.
    induction p as [a|e|o f IH]; intros w HP H1 H2 H3 Hw; cbn; [exact Hw|exact I|].
    destruct H1 as [H1 K1], H2 as [H2 K2], H3 as [H3 K3]. intros w1 [Hi Hr].
    assert (Hg : G78 k o w1) by (apply plain78_ok; auto). split; [exact Hg|].
    pose proof (proj2 HP o w1 Hi Hg) as Hs. destruct (exec o w1) as [r w2]. apply IH; auto.
    apply Hs; [intros a ->; destruct H3|]. eapply (proj1 HP); eauto.
  Qed.
End Any.

(** ** The job manager *)
Section Mgr.
  Let R := rely I78 R78 KJobMgr.
  Let G := G78 KJobMgr.
  Let E := fun _ : world => True.
  Ltac ops := repeat (ops_step; cbv beta zeta).

  (** What an iteration remembers of the jobs it read and of those it matched. *)
  Definition J78 (l : list job) (m : list (Z * list string)) (w : world) : Prop :=
    (forall j, In j l -> known (j_id j) w /\ (j_status j = Sq -> ~ started (j_id j) w) /\ (j_status j <> Sq -> not_q (j_id j) w)) /\
    forall e, In e m -> snd e <> [] -> not_q (fst e) w.
  Lemma J78_R l m a b : keeps_on a b -> starts b = starts a -> J78 l m a -> J78 l m b.
  Proof.
    intros (K1 & K2 & _) Es [H1 H2]. split.
    - intros j Hj. destruct (H1 j Hj) as (A1 & A2 & A3). unfold started in *. rewrite Es. auto.
    - intros e He Hs. auto.
  Qed.
  Lemma J78_kept l m : kept78 KJobMgr (J78 l m).
  Proof.
    split.
    - intros a b [H1 H2]. apply J78_R; assumption.
    - intros o w [Hi _] Hg Hn. apply J78_R; [eapply G78_keeps; eauto|apply starts_other; exact Hn].
  Qed.
  Lemma q_kept i : kept78 KJobMgr (not_q i).
  Proof.
    split.
    - intros a b [(_ & H & _) _]. auto.
    - intros o w [Hi _] Hg Hn H. apply (G78_keeps _ _ _ Hi Hg). exact H.
  Qed.
  Lemma T_kept k : kept78 k (fun _ => True).
  Proof. split; auto. Qed.
  Lemma mg78 (P : world -> Prop) {A} (p : pgm A) w : kept78 KJobMgr P -> all_ops (may KJobMgr) p ->
    all_ops plain78 p -> P w -> okq exec R G E p (fun _ => P) w.
  Proof. intros. apply st78; auto. apply own_any. congruence. Qed.
  Lemma plain_reads {A} (p : pgm A) : all_ops reads p -> all_ops plain78 p.
  Proof. apply all_ops_weaken. intros o H. destruct o; try exact I; destruct H. Qed.
  Lemma may_reads k {A} (p : pgm A) : all_ops reads p -> all_ops (may k) p.
  Proof. apply all_ops_weaken. intros o H. left. exact H. Qed.

  Lemma ok78_manage w : okq exec R G E manage_running (fun _ _ => True) w.
  Proof.
    apply mg78 with (P := fun _ => True); [apply T_kept|eapply all_ops_weaken; [apply quiet_may|apply quiet_manage]| |exact I].
    unfold manage_running, manage_one, reconcile, finish_cancelled, finish_crashed, merge_netcdfs, update_job_id.
    ops; try exact I; cbn; intuition discriminate.
  Qed.
  Lemma ok78_check d j r m w : J78 (j :: r) m w -> okq exec R G E (check_one d m j) (fun m' => J78 r m') w.
  Proof.
    intros HJ. unfold check_one. q_bind.
    eapply okq_weaken; [|apply mg78 with (P := J78 (j :: r) m); [apply J78_kept|apply may_reads, reads_match|apply plain_reads, reads_match|exact HJ]].
    intros pips w1 H1. cbv beta. q_bind.
    assert (X : forall w', J78 (j :: r) m w' -> (pips <> [] -> not_q (j_id j) w') -> J78 r (m ++ [(j_id j, pips)]) w').
    { intros w' [A1 A2] A3. split; [intros x Hx; apply A1; now right|].
      intros e He Hs. apply in_app_iff in He. destruct He as [He|[<-|[]]]; auto. }
    assert (Y : j_status j <> Sq -> okq exec R G E (Ret tt) (fun _ w' => okq exec R G E (Ret (m ++ [(j_id j, pips)])) (fun m' => J78 r m') w') w1).
    { intros Hs. cbn. apply X; [exact H1|]. intros _. apply (proj1 H1 j (or_introl eq_refl)). exact Hs. }
    destruct pips as [|pn pips'].
    { cbn. apply X; [exact H1|]. intros F. elim F. reflexivity. }
    destruct (j_status j) eqn:Es; try (apply Y; congruence). clear Y.
    q_bind. unfold update_job_id. q_bind. apply okq_act. intros w2 [Hi Hr].
    pose proof (proj1 (J78_kept _ _) _ _ Hr H1) as H2.
    destruct (proj1 H2 j (or_introl eq_refl)) as (K & N & _). specialize (N Es).
    assert (Hg : G78 KJobMgr (OJobUpdate (j_id j) [JStatus Sqw]) w2).
    { split; [split; [right; cbn; auto|exact I]|]. split; [intros c [F|[]]; discriminate F|intros _; exact N]. }
    split; [exact Hg|].
    assert (H3 : J78 (j :: r) m (snd (exec (OJobUpdate (j_id j) [JStatus Sqw]) w2))).
    { apply (proj2 (J78_kept _ _)); auto. congruence. }
    assert (Q3 : not_q (j_id j) (snd (exec (OJobUpdate (j_id j) [JStatus Sqw]) w2))).
    { unfold known in K. unfold not_q. cbn [exec snd set_jobs w_jobs]. rewrite get_job_upd, Z.eqb_refl.
      destruct (get_job (w_jobs w2) (j_id j)) as [j0|]; [|congruence]. cbn. eexists. split; [reflexivity|]. cbn. discriminate. }
    revert H3 Q3. cbn [exec snd]. generalize (set_jobs w2 (upd_jobs (j_id j) [JStatus Sqw] (w_jobs w2)) (w_seq w2)).
    intros w3 H3 Q3. apply okq_act. intros w4 [Hi4 Hr4].
    split; [apply plain78_ok; [left; exact I|exact I|exact I]|]. cbn [exec].
    destruct (get_job (w_jobs w4) (j_id j)) as [j0|]; [|exact I]. cbn. apply X.
    - exact (proj1 (J78_kept _ _) _ _ Hr4 H3).
    - intros _. exact (proj1 (q_kept _) _ _ Hr4 Q3).
  Qed.
  Lemma ok78_launch d j pn w : not_q (j_id j) w -> okq exec R G E (launch d j pn) (fun _ _ => True) w.
  Proof.
    intros Hw. unfold launch.
    assert (S : forall {A} (p : pgm A) w0, not_q (j_id j) w0 -> all_ops (may KJobMgr) p -> all_ops plain78 p ->
      okq exec R G E p (fun _ => not_q (j_id j)) w0).
    { intros A p w0 H0 H1 H2. apply mg78; auto. apply q_kept. }
    q_bind. eapply okq_weaken; [|apply S; [exact Hw|ops; fin|ops; exact I]].
    intros x1 w1 H1. cbv beta. q_bind. eapply okq_weaken; [|apply S; [exact H1|ops; fin|ops; exact I]].
    intros x2 w2 H2. cbv beta. q_bind. eapply okq_weaken; [|apply S; [exact H2|ops; fin|ops; exact I]].
    intros x3 w3 H3. cbv beta. q_bind.
    eapply okq_weaken; [|apply S; [exact H3|apply ops_update_pip; right; cbn; eauto|unfold update_pip; ops; exact I]].
    intros x4 w4 H4. cbv beta. q_bind. apply okq_act. intros w5 [Hi Hr].
    split; [split; [split; [right; exact I|exact I]|exact (proj1 (q_kept _) _ _ Hr H4)]|].
    destruct (exec (OSpawnJob (job_args d j pn)) w5) as [[x|e] w6]; [|exact I].
    eapply okq_weaken; [|apply mg78 with (P := fun _ => True); [apply T_kept| | |exact I]]; [intros; exact I| |].
    - ops; try fin. apply ops_update_job. right. cbn. eauto.
    - unfold update_job_id. ops; try exact I. cbn. intuition discriminate.
  Qed.
  Lemma sort_jobs_mem l y : In y (sort_jobs l) -> In y l.
  Proof.
    induction l as [|x l IH]; cbn; [auto|]. intros H. apply insert_sorted_in in H. destruct H as [->|H]; auto.
  Qed.
  Lemma ok78_pass w : okq exec R G E (no_reply job_pass) (fun _ _ => True) w.
  Proof.
    assert (Q : forall o w, reads o -> G78 KJobMgr o w).
    { intros o w0 H1. apply plain78_ok; [left; exact H1|exact I|]. destruct o; try exact I; destruct H1. }
    unfold no_reply, job_pass. q_bind. q_bind. apply okq_act. intros w1 _. cbn [exec]. split; [apply Q; exact I|].
    destruct (w_daemon w1) as [d|]; [|exact I].
    q_bind. eapply okq_weaken; [|apply ok78_manage]. intros _ w2 _. cbv beta.
    q_bind. unfold check_queued. q_bind. apply okq_act. intros w3 [[Hw Ha] _]. cbn [exec jobs_where].
    split; [apply Q; exact I|].
    eapply okq_weaken; [|eapply okq_forP with (J := J78)].
    3:{ intros j r m w4 HJ. apply ok78_check. exact HJ. }
    2:{ split; [|intros e []]. intros j Hj. apply filter_In in Hj. destruct Hj as [Hj _].
        assert (Ej : get_job (w_jobs w3) (j_id j) = Some j) by (apply In_get_job; [apply wf_nodup; exact Hw|exact Hj]).
        split; [unfold known; rewrite Ej; discriminate|]. split.
        - intros Es Hst. apply in_map_iff in Hst. destruct Hst as (a & Ea & Hin).
          destruct (Ha a Hin) as (j0 & E0 & N0). rewrite Ea, Ej in E0. inversion E0. subst. contradiction.
        - intros Es. exists j. auto. }
    intros m w4 [_ Hm]. cbv beta.
    unfold action_queued. q_bind.
    assert (Km : kept78 KJobMgr (J78 [] m)) by apply J78_kept.
    eapply okq_weaken; [|apply mg78 with (P := J78 [] m); [exact Km|ops; fin|ops; exact I|split; [intros j []|exact Hm]]].
    intros free w5 H5. cbv beta. q_bind.
    eapply okq_weaken with (Q := fun _ _ => True); [intros; exact I|].
    eapply okq_weaken; [|eapply okq_forP with
      (J := fun r _ w => forall e, In e r -> snd e <> [] -> not_q (fst e) w)]; [intros; exact I| |].
    - intros e He. apply H5. apply sort_jobs_mem. exact He.
    - intros e r av w6 HJ. unfold action_one.
      set (P := fun w => (snd e <> [] -> not_q (fst e) w) /\ forall e0, In e0 r -> snd e0 <> [] -> not_q (fst e0) w).
      assert (PK : forall a b, keeps_on a b -> P a -> P b).
      { intros a b (_ & K & _) [P1 P2]. split; auto. }
      assert (P6 : P w6) by (split; [apply HJ; now left|intros; apply HJ; auto; now right]).
      q_bind. apply okq_act. intros w7 [Hi7 [Hr7 _]]. split; [apply Q; exact I|]. cbn [exec].
      destruct (get_job (w_jobs w7) (fst e)) as [j|] eqn:Ej; [|exact I].
      assert (Eid : j_id j = fst e) by apply (get_job_In _ _ _ Ej).
      assert (P7 : P w7) by (eapply PK; eauto).
      assert (L : forall (X : Type) (p : pgm X) w0, all_ops (may KJobMgr) p ->
         okq exec R G E p (fun _ _ => True) w0 -> P w0 -> okq exec R G E p (fun _ => P) w0).
      { intros X p. induction p as [a|ex|o f IH]; intros w0 Hm0 H0 HP0; cbn in *; auto.
        intros w8 Hr8. destruct (H0 w8 Hr8) as [Hg H1]. split; [exact Hg|].
        assert (P8 : P (snd (exec o w8))).
        { eapply PK; [eapply G78_keeps; [apply Hr8|exact Hg]|]. eapply PK; [apply Hr8|exact HP0]. }
        destruct (exec o w8) as [rr w9]. apply IH; auto. apply Hm0. }
      q_bind.
      eapply okq_weaken; [|eapply okq_forB with (J := fun l _ w => P w /\ (l <> [] -> snd e <> [])) (K := fun _ w => P w)].
      + intros [x|x] w8 Hx; cbn; [apply Hx|apply Hx].
      + split; [exact P7|auto].
      + intros pn l av' w8 [P8 Hl]. assert (Hne : snd e <> []) by (apply Hl; discriminate).
        unfold try_pip. destruct (dget av' pn) as [ps|]; [|split; auto].
        destruct (_ && _)%bool; [|split; auto]. q_bind.
        eapply okq_weaken; [|apply L; [|apply ok78_launch; rewrite Eid; apply (proj1 P8); exact Hne|exact P8]].
        * intros u w9 P9. exact P9.
        * unfold launch. ops; try fin; [apply ops_update_pip; right; cbn; eauto|apply ops_update_job; right; cbn; eauto].
  Qed.
End Mgr.

(** ** The job process *)
Section Job.
  Context (pid : Z) (a : jobargs).
  Let R := rely I78 R78 (KJob pid a).
  Let G := G78 (KJob pid a).
  Let E := fun _ : world => True.
  Let id := ja_jobid a.
  Lemma ok78_job w : conn_at id w = None -> okq exec R G E (no_reply (tomato_job pid a)) (fun _ _ => True) w.
  Proof.
    intros Hn.
    assert (D : okp exec (fun _ _ => True) (fun o w => may (KJob pid a) o /\ own_row (KJob pid a) o) (no_reply (tomato_job pid a)) w).
    { apply okp_and_static; [apply ops_job|apply own_job]. }
    assert (X : forall (A : Type) (p : pgm A) w0, okp exec (fun _ _ => True) (fun o w => may (KJob pid a) o /\ own_row (KJob pid a) o) p w0 ->
      all_ops plain78 p -> okq exec R G E p (fun _ _ => True) w0).
    { intros A p. induction p as [b|e|o f IH]; intros w0 H1 H2; cbn in *; auto.
      destruct H2 as [H2 K2]. intros w1 _. destruct (H1 w1 I) as [[Hm Ho] K1]. split; [apply plain78_ok; auto|].
      destruct (exec o w1) as [r w2]. apply IH; auto. }
    revert D. unfold no_reply, tomato_job. fold id. cbn [bind act do update_job_id].
    intros D w1 [Hi1 [Hr1 Hk1]]. destruct (D w1 I) as [[Hm1 Ho1] D1]. split; [apply plain78_ok; auto; exact I|].
    cbv beta in Hk1. fold id in Hk1. rewrite Hn in Hk1. clear D. cbn [exec] in D1 |- *. cbn [bind] in D1 |- *.
    intros w2 [Hi2 [Hr2 Hk2]]. destruct (D1 w2 I) as [Hg2 D2]. split.
    { split; [exact Hg2|]. split; [|cbn; intuition discriminate].
      intros c _. cbv beta in Hk2. fold id in Hk2. congruence. }
    destruct (exec _ w2) as [[u|e] w3]; [|exact I]. apply X; [exact D2|]. clear.
    cbn [bind act do all_ops]. split; [exact I|]. intros [j0|e]; [|exact I]. cbn [bind].
    destruct (pl_outpath (ja_payload a)) as [out|]; [|exact I].
    unfold merge_netcdfs, update_job_id, update_pip.
    repeat (first [lazymatch goal with |- all_ops _ (Op _ _) => split; [|intros] end|ops_step]; cbv beta zeta);
      try exact I; cbn.
    all: try (repeat match goal with |- context [if ?b then _ else _] => destruct b end; intuition discriminate).
  Qed.
End Job.

Lemma ok92_started s i : ok92 s -> conn_at i (s_world s) <> None -> started i (s_world s).
Proof.
  intros (_ & C & Rb & _) H. specialize (Rb i H). specialize (C i). unfold started.
  apply (count_occ_In Z.eq_dec) in Rb. apply (count_occ_In Z.eq_dec). unfold count in C. lia.
Qed.

Lemma inv78 ls s s' : along ok92 ls s -> rgy_inv I78 R78 G78 s -> runs ls s = Some s' -> rgy_inv I78 R78 G78 s'.
Proof.
  intros Ha Hi Hs.
  assert (Hf : each_step (fun _ _ => True) ls s).
  { clear. revert s. induction ls as [|l ls IH]; intros s; cbn; auto. split; [exact I|]. destruct (step l s); auto. }
  eapply rgy_steps with (okl := fun _ _ => True) (okst := ok92) (R := R78); [..|exact Hf|exact Ha|exact Hi|exact Hs].
  - intros k x. split; [apply keeps_on_refl|destruct k; auto].
  - intros k x y z [H1 H2] [H3 H4]. split; [eapply keeps_on_trans; eauto|]. destruct k; auto; congruence.
  - intros k o x y _ _ -> Hx Hg. eapply I78_exec; eauto.
  - intros x n m a b o c Hok Hone En Em Hnm Ep Hab Hx Hg. split; [eapply G78_keeps; [apply Hx|eauto]|].
    destruct (t_kind b) as [| | | |pb ab|] eqn:Kb; try exact I.
    + apply starts_other. intros a0 ->. destruct Hg as [[Hm _] _]. destruct Hm as [[]|Hm].
      destruct (t_kind a) eqn:Ka; cbn in Hm; try contradiction.
      apply Hnm. eapply Hone; eauto. rewrite Ka, Kb. reflexivity.
    + destruct (conn_dec (ja_jobid ab) (s_world x) (snd (exec o (s_world x)))) as [Dc|Dc]; [exact Dc|]. exfalso.
      destruct (conn_basic _ _ _ _ (proj1 Hg) (proj1 Hx) Dc) as (pa & aa & Ka & Eid).
      eapply (two_threads _ n m a b); eauto. eapply nodup_app_r. apply ok92_single. exact Hok.
  - intros l s0 s1 _ _ _ Hn Hst [H1 H2]. destruct (step_env _ _ _ Hn Hst) as ((E1 & E2 & _ & _ & _ & _ & E7) & _).
    split; [split; [eapply wf_jobs_eq; eauto|]|].
    + unfold starts, not_q. rewrite E7, E1. exact H2.
    + intros t _ _. unfold R78, keeps_on, known, not_q, conn_at, starts. rewrite E1, E7.
      split; [repeat split; auto|destruct (t_kind t); auto].
  - intros c x _ _. apply ok78_plain; [exact I|apply ops_cmd].
  - intros k p x Hp _ _. destruct k; inversion Hp.
    + eapply okq_okp. apply ok78_pass.
    + apply ok78_plain; [exact I|apply ops_mgr; reflexivity].
    + apply ok78_plain; [exact I|apply ops_mgr; reflexivity].
  - intros x _ _. apply ok78_plain; [exact I|apply ops_quit].
  - intros x x' i pid a Hok Hok' Hx _ Hst Ea. eapply okq_okp. apply ok78_job.
    destruct (conn_at (ja_jobid a) (s_world x')) as [c|] eqn:Ec; [|reflexivity]. exfalso.
    assert (Hb : In (ja_jobid a) (jobs_of (s_threads x))).
    { apply Hok. destruct (step_env (LJobStart i pid) _ _ ltac:(congruence) Hst) as ((E1 & _) & _).
      unfold conn_at in *. rewrite <- E1, Ec. discriminate. }
    pose proof (ok92_single _ Hok) as N. unfold single in N.
    assert (Hin : In (ja_jobid a) (map ja_jobid (w_spawned (s_world x)))) by (apply in_map; eapply nth_error_In; eauto).
    clear - N Hin Hb. induction (map ja_jobid (w_spawned (s_world x))) as [|y l IH]; [destruct Hin|].
    cbn in N. inversion N. subst. destruct Hin as [->|Hin]; [|auto]. apply H1. apply in_app_iff. now right.
  - intros n port pid ver ok x _ _. apply ok78_plain; [exact I|apply ops_driver].
Qed.

(** ** Jobs that are over *)
Definition over (i : Z) (w : world) : Prop :=
  exists j, get_job (w_jobs w) i = Some j /\ out_of_queue (j_status j) /\ j_connected j <> None.
Lemma set_out cs : forall j, (forall s, In (JStatus s) cs -> out_of_queue s) -> out_of_queue (j_status j) ->
  out_of_queue (j_status (set_jcols cs j)).
Proof.
  unfold set_jcols. induction cs as [|c cs IH]; intros j H Hj; cbn; auto.
  apply IH; [intros s Hs; apply H; now right|]. destruct c; cbn; auto. apply H. now left.
Qed.
Lemma over_exec k o i s : ok92 s -> G78 k o (s_world s) -> over i (s_world s) -> over i (snd (exec o (s_world s))).
Proof.
  intros Hok Hg (j & Ej & Ho & Hc).
  assert (Hw : wf_queue (s_world s)) by apply (proj1 Hok).
  assert (Cn : conn_at i (s_world s) <> None) by (unfold conn_at; rewrite Ej; exact Hc).
  pose proof (G78_keeps _ _ _ Hw Hg) as (_ & _ & Kc). specialize (Kc i Cn).
  unfold over. destruct (op_kinds o) as [(x & ->)|[(id & cs & ->)|[D1 D2]]].
  - cbn [exec snd set_jobs w_jobs]. exists j. rewrite get_job_app, Ej. auto.
  - unfold conn_at in Kc. cbn [exec snd set_jobs w_jobs] in Kc |- *. rewrite get_job_upd, Ej in Kc |- *. cbn [option_map] in Kc |- *.
    destruct (Z.eqb_spec i id) as [->|Hne]; [|exists j; auto].
    eexists. split; [reflexivity|]. split; [|exact Kc]. apply set_out; [|exact Ho].
    destruct Hg as [[Hm _] [Hx Hq]]. pose proof (ok92_started _ _ Hok Cn) as Hst.
    intros st Hin. destruct Hm as [[]|Hm]. destruct k; cbn in Hm; try contradiction.
    + destruct Hm as [-> | ->]; destruct Hin as [F|[]]; inversion F; subst; [exact out_cd|exact out_rd].
    + destruct Hm as [(x & t & [-> | ->] & ->)|[->|(t & ->)]].
      * destruct Hin as [F|[F|[F|[]]]]; inversion F. exact out_cd.
      * destruct Hin as [F|[F|[F|[]]]]; inversion F. exact out_ce.
      * elim Hq; [now left|exact Hst].
      * destruct Hin as [F|[]]; discriminate F.
    + destruct Hm as [(t & ->)|[(r & x & p & ->)|(x & t & [-> | ->] & ->)]].
      * exfalso. apply Cn. apply (Hx (Some t)). cbn. auto.
      * destruct Hin as [F|[F|[F|[]]]]; discriminate F.
      * destruct Hin as [F|[F|[]]]; inversion F. left. left. reflexivity.
      * destruct Hin as [F|[F|[]]]; inversion F. exact out_ce.
  - rewrite (jobs_other _ _ D1 D2). exists j. auto.
Qed.
Lemma over_step l s s' i : ok92 s -> rgy_inv I78 R78 G78 s -> step l s = Some s' ->
  over i (s_world s) -> over i (s_world s').
Proof.
  intros Hok Hi Hl H.
  assert (D : (exists n, l = LStep n) \/ forall n, l <> LStep n).
  { destruct l; try (right; congruence). left. eauto. }
  destruct D as [(n & ->)|Hn].
  - cbn in Hl. destruct (nth_error (s_threads s) n) as [t|] eqn:En; [|discriminate].
    unfold step_thread in Hl. destruct (t_pgm t) as [a|e|o c] eqn:Ep; [|discriminate|].
    + destruct (mgr_pass (t_kind t)); [|discriminate]. destruct (t_done t); [discriminate|].
      destruct (s_run s); injection Hl as <-; exact H.
    + assert (Hg : G78 (t_kind t) o (s_world s)).
      { eapply rgy_next; eauto. intros k x. split; [apply keeps_on_refl|destruct k; auto]. }
      pose proof (over_exec _ _ i _ Hok Hg H) as X.
      destruct (exec o (s_world s)) as [r w2]. injection Hl as <-. exact X.
  - destruct (step_env _ _ _ Hn Hl) as ((E1 & _) & _). unfold over. rewrite E1. exact H.
Qed.
Lemma along_app {P} a : forall b s, along P (a ++ b) s -> along P a s /\ forall s', runs a s = Some s' -> along P b s'.
Proof.
  induction a as [|l a IH]; intros b s H.
  - split; [|intros s' E; inversion E; subst; exact H]. destruct b; cbn in *; [exact H|apply H].
  - cbn in *. destruct H as [H1 H2]. destruct (step l s) as [s1|]; [|split; [auto|discriminate]].
    destruct (IH b s1 H2) as [A B]. split; auto.
Qed.

Lemma over_runs ls i : forall s s', along ok92 ls s -> rgy_inv I78 R78 G78 s -> runs ls s = Some s' ->
  over i (s_world s) -> over i (s_world s').
Proof.
  induction ls as [|l ls IH]; intros s s' Ha Hi Hr H; cbn in Hr; [inversion Hr; subst; exact H|].
  cbn in Ha. destruct Ha as [H0 Ha]. destruct (step l s) as [s1|] eqn:E; [|discriminate].
  eapply IH; [exact Ha| |exact Hr|eapply over_step; eauto].
  apply (inv78 [l] s s1); [|exact Hi|cbn; rewrite E; reflexivity].
  cbn. rewrite E. split; [exact H0|]. destruct ls; cbn in Ha; [exact Ha|apply Ha].
Qed.

Lemma C78_again_lemma w ls s ls' s' i :
  w_jobs w = [] -> 0 <= w_seq w -> w_spawned w = [] -> w_log w = [] ->
  runs ls (start_sys w) = Some s -> runs ls' s = Some s' ->
  NoDup (map ja_jobid (starts (s_world s'))) ->
  (exists j, In j (w_jobs (s_world s)) /\ j_id j = i /\ j_status j = Sc) ->
  forall j, In j (w_jobs (s_world s')) -> j_id j = i -> out_of_queue (j_status j).
Proof.
  intros Hj Hq Hsp Hl Hs Hs' N (j0 & Hin0 & Hid0 & Hc0) j Hin Hid.
  assert (Hr : runs (ls ++ ls') (start_sys w) = Some s').
  { clear - Hs Hs'. revert Hs. generalize (start_sys w). induction ls as [|l ls IH]; intros s0 Hs; cbn in *.
    - inversion Hs. subst. exact Hs'.
    - destruct (step l s0); [|discriminate]. auto. }
  pose proof (along_ok92 _ _ _ Hj Hq Hsp Hr N) as Ha. apply along_app in Ha. destruct Ha as [Ha Ha'].
  specialize (Ha' _ Hs).
  assert (I0 : rgy_inv I78 R78 G78 (start_sys w)).
  { apply rgy_start. unfold I78, wf_queue. cbn. rewrite Hj. cbn. repeat split; auto; try constructor.
    intros a Hin'. unfold starts in Hin'. cbn in Hin'. rewrite Hl in Hin'. destruct Hin'. }
  pose proof (inv78 _ _ _ Ha I0 Hs) as I1.
  assert (B : record_ok j0).
  { eapply (C77_lemma w ls s); try exact Hin0; try exact Hs; try exact Hsp.
    - unfold wf_queue. rewrite Hj. cbn. repeat split; auto; constructor.
    - rewrite Hj. intros ? []. }
  assert (W : forall x, rgy_inv I78 R78 G78 x -> NoDup (map j_id (w_jobs (s_world x)))).
  { intros x Hx. apply wf_nodup. apply Hx. }
  assert (O : over i (s_world s)).
  { exists j0. split; [rewrite <- Hid0; apply In_get_job; [apply W; exact I1|exact Hin0]|].
    split; [rewrite Hc0; left; left; reflexivity|]. apply B. auto. }
  pose proof (over_runs _ _ _ _ Ha' I1 Hs' O) as (j1 & E1 & O1 & _).
  pose proof (inv78 _ _ _ Ha' I1 Hs') as I2.
  rewrite <- Hid in E1. rewrite (In_get_job _ _ (W _ I2) Hin) in E1. inversion E1. subst. exact O1.
Qed.
