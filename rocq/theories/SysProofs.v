(** * SysProofs: invariants of all executions (C21, C29, C30, C45) *)
From Coq Require Import List String Ascii ZArith Bool Sorted Lia.
From Verif Require Import Base PyStr BaseFacts Types ConfigModel Prog ProgFacts World WorldFacts Replies
  CmdModel KetchupModel TomatoModel JobModel PipModel DrvModel SysModel RGFacts SysOps
  SpecQueue SpecSys.
Import ListNotations.
Open Scope list_scope.
Open Scope Z_scope.

(** The world after an operation, by cases. *)
Ltac op_cases o :=
  destruct o; cbn [exec snd fst]; unfold ask;
  repeat match goal with
         | |- context [match ?x with _ => _ end] => destruct x eqn:?; cbn [snd fst]
         end.

(** Steps other than operations of threads do not touch the tables, folders
    and the log. *)
Definition env_same (w w' : world) : Prop :=
  w_jobs w' = w_jobs w /\ w_seq w' = w_seq w /\ w_pips w' = w_pips w /\ w_drvs w' = w_drvs w /\
  w_dirs w' = w_dirs w /\ w_jobdata w' = w_jobdata w /\ w_log w' = w_log w.

Lemma step_env l s s' : (forall n, l <> LStep n) -> step l s = Some s' ->
  env_same (s_world s) (s_world s') /\
  (w_daemon (s_world s') = w_daemon (s_world s) \/ w_daemon (s_world s') = None) /\
  ((forall f, l <> LFiles f) -> w_files (s_world s') = w_files (s_world s)) /\
  (forall a, In a (w_spawned (s_world s')) -> In a (w_spawned (s_world s))).
Proof.
  assert (D : forall (A : Type) (l : list A) i a, In a (del_nth i l) -> In a l).
  { intros A. induction l0 as [|x l0 IH]; intros [|i] a H; cbn in *; auto.
    destruct H as [H|H]; [auto|]. right. eapply IH; eauto. }
  intros Hn Hs.
  destruct l; cbn in Hs; try (elim (Hn n); reflexivity);
    repeat match type of Hs with
           | match ?x with _ => _ end = _ => destruct x eqn:?; try discriminate
           end;
    injection Hs as <-; cbn; unfold env_same; cbn;
    (split; [repeat split; reflexivity|]);
    (split; [auto|]); (split; [intros Hf; try reflexivity; elim (Hf f); reflexivity|]); eauto.
Qed.

(** ** C21 *)
Lemma same_refl j : same_job j j.
Proof. repeat split. Qed.
Lemma same_trans a b c : same_job a b -> same_job b c -> same_job a c.
Proof. unfold same_job. intros (?&?&?&?) (?&?&?&?). repeat split; congruence. Qed.

Definition jobs_kept (w w' : world) : Prop :=
  forall j, In j (w_jobs w) -> exists j', In j' (w_jobs w') /\ same_job j j'.

Lemma kept_refl w : jobs_kept w w.
Proof. intros j H. exists j. split; [exact H|apply same_refl]. Qed.
Lemma kept_trans a b c : jobs_kept a b -> jobs_kept b c -> jobs_kept a c.
Proof.
  intros H1 H2 j Hj. destruct (H1 j Hj) as (j1 & Hj1 & E1). destruct (H2 j1 Hj1) as (j2 & Hj2 & E2).
  exists j2. split; [exact Hj2|eapply same_trans; eauto].
Qed.
Lemma kept_eq w w' : w_jobs w' = w_jobs w -> jobs_kept w w'.
Proof. intros E j H. exists j. rewrite E. split; [exact H|apply same_refl]. Qed.

(** Columns that identify a job. *)
Definition ident_col (c : jcol) : Prop :=
  match c with JPayload _ | JJobname _ | JSubmitted _ => True | _ => False end.
Lemma same_cols cs : forall j, (forall c, In c cs -> ~ ident_col c) -> same_job j (set_jcols cs j).
Proof.
  unfold set_jcols. induction cs as [|c cs IH]; intros j H; cbn; [apply same_refl|].
  eapply same_trans; [|apply IH; intros c' Hc'; apply H; now right].
  assert (~ ident_col c) by (apply H; now left).
  destruct c; cbn in *; try tauto; repeat split.
Qed.

Lemma kept_upd w id cs : (forall c, In c cs -> ~ ident_col c) ->
  jobs_kept w (set_jobs w (upd_jobs id cs (w_jobs w)) (w_seq w)).
Proof.
  intros H j Hj. exists (if Z.eqb (j_id j) id then set_jcols cs j else j). split.
  - unfold set_jobs, upd_jobs. cbn. apply in_map_iff. exists j. auto.
  - destruct (Z.eqb (j_id j) id); [apply same_cols; auto|apply same_refl].
Qed.

Lemma may_update k id cs : may k (OJobUpdate id cs) -> forall c, In c cs -> ~ ident_col c.
Proof.
  intros [H|H] c Hc; [destruct H|]. intros Hi.
  destruct k; cbn in H; try contradiction.
  - destruct H as [-> | ->]; destruct Hc as [<-|[]]; exact Hi.
  - destruct H as [(s & t & _ & ->)|[->|(t & ->)]]; repeat destruct Hc as [<-|Hc]; auto.
  - destruct H as [(t & ->)|[(r & s & q & ->)|(s & t & _ & ->)]]; repeat destruct Hc as [<-|Hc]; auto.
Qed.

Lemma may_kept k o w : may k o -> jobs_kept w (snd (exec o w)).
Proof.
  intros H. op_cases o; try (apply kept_eq; reflexivity).
  - intros j0 Hj. exists j0. split; [|apply same_refl].
    unfold set_jobs. cbn. apply in_app_iff. now left.
  - apply kept_upd. eapply may_update; eauto.
Qed.

Lemma SS_snoc (l : list Z) x : StronglySorted Z.lt l -> Forall (fun y => y < x) l ->
  StronglySorted Z.lt (l ++ [x]).
Proof.
  induction l as [|a l IH]; intros Hs Hf; cbn.
  - constructor; constructor.
  - inversion Hs. inversion Hf. subst. constructor; auto.
    apply Forall_app. split; auto.
Qed.

Lemma wf_exec o w : wf_queue w -> wf_queue (snd (exec o w)).
Proof.
  intros (Hs & Hf & Hq). op_cases o; try (split; [exact Hs|split; [exact Hf|exact Hq]]).
  - unfold wf_queue, set_jobs. cbn -[Z.add]. split; [|split].
    + rewrite map_app. cbn. apply SS_snoc; [exact Hs|]. apply Forall_map.
      eapply Forall_impl; [|exact Hf]. cbn. intros; lia.
    + apply Forall_app. split.
      * eapply Forall_impl; [|exact Hf]. cbn. intros; lia.
      * constructor; [cbn; lia|constructor].
    + lia.
  - unfold wf_queue, set_jobs. cbn. rewrite upd_jobs_ids. split; [exact Hs|]. split; [|exact Hq].
    unfold upd_jobs. apply Forall_map. eapply Forall_impl; [|exact Hf]. cbn. intros j0 H.
    destruct (Z.eqb (j_id j0) id); [rewrite set_jcols_id|]; exact H.
Qed.

Lemma wf_jobs_eq w w' : w_jobs w' = w_jobs w -> w_seq w' = w_seq w -> wf_queue w -> wf_queue w'.
Proof. intros E1 E2. unfold wf_queue. rewrite E1, E2. auto. Qed.

(** The basic facts about every execution: the queue is well-formed, and every
    thread only ever executes operations of its kind; a job process only
    touches its own row. *)
Definition own_row (k : kind) (o : op) : Prop :=
  match k, o with
  | KJob _ a, OJobUpdate id _ => id = ja_jobid a
  | _, _ => True
  end.
Definition basic (k : kind) (o : op) (w : world) : Prop := may k o /\ own_row k o.
Definition any (k : kind) (w w' : world) : Prop := True.

Lemma okp_and_static {A} (R : world -> world -> Prop) (G : op -> world -> Prop) (P : op -> Prop)
    (p : pgm A) : forall w,
  all_ops P p -> okp exec R G p w -> okp exec R (fun o w => P o /\ G o w) p w.
Proof.
  induction p as [a|e|o k IH]; intros w; cbn; auto.
  intros [Ho Hk] H w1 Hr. destruct (H w1 Hr) as [Hg Hn]. split; [auto|].
  destruct (exec o w1) as [r w2]. apply IH; auto.
Qed.

Lemma okp_mono {A} (R R' : world -> world -> Prop) (G G' : op -> world -> Prop) (p : pgm A) : forall w,
  (forall a b, R' a b -> R a b) -> (forall o a b, R' a b -> G o b -> G' o b) ->
  okp exec R G p w -> okp exec R' G' p w.
Proof.
  induction p as [a|e|o k IH]; intros w HR HG; cbn; auto.
  intros H w1 Hr. destruct (H w1 (HR _ _ Hr)) as [Hg Hn]. split; [eauto|].
  destruct (exec o w1) as [r w2]. apply IH; auto.
Qed.

(** Steps of [okq] proofs. *)
Ltac q_bind := apply okq_bind.
Ltac q_op o := refine (okq_do exec _ _ _ o _ _ _).

Lemma own_job pid a : forall w, okp exec (fun _ _ => True) (fun o _ => own_row (KJob pid a) o)
  (no_reply (tomato_job pid a)) w.
Proof.
  intros w. eapply okq_okp with (E := fun _ => True) (Q := fun _ _ => True).
  unfold no_reply, tomato_job, update_job_id, update_pip, merge_netcdfs.
  assert (T : forall (o : op) (P : resp o -> world -> Prop) w, own_row (KJob pid a) o ->
     (forall x w1 w2, exec o w1 = (Ok x, w2) -> P x w2) ->
     okq exec (fun _ _ => True) (fun o _ => own_row (KJob pid a) o) (fun _ => True) (act o) P w).
  { intros o P w0 Ho H. apply okq_do. intros w1 _. split; [exact Ho|].
    destruct (exec o w1) as [[x|e] w2] eqn:E; [eapply H; eauto|exact I]. }
  q_bind. q_bind. apply T; [exact I|]. intros t _ w1 _.
  q_bind. q_bind. apply T; [reflexivity|]. intros u _ w2 _. apply T; [exact I|]. intros j0 _ w3 _.
  destruct (pl_outpath (ja_payload a)) as [out|]; [|exact I].
  q_bind. apply T; [exact I|]. intros _ _ w4 _.
  q_bind. q_bind. apply T; [reflexivity|]. intros _ _ w5 _.
  apply T; [exact I|]. intros j w6 w7 Ej.
  assert (Hid : j_id j = ja_jobid a).
  { cbn in Ej. destruct (get_job (w_jobs w6) (ja_jobid a)) eqn:Eg; inversion Ej. subst.
    eapply get_job_In; eauto. }
  q_bind. apply T; [exact I|]. intros ok _ w8 _.
  q_bind. apply T; [exact I|]. intros t' _ w9 _.
  q_bind. q_bind. apply okq_assert; [exact I|]. intros _.
  match goal with |- okq _ _ _ _ (match ?x with _ => _ end) _ _ => destruct x; [|exact I] end.
  apply T; [exact I|]. intros _ _ w10 _.
  q_bind.
  assert (F : forall w, okq exec (fun _ _ => True) (fun o _ => own_row (KJob pid a) o) (fun _ => True)
    (bind (bind (act (OJobUpdate (j_id j) [JStatus (if ok : bool then Sc else Sce); JCompleted (Some t')]))
        (fun _ => act (OJobGet (j_id j))))
      (fun j' => bind (bind (act (OPipUpdate (ja_pipeline a) [PJobid None; PReady (pl_unlock (j_payload j'))]))
        (fun _ => act (OPipGet (ja_pipeline a)))) (fun _ => Ret tt)))%prog
    (fun _ w' => okq exec (fun _ _ => True) (fun o _ => own_row (KJob pid a) o) (fun _ => True)
       (Ret (None : option reply)) (fun _ _ => True) w') w).
  { intros w0. q_bind. q_bind. apply T; [exact Hid|]. intros _ _ w11 _.
    apply T; [exact I|]. intros j' _ w12 _.
    q_bind. q_bind. apply T; [exact I|]. intros _ _ w13 _. apply T; [exact I|]. intros _ _ w14 _. exact I. }
  destruct (ja_repos a); [apply F|]. apply T; [exact I|]. intros _ _ w11 _. apply F.
Qed.

Lemma basic_start k (p : pgm (option reply)) w :
  all_ops (may k) p -> (forall pid a, k <> KJob pid a) ->
  okp exec (rely wf_queue any k) (basic k) p w.
Proof.
  intros H Hk. eapply all_ops_okp; [|exact H]. intros w0 w1 o _ Ho. split; [exact Ho|].
  destruct k; cbn; try exact I. elim (Hk pid a). reflexivity.
Qed.

Lemma basic_inv ls s s' :
  rg_inv wf_queue any basic s -> runs ls s = Some s' -> rg_inv wf_queue any basic s'.
Proof.
  intros Hi Hr. eapply rg_steps with (okl := fun _ => True) (R := any); try exact Hr; try exact Hi.
  - intros; exact I.
  - intros; exact I.
  - intros k o w Hw _. apply wf_exec; auto.
  - intros; exact I.
  - intros l s0 s1 _ Hn Hs Hw. destruct (step_env _ _ _ Hn Hs) as [He _].
    split; [|intros; exact I]. destruct He as (E1 & E2 & _). eapply wf_jobs_eq; eauto.
  - intros c w _ _. apply basic_start; [apply ops_cmd|congruence].
  - intros k p w Hp _. apply basic_start; [apply ops_mgr; exact Hp|].
    intros pid a ->. discriminate.
  - intros w _. apply basic_start; [apply ops_quit|congruence].
  - intros w i pid a _ _ _. eapply okp_mono with (R := fun _ _ => True);
      [intros; exact I| |apply okp_and_static; [apply ops_job|apply own_job]].
    intros o a0 b _ [H1 H2]. split; auto.
  - intros n port pid ver ok w _ _. apply basic_start; [apply ops_driver|congruence].
  - apply Forall_forall. intros; exact I.
Qed.

Lemma basic_init w : wf_queue w -> rg_inv wf_queue any basic (start_sys w).
Proof. intros H. apply rg_start. exact H. Qed.

Lemma basic_step_kept l s s' :
  rg_inv wf_queue any basic s -> step l s = Some s' -> jobs_kept (s_world s) (s_world s').
Proof.
  intros Hi Hs. destruct l;
    try (pose proof (fun H => step_env _ _ _ H Hs) as X; destruct X as [(E & _) _];
         [congruence|apply kept_eq; exact E]).
  destruct (rg_guar _ _ _ ltac:(intros; exact I) _ _ _ Hi Hs) as [E|(t & o & k & _ & _ & [Hm _] & E)].
  - apply kept_eq. rewrite E. reflexivity.
  - rewrite E. eapply may_kept; eauto.
Qed.

Lemma basic_kept ls : forall s s',
  rg_inv wf_queue any basic s -> runs ls s = Some s' -> jobs_kept (s_world s) (s_world s').
Proof.
  induction ls as [|l ls IH]; intros s s' Hi Hr; cbn in Hr.
  - inversion Hr. apply kept_refl.
  - destruct (step l s) as [s1|] eqn:E; [|discriminate].
    eapply kept_trans; [eapply basic_step_kept; eauto|]. eapply IH; [|exact Hr].
    apply (basic_inv [l] s s1 Hi). cbn. rewrite E. reflexivity.
Qed.

Lemma NoDup_SS l : StronglySorted Z.lt l -> NoDup l.
Proof.
  induction 1 as [|a l Hs IH Hf]; constructor; auto.
  intros Hin. rewrite Forall_forall in Hf. specialize (Hf a Hin). lia.
Qed.

Lemma same_id_same_job l (j j' : job) :
  NoDup (map j_id l) -> In j l -> In j' l -> j_id j = j_id j' -> j = j'.
Proof.
  intros Hn H H' E. pose proof (In_get_job l j Hn H). pose proof (In_get_job l j' Hn H').
  rewrite E in *. congruence.
Qed.

Lemma C21_lemma w ls1 ls2 s1 s2 :
  wf_queue w -> runs ls1 (start_sys w) = Some s1 -> runs ls2 s1 = Some s2 ->
  wf_queue (s_world s2) /\
  (forall j, In j (w_jobs (s_world s1)) -> exists j', In j' (w_jobs (s_world s2)) /\ same_job j j') /\
  (forall j j', In j (w_jobs (s_world s1)) -> In j' (w_jobs (s_world s2)) -> j_id j' = j_id j ->
     same_job j j').
Proof.
  intros Hw H1 H2.
  assert (B1 : rg_inv wf_queue any basic s1) by (eapply basic_inv; [apply basic_init; exact Hw|exact H1]).
  assert (B2 : rg_inv wf_queue any basic s2) by (eapply basic_inv; eauto).
  pose proof (basic_kept _ _ _ B1 H2) as K.
  assert (W2 : wf_queue (s_world s2)) by apply B2.
  split; [exact W2|]. split; [exact K|].
  intros j j' Hj Hj' Hid. destruct (K j Hj) as (j2 & Hj2 & Hs2).
  replace j' with j2; [exact Hs2|].
  eapply same_id_same_job; [apply NoDup_SS; apply W2|exact Hj2|exact Hj'|].
  destruct Hs2 as (E & _). congruence.
Qed.
