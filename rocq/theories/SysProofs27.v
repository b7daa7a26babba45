(** * SysProofs27: which part of tomato changes which record (C119) *)
From Coq Require Import List String Ascii ZArith Bool Sorted Lia.
From Verif Require Import Base PyStr BaseFacts Types ConfigModel Prog ProgFacts World WorldFacts Replies
  CmdModel KetchupModel TomatoModel JobModel PipModel DrvModel SysModel RGFacts SysOps
  SpecQueue SpecSys SpecCharge SysProofs SysProofs2.
Import ListNotations.
Open Scope list_scope.
Open Scope Z_scope.

Section Charge.
  Context (k : kind) (o : op) (w : world).
  Context (Hm : may k o) (Ho : own_row k o).
  Lemma jobs_op : (exists j, o = OJobInsert j) \/ (exists id cs, o = OJobUpdate id cs) \/
    w_jobs (snd (exec o w)) = w_jobs w.
  Proof. clear Hm Ho. destruct o; eauto; right; right; op_cases o; reflexivity. Qed.
  Lemma charge_jobs x : In x (w_jobs (snd (exec o w))) -> In x (w_jobs w) \/
    job_made k x \/ exists y, In y (w_jobs w) /\ job_change k y x.
  Proof.
    destruct jobs_op as [(j & ->)|[(id & cs & ->)|E]]; [| |rewrite E; auto].
    - cbn [exec snd]. cbn [set_jobs w_jobs]. intros H. apply in_app_iff in H. destruct H as [H|[<-|[]]]; [auto|]. right. left.
      destruct Hm as [[]|Hw]. destruct k; try contradiction. destruct Hw as (p & n & t & ->). repeat split.
    - cbn [exec snd set_jobs w_jobs]. intros H. unfold upd_jobs in H. apply in_map_iff in H.
      destruct H as (y & <- & Hy). destruct (Z.eqb_spec (j_id y) id) as [<-|]; [|auto]. right. right. exists y. split; [exact Hy|].
      destruct Hm as [[]|Hw]. destruct k; try contradiction; cbn in Hw, Ho |- *.
      + destruct Hw as [ -> | -> ]; [left|right]; reflexivity.
      + destruct Hw as [(s & t & Hs & ->)|[ -> |(t & ->)]].
        * right. right. exists s, t. split; [exact Hs|reflexivity].
        * left. reflexivity.
        * right. left. exists t. reflexivity.
      + split; [exact Ho|]. destruct Hw as [(t & ->)|[(r & s & p & ->)|(s & t & Hs & ->)]].
        * left. exists t. reflexivity.
        * right. left. exists p, r, s. reflexivity.
        * right. right. exists s, t. split; [exact Hs|reflexivity].
  Qed.
  Lemma pips_op : (exists p, o = OPipInsert p) \/ (exists n cs, o = OPipUpdate n cs) \/
    w_pips (snd (exec o w)) = w_pips w.
  Proof. clear Hm Ho. destruct o; eauto; right; right; op_cases o; reflexivity. Qed.
  Lemma charge_pips x : In x (w_pips (snd (exec o w))) -> In x (w_pips w) \/
    pip_made k x \/ exists y, In y (w_pips w) /\ pip_change k y x.
  Proof.
    destruct pips_op as [(p & ->)|[(n & cs & ->)|E]]; [| |rewrite E; auto].
    - cbn [exec]. destruct (get_pip (w_pips w) (p_name p)); cbn [snd]; [auto|]. cbn [set_pips w_pips].
      intros H. apply in_app_iff in H. destruct H as [H|[<-|[]]]; [auto|]. right. left.
      destruct Hm as [[]|Hw]. destruct k; try contradiction. destruct Hw as (n & ->). split; [reflexivity|]. exists n. reflexivity.
    - cbn [exec]. destruct (sql_lit n) as [m|] eqn:El; cbn [snd]; [|auto]. cbn [set_pips w_pips]. intros H. unfold upd_pips in H.
      apply in_map_iff in H. destruct H as (y & <- & Hy). destruct (String.eqb_spec (p_name y) m) as [<-|]; [|auto].
      right. right. exists y. split; [exact Hy|]. destruct Hm as [[]|Hw]. destruct k; try contradiction; cbn in Hw |- *.
      + destruct Hw as [(s & ->)|[ -> | -> ]]; [left; eexists; reflexivity|left; eexists; reflexivity|right; reflexivity].
      + destruct Hw as (id & ->). exists id. reflexivity.
      + rewrite Hw. reflexivity.
      + destruct Hw as (E & b & ->). split; [congruence|]. exists b. reflexivity.
  Qed.
  Lemma drvs_op' : (exists d, o = ODrvInsert d) \/ (exists n cs, o = ODrvUpdate n cs) \/
    w_drvs (snd (exec o w)) = w_drvs w.
  Proof. clear Hm Ho. destruct o; eauto; right; right; op_cases o; reflexivity. Qed.
  Lemma charge_drvs x : In x (w_drvs (snd (exec o w))) -> In x (w_drvs w) \/
    drv_made k x \/ exists y, In y (w_drvs w) /\ drv_change k y x.
  Proof.
    destruct drvs_op' as [(p & ->)|[(n & cs & ->)|E]]; [| |rewrite E; auto].
    - cbn [exec]. destruct (get_drv (w_drvs w) (dv_name p)); cbn [snd]; [auto|]. cbn [set_drvs w_drvs].
      intros H. apply in_app_iff in H. destruct H as [H|[<-|[]]]; [auto|]. right. left.
      destruct Hm as [[]|Hw]. destruct k; try contradiction. destruct Hw as (n & ->). split; [reflexivity|]. exists n. reflexivity.
    - cbn [exec]. destruct (sql_lit n) as [m|] eqn:El; cbn [snd]; [|auto]. cbn [set_drvs w_drvs]. intros H. unfold upd_drvs in H.
      apply in_map_iff in H. destruct H as (y & <- & Hy). destruct (String.eqb_spec (dv_name y) m) as [<-|]; [|auto].
      right. right. exists y. split; [exact Hy|]. destruct Hm as [[]|Hw]. destruct k; try contradiction; cbn in Hw |- *.
      + destruct Hw as [ -> |[(t & ->)|(t & c & ->)]].
        * left. reflexivity.
        * right. left. exists t. reflexivity.
        * right. right. exists t, c. reflexivity.
      + destruct Hw as ( -> & port & ver & pid & ->). split; [exact El|]. exists port, pid, ver. reflexivity.
  Qed.
End Charge.

Lemma charge_lemma l s s' : rg_inv wf_queue any basic s -> step l s = Some s' ->
  in_charge w_jobs job_made job_change l s s' /\ in_charge w_pips pip_made pip_change l s s' /\
  in_charge w_drvs drv_made drv_change l s s'.
Proof.
  intros Hi Hs.
  assert (D : (exists n, l = LStep n) \/ forall n, l <> LStep n) by (destruct l; try (right; congruence); left; eauto).
  destruct D as [(n & ->)|D].
  - destruct (rg_guar _ _ _ ltac:(intros; exact I) _ _ _ Hi Hs) as [E|(t & o & q & Ht & _ & [Hm Ho] & E)].
    + unfold in_charge. rewrite E. split; [|split]; auto.
    + unfold in_charge. rewrite E. split; [|split]; intros x Hx;
      [destruct (charge_jobs _ _ _ Hm Ho x Hx) as [H|H]|destruct (charge_pips _ _ _ Hm Ho x Hx) as [H|H]|
       destruct (charge_drvs _ _ _ Hm Ho x Hx) as [H|H]]; auto; right; exists n, t; auto.
  - destruct (step_env _ _ _ D Hs) as ((E1 & E2 & E3 & E4 & _) & _).
    unfold in_charge. rewrite E1, E3, E4. split; [|split]; auto.
Qed.

Lemma C119_lemma w ls s l s' : wf_queue w -> runs ls (start_sys w) = Some s -> step l s = Some s' ->
  in_charge w_jobs job_made job_change l s s' /\ in_charge w_pips pip_made pip_change l s s' /\
  in_charge w_drvs drv_made drv_change l s s'.
Proof. intros Hw Hr. apply charge_lemma. exact (basic_inv ls _ _ (basic_init w Hw) Hr). Qed.

(** ** A job leaves the queue for good *)
Definition dequeued (i : Z) (w : world) : Prop := exists j, In j (w_jobs w) /\ j_id j = i /\ j_status j <> Sq.
Lemma wf_same_id w j1 j2 : wf_queue w -> In j1 (w_jobs w) -> In j2 (w_jobs w) -> j_id j1 = j_id j2 -> j1 = j2.
Proof.
  intros (Hs & _) H1 H2 E. apply NoDup_SS in Hs. revert Hs H1 H2 E. induction (w_jobs w) as [|a l IH]; cbn; [tauto|].
  intros Hn [ -> |H1] [ -> |H2] E; auto.
  - inversion Hn as [|? ? Hx]. elim Hx. rewrite E. apply in_map. exact H2.
  - inversion Hn as [|? ? Hx]. elim Hx. rewrite <- E. apply in_map. exact H1.
  - inversion Hn. auto.
Qed.
Lemma dequeued_exec k o w i : wf_queue w -> may k o -> dequeued i w -> dequeued i (snd (exec o w)).
Proof.
  intros Hw Hm (j & Hj & Ei & Hs). destruct (jobs_op o w) as [(j' & ->)|[(id & cs & ->)|E]].
  - exists j. split; [|auto]. cbn [exec snd set_jobs w_jobs]. apply in_app_iff. auto.
  - cbn [exec snd]. exists (if Z.eqb (j_id j) id then set_jcols cs j else j). cbn [set_jobs w_jobs]. split; [|split].
    + unfold upd_jobs. apply in_map_iff. exists j. auto.
    + destruct (Z.eqb _ _); [rewrite set_jcols_id|]; exact Ei.
    + destruct (Z.eqb _ _); [|exact Hs]. destruct Hm as [[]|Hw']. destruct k; try contradiction; cbn in Hw'.
      * destruct Hw' as [ -> | -> ]; discriminate.
      * destruct Hw' as [(s & t & Hx & ->)|[ -> |(t & ->)]]; [|discriminate|exact Hs]. destruct Hx as [ -> | -> ]; discriminate.
      * destruct Hw' as [(t & ->)|[(r & s & p & ->)|(s & t & Hx & ->)]]; [discriminate|exact Hs|].
        destruct Hx as [ -> | -> ]; discriminate.
  - exists j. rewrite E. auto.
Qed.
Lemma dequeued_step l s s' i : rg_inv wf_queue any basic s -> step l s = Some s' ->
  dequeued i (s_world s) -> dequeued i (s_world s').
Proof.
  intros Hi Hs Hd.
  assert (D : (exists n, l = LStep n) \/ forall n, l <> LStep n) by (destruct l; try (right; congruence); left; eauto).
  destruct D as [(n & ->)|D].
  - destruct (rg_guar _ _ _ ltac:(intros; exact I) _ _ _ Hi Hs) as [E|(t & o & q & Ht & _ & [Hm Ho] & E)]; rewrite E; [exact Hd|].
    eapply dequeued_exec; eauto. apply Hi.
  - destruct (step_env _ _ _ D Hs) as ((E1 & _) & _). destruct Hd as (j & Hj & X). exists j. rewrite E1. auto.
Qed.
Lemma dequeued_runs i ls : forall s s', rg_inv wf_queue any basic s -> runs ls s = Some s' ->
  dequeued i (s_world s) -> dequeued i (s_world s').
Proof.
  induction ls as [|l ls IH]; intros s s' Hi Hr Hd; cbn in Hr; [injection Hr as <-; exact Hd|].
  destruct (step l s) as [s1|] eqn:E; [|discriminate]. eapply IH; [|exact Hr|eapply dequeued_step; eauto].
  apply (basic_inv [l] s s1 Hi). cbn. rewrite E. reflexivity.
Qed.
