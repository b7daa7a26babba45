(** * JobThreadProofs3: the ten-second limit, resets, and the whole job process *)
From Coq Require Import List String ZArith Bool Lia.
From Verif Require Import Base BaseFacts Types Prog ProgFacts JobThreadModel SpecWorker JobThreadProofs JobThreadProofs2.
Import ListNotations.
Open Scope prog_scope.
Open Scope Z_scope.

(** ** The ten-second limit *)
Lemma waits_skip l2 : forall l1 last, sends l1 = [] -> (forall z, waits None z l2) ->
  waits None last (l1 ++ l2).
Proof.
  induction l1 as [|e l1 IH]; intros last S H; [apply H|].
  destruct e; try discriminate S; cbn [waits app]; apply IH; auto.
Qed.
Lemma waits_none l last : sends l = [] -> waits None last l.
Proof. intros S. rewrite <- (app_nil_r l). apply waits_skip; [exact S | intros; exact I]. Qed.

Lemma waits_running f t0 rest : forall l q last, leads (wait_running f t0) l q ->
  ((exists a, q = Ret a) \/ rest = []) -> (forall z, waits None z rest) ->
  waits (Some t0) last (views l ++ rest).
Proof.
  assert (R0 : forall last, rest = [] -> waits (Some t0) last rest) by (intros last ->; exact I).
  induction f as [|f IH]; intros l q last H Q R; cbn [wait_running] in H.
  - destruct H as [-> ->]. destruct Q as [[a E]|Q]; [discriminate E|]. cbn. auto.
  - cbn in H. destruct H as [[-> ->]|(r & l1 & -> & H)].
    { destruct Q as [[a E]|Q]; [discriminate E|]. cbn. auto. }
    destruct r as [now|e].
    2:{ cbn in H. destruct H as [-> ->]. destruct Q as [[a E]|Q]; [discriminate E|]. cbn. auto. }
    cbn in H. destruct H as [[-> ->]|(r & l2 & -> & H)].
    { destruct Q as [[a E]|Q]; [discriminate E|]. cbn. auto. }
    destruct r as [s|e].
    2:{ cbn in H. destruct H as [-> ->]. destruct Q as [[a E]|Q]; [discriminate E|]. cbn. auto. }
    cbn [bind] in H. cbn [views map view app]. change (map view) with views.
    assert (C : leads (crash : jpgm unit) l2 q ->
       (views l2 ++ rest = [] \/ views l2 ++ rest = [VCrash] \/ views l2 ++ rest = [VFail])%list).
    { intros K. destruct (leads_crash _ _ K) as [V N].
      destruct Q as [[a E]|Q]; [exfalso; exact (N a E)|]. rewrite Q, app_nil_r. exact V. }
    assert (G : leads (if MAX_TASK_WAIT <? now - t0 then crash else wait_running f t0) l2 q ->
      if MAX_TASK_WAIT <? now - t0
      then (views l2 ++ rest = [] \/ views l2 ++ rest = [VCrash] \/ views l2 ++ rest = [VFail])%list
      else waits (Some t0) None (views l2 ++ rest)).
    { destruct (MAX_TASK_WAIT <? now - t0); [exact C|]. intros K. exact (IH _ _ _ K Q R). }
    cbn [waits].
    destruct s as [| | |? [|] [[|]|]]; try (exact (G H)).
    + destruct (C H) as [->|[->| ->]]; exact I.
    + destruct H as [-> ->]. cbn. apply R.
    + destruct H as [-> ->]. cbn. apply R.
Qed.

Lemma waits_task f pr c t l q rest last : leads (one_task f pr c t) l q ->
  ((exists a, q = Ret a) \/ rest = []) -> (forall z, waits None z rest) ->
  waits None last (views l ++ rest).
Proof.
  intros H Q R.
  destruct (one_task_cases _ _ _ _ _ _ H) as [(S & N & _)|(pre & z & b & post & -> & S1 & S2 & _ & _ & K)].
  - apply waits_skip; assumption.
  - rewrite views_app, <- app_assoc. apply waits_skip; [exact S1|]. intros z'. cbn [views map view app waits].
    change (map view) with views.
    destruct K as [[-> K]|(s & -> & K)].
    + apply waits_skip; assumption.
    + unfold after_send in K.
      destruct (leads_bind2 _ _ _ _ K) as [(p' & H1 & N & _)|(a & l1 & l2 & -> & H1 & H2)].
      * destruct Q as [[a E]|Q]; [exfalso; exact (N a E)|]. subst rest.
        apply (waits_running f z [] post p'); [exact H1 | right; reflexivity | intros; exact I].
      * rewrite views_app, <- app_assoc. apply (waits_running f z _ l1 (Ret a)); [exact H1 | left; eauto|].
        intros w. apply waits_skip; [|exact R].
        rewrite views_app, sends_app in S2. apply app_eq_nil in S2. apply S2.
Qed.
Lemma waits_tasks f pr : forall ts c l q rest last, leads (forP (one_task f pr) c ts) l q ->
  ((exists a, q = Ret a) \/ rest = []) -> (forall z, waits None z rest) ->
  waits None last (views l ++ rest).
Proof.
  induction ts as [|t ts IH]; intros c l q rest last H Q R; cbn [forP] in H.
  - destruct H as [-> ->]. apply R.
  - destruct (leads_bind2 _ _ _ _ H) as [(p' & H1 & N & _)|(a & l1 & l2 & -> & H1 & H2)]; clear H.
    + destruct Q as [[a E]|Q]; [exfalso; exact (N a E)|]. subst rest.
      eapply waits_task; [exact H1 | right; reflexivity | intros; exact I].
    + rewrite views_app, <- app_assoc. eapply waits_task; [exact H1 | left; eauto|].
      intros z. eapply IH; [exact H2 | exact Q | exact R].
Qed.
Lemma worker_waits f pr ts l q : leads (job_thread f pr ts) l q -> waits None None (views l).
Proof.
  unfold job_thread. intros H.
  destruct (leads_bind2 _ _ _ _ H) as [(p' & H1 & N & _)|(a & l1 & l2 & -> & H1 & H2)]; clear H.
  - rewrite <- (app_nil_r (views l)). eapply waits_tasks; [exact H1 | right; reflexivity | intros; exact I].
  - rewrite views_app. eapply waits_tasks; [exact H1 | left; eauto|].
    intros z. apply waits_none, (NS_reset _ _ H2).
Qed.

(** ** No reset with two tasks or more *)
Lemma all_ops_leads {A} (P : jop -> Prop) (p : jpgm A) : all_ops P p ->
  forall l q, leads p l q -> Forall (fun e => match e with Ev o _ => P o end) l.
Proof.
  induction p as [a|e|o k IH]; cbn; intros H l q L.
  - destruct L as [-> _]. constructor.
  - destruct L as [-> _]. constructor.
  - destruct L as [[-> _]|(r & l' & -> & L)]; [constructor|].
    destruct H as [H1 H2]. constructor; [exact H1 | exact (IH r (H2 r) _ _ L)].
Qed.
Definition not_reset (o : jop) : Prop := o <> JReset.
Ltac nr := first [apply all_ops_do; discriminate | exact I].
Lemma NR_crash {A} : all_ops not_reset (crash : jpgm A).
Proof. apply all_ops_bind; [nr | intros; exact I]. Qed.
Lemma NR_store d : all_ops not_reset (store d).
Proof. destruct d; [apply NR_crash | exact I | split; [discriminate | intros r; destruct r; exact I]]. Qed.
Lemma NR_wait_start f t : all_ops not_reset (wait_start f t).
Proof.
  induction f as [|f IH]; cbn [wait_start]; (destruct (t_start_with t); [|exact I]); [exact I|].
  apply all_ops_bind; [nr | intros l]. destruct (mem s l); [exact I | exact IH].
Qed.
Lemma NR_wait_ready f : all_ops not_reset (wait_ready f).
Proof.
  induction f as [|f IH]; cbn [wait_ready]; [exact I|].
  apply all_ops_bind; [nr | intros s].
  destruct s as [| | |[|] ? ?]; try exact IH; [apply NR_crash | exact I].
Qed.
Lemma NR_wait_running f t0 : all_ops not_reset (wait_running f t0).
Proof.
  induction f as [|f IH]; cbn [wait_running]; [exact I|].
  apply all_ops_bind; [nr | intros now].
  apply all_ops_bind; [nr | intros s].
  assert (G : all_ops not_reset (if MAX_TASK_WAIT <? now - t0 then crash else wait_running f t0)).
  { destruct (MAX_TASK_WAIT <? now - t0); [apply NR_crash | exact IH]. }
  cbv zeta.
  destruct s as [| | |? [|] [[|]|]]; try exact G; first [exact I | apply NR_crash].
Qed.
Lemma NR_task_loop f pr t : forall tp, all_ops not_reset (task_loop f pr t tp).
Proof.
  induction f as [|f IH]; intros tp; cbn [task_loop]; [exact I|].
  apply all_ops_bind; [nr | intros tn].
  apply all_ops_bind; [|intros tp'].
  - destruct (pr <? tn - tp); [|exact I].
    apply all_ops_bind; [nr | intros d].
    apply all_ops_bind; [apply NR_store | intros; exact I].
  - apply all_ops_bind; [nr | intros s].
    assert (G : all_ops not_reset (match t_stop_with t with
          | None => task_loop f pr t tp'
          | Some n =>
              l <- jact JNames;;
              if mem n (l : list string) then d <- jact JStop;; store d
              else task_loop f pr t tp'
          end)).
    { destruct (t_stop_with t) as [n|]; [|apply IH].
      apply all_ops_bind; [nr | intros l].
      destruct (mem n l); [|apply IH].
      apply all_ops_bind; [nr | intros d; apply NR_store]. }
    destruct s as [| | |? [|] [[|]|]]; try exact G; first [exact I | apply NR_crash].
Qed.
Lemma NR_one_task f pr c t : all_ops not_reset (one_task f pr c t).
Proof.
  unfold one_task.
  apply all_ops_bind; [nr | intros _].
  apply all_ops_bind; [apply NR_wait_start | intros _].
  apply all_ops_bind; [apply NR_wait_ready | intros _].
  apply all_ops_bind; [nr | intros t0].
  apply all_ops_bind; [nr | intros b].
  destruct b; [apply NR_crash|].
  apply all_ops_bind; [apply NR_wait_running | intros _].
  apply all_ops_bind; [nr | intros tp].
  apply all_ops_bind; [apply NR_task_loop | intros _].
  apply all_ops_bind; [nr | intros d].
  apply all_ops_bind; [apply NR_store | intros _].
  destruct c; [|exact I].
  apply all_ops_bind; [nr | intros _; exact I].
Qed.

Lemma worker_never_resets f pr ts l q : (2 <= List.length ts)%nat -> leads (job_thread f pr ts) l q ->
  forall b, ~ In (VReset b) (views l).
Proof.
  intros L H b I1. unfold job_thread in H.
  destruct (leads_bind2 _ _ _ _ H) as [(p' & H1 & N & _)|(a & l1 & l2 & -> & H1 & H2)]; clear H.
  - pose proof (all_ops_leads not_reset _ (all_ops_forP _ _ ts (Some []) (NR_one_task f pr)) _ _ H1) as F.
    rewrite Forall_forall in F. unfold views in I1. apply in_map_iff in I1 as ([o r] & E & I1).
    specialize (F _ I1). cbn in F. destruct o; destruct r; cbn in E; try discriminate E. exact (F eq_refl).
  - destruct ts as [|t1 [|t2 ts]]; cbn in L; try lia.
    cbn [forP] in H1. destruct (leads_bind_ret _ _ _ _ H1) as (c1 & l3 & l4 & -> & H3 & H4).
    destruct (one_task_ret _ _ _ _ _ _ H3) as [_ ->].
    destruct (leads_bind_ret _ _ _ _ H4) as (c2 & l5 & l6 & -> & H5 & _).
    exact (proj1 (one_task_ret _ _ _ _ _ _ H5) eq_refl).
Qed.

(** ** C58: the plan and its distribution *)
Lemma tasks_of_app role a b : tasks_of role (a ++ b) = (tasks_of role a ++ tasks_of role b)%list.
Proof. apply filter_app. Qed.
Lemma plan_spec method role :
  dget (plan method) role = match tasks_of role method with [] => None | l => Some l end.
Proof.
  unfold plan.
  assert (G : forall todo done p,
    (forall r, dget p r = match tasks_of r done with [] => None | l => Some l end) ->
    forall r, dget (fold_left (fun p s => let p' := if dhas p (t_role s) then p else dset p (t_role s) [] in
                        dset p' (t_role s) (match dget p' (t_role s) with Some l => l | None => [] end ++ [s]))
            todo p) r = match tasks_of r (done ++ todo) with [] => None | l => Some l end).
  { induction todo as [|s todo IH]; intros done p P r; cbn [fold_left].
    - rewrite app_nil_r. apply P.
    - replace (done ++ s :: todo)%list with ((done ++ [s]) ++ todo)%list by (rewrite <- app_assoc; reflexivity).
      apply IH. intros r'. cbv zeta. rewrite tasks_of_app.
      change (tasks_of r' [s]) with (if String.eqb (t_role s) r' then [s] else []).
      assert (V : match dget (if dhas p (t_role s) then p else dset p (t_role s) []) (t_role s) with
                  | Some l => l | None => [] end = tasks_of (t_role s) done).
      { unfold dhas. specialize (P (t_role s)). destruct (dget p (t_role s)) as [v|] eqn:E.
        - cbn [is_some]. rewrite E. destruct (tasks_of (t_role s) done); [discriminate P|]. injection P as ->. reflexivity.
        - cbn [is_some]. rewrite dget_dset_same. destruct (tasks_of (t_role s) done); [reflexivity | discriminate P]. }
      destruct (String.eqb_spec (t_role s) r') as [<-|NE].
      + rewrite dget_dset_same, V. destruct (tasks_of (t_role s) done); reflexivity.
      + rewrite dget_dset_other by congruence. rewrite app_nil_r.
        unfold dhas. destruct (dget p (t_role s)); cbn [is_some]; [apply P|].
        rewrite dget_dset_other by congruence. apply P. }
  exact (G method [] [] (fun _ => eq_refl) role).
Qed.

Definition assigned (method : list task) (cs : dict string) : list (string * list task) :=
  map (fun rc => (fst rc, tasks_of (fst rc) method))
      (filter (fun rc => match tasks_of (fst rc) method with [] => false | _ => true end) cs).
Lemma distribute_spec df drvs method : forall cs started ws oe,
  distribute df drvs (plan method) cs started = (ws, oe) ->
  exists new, ws = (started ++ new)%list
    /\ Forall (fun w => exists cname, In (wk_role w, cname) cs
         /\ dget (df_components df) cname = Some (wk_comp w)
         /\ dget (df_devices df) (c_device (wk_comp w)) = Some (wk_device w)
         /\ exists drv, dget drvs (c_driver (wk_comp w)) = Some drv /\ wk_port w = dv_port drv) new
    /\ (oe = None -> map (fun w => (wk_role w, wk_tasks w)) new = assigned method cs)
    /\ prefix (map (fun w => (wk_role w, wk_tasks w)) new) (assigned method cs).
Proof.
  induction cs as [|[crole cname] cs IH]; intros started ws oe H; cbn [distribute] in H.
  - injection H as <- <-. exists []. rewrite app_nil_r. do 2 (split; [try reflexivity; try constructor|]).
    split; [reflexivity | exists []; reflexivity].
  - assert (STOP : forall e, (started, Some e) = (ws, oe) -> exists new, ws = (started ++ new)%list
      /\ Forall (fun w => exists cn, In (wk_role w, cn) ((crole, cname) :: cs)
         /\ dget (df_components df) cn = Some (wk_comp w)
         /\ dget (df_devices df) (c_device (wk_comp w)) = Some (wk_device w)
         /\ exists drv, dget drvs (c_driver (wk_comp w)) = Some drv /\ wk_port w = dv_port drv) new
      /\ (oe = None -> map (fun w => (wk_role w, wk_tasks w)) new = assigned method ((crole, cname) :: cs))
      /\ prefix (map (fun w => (wk_role w, wk_tasks w)) new) (assigned method ((crole, cname) :: cs))).
    { intros e E. injection E as <- <-. exists []. rewrite app_nil_r. split; [reflexivity|].
      split; [constructor|]. split; [intros E; discriminate E|]. eexists; reflexivity. }
    destruct (dget (df_components df) cname) as [cmp|] eqn:EC; [|exact (STOP _ H)].
    rewrite plan_spec in H.
    destruct (tasks_of crole method) as [|t ts] eqn:ET.
    + destruct (IH _ _ _ H) as (new & -> & F & A & B). exists new. split; [reflexivity|].
      split; [|split].
      * eapply Forall_impl; [|exact F]. intros w (cn & I1 & I2). exists cn. split; [right; exact I1 | exact I2].
      * intros E. rewrite (A E). unfold assigned. cbn [filter fst]. rewrite ET. reflexivity.
      * unfold assigned. cbn [filter fst]. rewrite ET. exact B.
    + destruct (dget (df_devices df) (c_device cmp)) as [dev|] eqn:ED; [|exact (STOP _ H)].
      destruct (dget drvs (c_driver cmp)) as [drv|] eqn:EV; [|exact (STOP _ H)].
      destruct (dget (df_drivers df) (c_driver cmp)) as [x|] eqn:EX; [|exact (STOP _ H)].
      destruct (IH _ _ _ H) as (new & -> & F & A & (rest & B)).
      set (w := mkWorker crole (t :: ts) cmp dev (dv_port drv)) in *.
      exists (w :: new). split; [rewrite <- app_assoc; reflexivity|].
      split; [|split].
      * constructor.
        -- exists cname. split; [left; reflexivity|]. split; [exact EC|]. split; [exact ED|]. exists drv. auto.
        -- eapply Forall_impl; [|exact F]. intros w' (cn & I1 & I2). exists cn. split; [right; exact I1 | exact I2].
      * intros E. cbn [map]. rewrite (A E). unfold assigned. cbn [filter fst]. rewrite ET. cbn. rewrite ET. reflexivity.
      * exists rest. unfold assigned in *. cbn [filter fst]. rewrite ET. cbn [map fst]. rewrite ET. cbn. f_equal. exact B.
Qed.

Lemma distribute_error df drvs method : forall cs started ws e,
  distribute df drvs (plan method) cs started = (ws, Some e) ->
  exists before role cname after, cs = (before ++ (role, cname) :: after)%list /\
    lacks df drvs method role cname e /\
    distribute df drvs (plan method) before started = (ws, None).
Proof.
  induction cs as [|[crole cname] cs IH]; intros started ws e H; cbn [distribute] in H; [discriminate|].
  assert (STOP : forall e', (started, Some e') = (ws, Some e) -> lacks df drvs method crole cname e' ->
    exists before role cn after, ((crole, cname) :: cs = before ++ (role, cn) :: after)%list /\
      lacks df drvs method role cn e /\ distribute df drvs (plan method) before started = (ws, None)).
  { intros e' E L. injection E as <- <-. exists [], crole, cname, cs. auto. }
  destruct (dget (df_components df) cname) as [cmp|] eqn:EC.
  2: { apply (STOP _ H). unfold lacks. rewrite EC. reflexivity. }
  rewrite plan_spec in H.
  assert (GO : forall st, distribute df drvs (plan method) cs st = (ws, Some e) ->
    (forall b, distribute df drvs (plan method) ((crole, cname) :: b) started = distribute df drvs (plan method) b st) ->
    exists before role cn after, ((crole, cname) :: cs = before ++ (role, cn) :: after)%list /\
      lacks df drvs method role cn e /\ distribute df drvs (plan method) before started = (ws, None)).
  { intros st D X. destruct (IH _ _ _ D) as (b & r & c & a & -> & L & E). exists ((crole, cname) :: b), r, c, a.
    split; [reflexivity|]. split; [exact L|]. rewrite X. exact E. }
  destruct (tasks_of crole method) as [|t ts] eqn:ET.
  - apply (GO _ H). intros b. cbn [distribute]. rewrite EC, plan_spec, ET. reflexivity.
  - assert (NE : tasks_of crole method <> []) by (rewrite ET; discriminate).
    destruct (dget (df_devices df) (c_device cmp)) as [dev|] eqn:ED.
    2: { apply (STOP _ H). unfold lacks. rewrite EC, ED. auto. }
    destruct (dget drvs (c_driver cmp)) as [drv|] eqn:EV.
    2: { apply (STOP _ H). unfold lacks. rewrite EC, ED, EV. auto. }
    destruct (dget (df_drivers df) (c_driver cmp)) as [x|] eqn:EX.
    2: { apply (STOP _ H). unfold lacks. rewrite EC, ED, EV. auto. }
    apply (GO _ H). intros b. cbn [distribute]. rewrite EC, plan_spec, ET, ED, EV, EX. reflexivity.
Qed.

(** ** The job process *)
Definition gone (k : wkst) : Prop := alive k = false \/ k_crashed k = true.
Definition onward (l l' : list wkst) : Prop := forall i k, nth_error l i = Some k ->
  exists k', nth_error l' i = Some k' /\ (gone k -> gone k') /\ (k_crashed k = true -> k_crashed k' = true).
Lemma onward_refl l : onward l l.
Proof. intros i k H. exists k. auto. Qed.
Lemma onward_trans a b c : onward a b -> onward b c -> onward a c.
Proof.
  intros H1 H2 i k E. destruct (H1 i k E) as (k1 & E1 & G1 & C1). destruct (H2 i k1 E1) as (k2 & E2 & G2 & C2).
  exists k2. auto.
Qed.
Lemma nth_put_same k : forall l i k0, nth_error l i = Some k0 -> nth_error (put_wk i k l) i = Some k.
Proof. induction l as [|a l IH]; intros [|i] k0 H; cbn in *; try discriminate H; [reflexivity | eauto]. Qed.
Lemma nth_put_other k : forall l i j, i <> j -> nth_error (put_wk i k l) j = nth_error l j.
Proof.
  induction l as [|a l IH]; intros [|i] [|j] H; cbn; try reflexivity; try congruence. apply IH. congruence.
Qed.
Lemma onward_put l i k k' : nth_error l i = Some k ->
  (gone k -> gone k') -> (k_crashed k = true -> k_crashed k' = true) -> onward l (put_wk i k' l).
Proof.
  intros E G C j kj Ej. destruct (PeanoNat.Nat.eq_dec i j) as [<-|NE].
  - rewrite E in Ej. injection Ej as <-. exists k'. split; [eapply nth_put_same; exact E | auto].
  - exists kj. rewrite nth_put_other by exact NE. auto.
Qed.
Lemma mexec_onward l o r l' : mexec l o r l' -> onward l l'.
Proof.
  destruct o; cbn.
  - intros [-> _]. apply onward_refl.
  - intros [_ (k & E & ->)]. eapply onward_put; [exact E | |]; auto.
  - intros [-> _]. apply onward_refl.
  - intros [-> _]. apply onward_refl.
  - intros [-> _]. apply onward_refl.
  - intros ->. apply onward_refl.
Qed.
Lemma jstep_onward s s' : jstep s s' -> onward (s_wk s) (s_wk s').
Proof.
  intros H. destruct H as [l m i k o kont r E P A|l l' o kont r H]; cbn.
  - eapply onward_put; [exact E | |].
    + intros [G|G]; [unfold alive in G; rewrite P in G; discriminate G|]. right. cbn. destruct o; auto.
    + intros G. cbn. destruct o; auto.
  - eapply mexec_onward. exact H.
Qed.

(** What the main thread may conclude, whatever the workers do meanwhile. *)
Fixpoint mok {A} (m : mpgm A) (Q : A -> list wkst -> Prop) (l : list wkst) : Prop :=
  match m with
  | Ret a => Q a l
  | Raise _ => True
  | Op o k => forall l1 r l2, onward l l1 -> mexec l1 o r l2 -> mok (k r) Q l2
  end.
Definition stable {A} (Q : A -> list wkst -> Prop) : Prop := forall a l l', onward l l' -> Q a l -> Q a l'.
Lemma mok_onward {A} (m : mpgm A) Q l l' : stable Q -> onward l l' -> mok m Q l -> mok m Q l'.
Proof.
  intros S R. destruct m as [a|e|o k]; cbn; auto.
  - apply S. exact R.
  - intros H l1 r l2 R1 E. eapply H; [eapply onward_trans; [exact R | exact R1] | exact E].
Qed.
Lemma mok_impl {A} (m : mpgm A) (Q Q' : A -> list wkst -> Prop) :
  (forall a l, Q a l -> Q' a l) -> forall l, mok m Q l -> mok m Q' l.
Proof. intros W. induction m as [a|e|o k IH]; intros l; cbn; auto. intros H l1 r l2 R E. eauto. Qed.
Lemma mok_bind {A B} (p : mpgm A) (f : A -> mpgm B) Q : forall l,
  mok p (fun a l' => mok (f a) Q l') l -> mok (bind p f) Q l.
Proof. induction p as [a|e|o k IH]; intros l; cbn; auto. intros H l1 r l2 R E. eauto. Qed.
Lemma mok_stable {A} (m : mpgm A) (C : list wkst -> Prop) : (forall l l', onward l l' -> C l -> C l') ->
  forall l, C l -> mok m (fun _ l' => C l') l.
Proof.
  intros S. induction m as [a|e|o k IH]; intros l H; cbn; auto.
  intros l1 r l2 R E. apply IH. eapply S; [eapply mexec_onward; exact E|]. eapply S; [exact R | exact H].
Qed.
Lemma mok_true {A} (m : mpgm A) l : mok m (fun _ _ => True) l.
Proof. apply (mok_stable m (fun _ => True)); auto. Qed.
Lemma jsteps_mok s s' Q : stable Q -> jsteps s s' -> mok (s_main s) Q (s_wk s) -> mok (s_main s') Q (s_wk s').
Proof.
  intros S H. induction H as [s|s1 s2 s3 H IH J]; [auto|]. intros M. specialize (IH M). clear H M.
  destruct J as [l m i k o kont r E P A|l l' o kont r H].
  - cbn in *. eapply mok_onward; [exact S | | exact IH].
    exact (jstep_onward _ _ (step_worker l m i k o kont r E P A)).
  - cbn in *. eapply IH; [apply onward_refl | exact H].
Qed.

Definition gone_at (l : list wkst) (i : nat) : Prop := exists k, nth_error l i = Some k /\ gone k.
Lemma gone_at_onward l l' i : onward l l' -> gone_at l i -> gone_at l' i.
Proof. intros R (k & E & G). destruct (R i k E) as (k' & E' & G' & _). exists k'. auto. Qed.
Definition crashed_at (i : nat) (l : list wkst) : Prop := exists k, nth_error l i = Some k /\ k_crashed k = true.
Lemma crashed_at_onward i l l' : onward l l' -> crashed_at i l -> crashed_at i l'.
Proof. intros R (k & E & G). destruct (R i k E) as (k' & E' & _ & C'). exists k'. auto. Qed.

Lemma mok_joined i l : mok (is_joined i) (fun b l' => b = true -> gone_at l' i) l.
Proof.
  unfold is_joined. apply mok_bind. cbn. intros l1 r l2 R [-> (k & E & ->)]. cbn.
  destruct (alive k) eqn:A; cbn.
  - intros l3 r l4 R2 [-> (k2 & E2 & ->)]. cbn. intros C. exists k2. split; [exact E2 | right; exact C].
  - intros _. exists k. split; [exact E | left; exact A].
Qed.
Lemma mok_joined_all : forall ids acc (done : list nat) l,
  (forallb (fun b => b) acc = true -> forall i, In i done -> gone_at l i) ->
  mok (forP (fun acc i => b <- is_joined i;; Ret (acc ++ [b : bool])) acc ids)
      (fun acc' l' => forallb (fun b => b) acc' = true -> forall i, In i (done ++ ids) -> gone_at l' i) l.
Proof.
  induction ids as [|i ids IH]; intros acc done l H; cbn [forP].
  - cbn. rewrite app_nil_r. exact H.
  - apply mok_bind, mok_bind.
    eapply mok_impl with (Q := fun b l' => (b = true -> gone_at l' i) /\
       (forallb (fun b => b) acc = true -> forall i, In i done -> gone_at l' i)).
    + intros b l' [J D]. cbn [mok].
      replace (done ++ i :: ids)%list with ((done ++ [i]) ++ ids)%list by (rewrite <- app_assoc; reflexivity).
      apply IH. rewrite forallb_app. intros E. apply andb_prop in E as [E1 E2]. cbn in E2. rewrite andb_true_r in E2.
      intros j I1. apply in_app_or in I1 as [I1|[<-|[]]]; [apply D; assumption | apply J; exact E2].
    + pose proof (mok_joined i l) as M1.
      pose proof (mok_stable (is_joined i)
        (fun l' => forallb (fun b => b) acc = true -> forall i, In i done -> gone_at l' i)
        (fun l l' R K E j I1 => gone_at_onward l l' j R (K E j I1)) l H) as M2.
      revert M1 M2. generalize (is_joined i). clear. intros m. revert l.
      induction m as [a|e|o k IH]; intros l; cbn; auto.
      intros A B l1 r l2 R E. exact (IH r _ (A _ _ _ R E) (B _ _ _ R E)).
Qed.

(** The main loop returns only when every worker has ended or has crashed. *)
Lemma main_loop_gone snap ids : forall fuel ts names l,
  mok (main_loop fuel snap ids ts names) (fun _ l' => forall i, In i ids -> gone_at l' i) l.
Proof.
  induction fuel as [|fuel IH]; intros ts names l; cbn [main_loop]; [exact I|].
  do 5 (apply mok_bind; eapply mok_impl; [|apply mok_true]; clear l; intros ? l _).
  apply mok_bind. eapply mok_impl; [|exact (mok_joined_all ids [] [] l (fun _ i (I1 : In i []) => match I1 with end))].
  intros joined l' J. cbn [app] in J. destruct (forallb (fun b => b) joined) eqn:E.
  - cbn. exact (J eq_refl).
  - apply IH.
Qed.

(** A worker that has crashed before a turn of the loop is noticed. *)
Lemma main_loop_crash snap ids i : In i ids -> forall fuel ts names l, crashed_at i l ->
  mok (main_loop fuel snap ids ts names) (fun b _ => b = true) l.
Proof.
  intros Hi. induction fuel as [|fuel IH]; intros ts names l C; cbn [main_loop]; [exact I|].
  do 4 (apply mok_bind; eapply mok_impl; [|apply (mok_stable _ (crashed_at i)); [apply crashed_at_onward | exact C]];
        clear l C; intros ? l C).
  apply mok_bind.
  assert (L : forall ids acc l, crashed_at i l ->
    mok (forP (fun acc i => b <- mact (MCrashed i);; Ret (acc ++ [b : bool])) acc ids)
        (fun acc' l' => crashed_at i l' /\ (In i ids \/ In true acc -> In true acc')) l).
  { clear. intros ids. induction ids as [|j ids IH]; intros acc l C; cbn [forP].
    - cbn. split; [exact C | intros [[]|H]; exact H].
    - apply mok_bind, mok_bind. cbn [mact do mok]. intros l1 r l2 R [-> (k & E & ->)].
      assert (C1 : crashed_at i l1) by (eapply crashed_at_onward; [exact R | exact C]).
      cbn [mok]. eapply mok_impl; [|apply (IH (acc ++ [k_crashed k]) l1 C1)].
      intros acc' l' [C2 T]. split; [exact C2|]. intros [[->|I1]|I1]; apply T.
      + right. apply in_or_app. right. left. destruct C1 as (k1 & E1 & K1). congruence.
      + left. exact I1.
      + right. apply in_or_app. left. exact I1. }
  eapply mok_impl; [|apply (L ids [] l C)]. clear l C. intros crashed l [C T].
  apply mok_bind. eapply mok_impl; [|apply (mok_stable _ (crashed_at i)); [apply crashed_at_onward | exact C]].
  clear l C. intros joined l C. cbv beta in C.
  destruct (forallb (fun b => b) joined).
  - cbn. apply existsb_exists. exists true. split; [apply T; left; exact Hi | reflexivity].
  - apply IH. exact C.
Qed.

(** *** Workers in the job process *)
Record kinv (f : nat) (w : worker) (k : wkst) : Prop := {
  ki_tasks : k_tasks k = wk_tasks w;
  ki_leads : wk_port w <> None ->
    leads (job_thread f (d_pollrate (wk_device w)) (wk_tasks w)) (k_events k) (k_prog k);
  ki_noport : wk_port w = None -> k_prog k = Raise ZMQError /\ k_events k = [];
  ki_crash : k_crashed k = true <-> In VCrash (views (k_events k))
}.
Lemma leads_snoc {A} (p : jpgm A) : forall l o k r, leads p l (Op o k) -> leads p (l ++ [Ev o r]) (k r).
Proof.
  induction p as [a|e|o' k' IH]; intros l o k r H; cbn in H.
  - destruct H as [_ E]; discriminate E.
  - destruct H as [_ E]; discriminate E.
  - destruct H as [[-> E]|(r' & l' & -> & H)].
    + assert (G : forall q, q = Op o' k' -> match q with
        | Op o2 k2 => forall r, leads (Op o' k') ([] ++ [Ev o2 r]) (k2 r) | _ => True end).
      { intros q ->. intros r0. cbn. right. exists r0, []. split; [reflexivity | apply leads_nil]. }
      exact (G _ E r).
    + cbn. right. exists r', (l' ++ [Ev o r])%list. split; [reflexivity | exact (IH _ _ _ _ _ H)].
Qed.
Lemma kinv_step f w k o kont r : kinv f w k -> k_prog k = Op o kont -> allowed k o r ->
  kinv f w (wk_after k o r (kont r)).
Proof.
  intros [T L N C] P A. split; cbn [wk_after k_tasks k_prog k_crashed k_events].
  - exact T.
  - intros Y. specialize (L Y). rewrite P in L. apply leads_snoc. exact L.
  - intros Y. destruct (N Y) as [Z _]. congruence.
  - rewrite views_app, in_app_iff. cbn [views map].
    destruct o; cbn in A; try (rewrite C; split; [auto | intros [H|[H|[]]]; [exact H | destruct r; discriminate H]]).
    split; [intros _; right; left; rewrite A; reflexivity | reflexivity].
Qed.
Lemma kinv_start f w : kinv f w (wk_start f w).
Proof.
  split; cbn; [reflexivity | | |].
  - destruct (wk_port w); [intros _; apply leads_nil | congruence].
  - intros ->. split; reflexivity.
  - split; [discriminate | intros []].
Qed.
Lemma put_wk_Forall2 {X} (P : X -> wkst -> Prop) k' : forall ws l i k,
  Forall2 P ws l -> nth_error l i = Some k -> (forall w, P w k -> P w k') -> Forall2 P ws (put_wk i k' l).
Proof.
  intros ws l i k F. revert i. induction F as [|w a ws l Pw F IH]; intros [|i] E H; cbn in *; try discriminate E.
  - injection E as ->. constructor; auto.
  - constructor; [exact Pw | eauto].
Qed.
Lemma jobs_kinv f snap ts ws s' : jsteps (job_start f snap ts ws) s' -> Forall2 (kinv f) ws (s_wk s').
Proof.
  remember (job_start f snap ts ws) as s eqn:E. intros H. induction H as [s|s1 s2 s3 H IH J].
  - subst. cbn. induction ws as [|w ws IH]; cbn; constructor; [apply kinv_start | exact IH].
  - specialize (IH E). clear E H. destruct J as [l m i k o kont r En P A|l l' o kont r H]; cbn in *.
    + eapply put_wk_Forall2; [exact IH | exact En|]. intros w K. eapply kinv_step; eassumption.
    + destruct o; cbn in H.
      * destruct H as [-> _]. exact IH.
      * destruct H as [_ (k & En & ->)]. eapply put_wk_Forall2; [exact IH | exact En|].
        intros w [K1 K2 K3 K4]. split; assumption.
      * destruct H as [-> _]. exact IH.
      * destruct H as [-> _]. exact IH.
      * destruct H as [-> _]. exact IH.
      * subst. exact IH.
Qed.

Lemma F2_length {X Y} (P : X -> Y -> Prop) a b : Forall2 P a b -> List.length a = List.length b.
Proof. induction 1; cbn; congruence. Qed.
Lemma jobs_gone f snap ts ws s' b : jsteps (job_start f snap ts ws) s' -> s_main s' = Ret b ->
  Forall gone (s_wk s').
Proof.
  intros H E. pose proof (jobs_kinv _ _ _ _ _ H) as F.
  assert (S : stable (fun (_ : bool) l' => forall i, In i (seq 0 (List.length ws)) -> gone_at l' i)).
  { intros a l l' R K i I1. eapply gone_at_onward; [exact R | apply K; exact I1]. }
  pose proof (jsteps_mok _ _ _ S H (main_loop_gone snap (seq 0 (List.length ws)) f ts [] _)) as M.
  rewrite E in M. cbn in M.
  apply Forall_forall. intros k I1. apply In_nth_error in I1 as [i Ei].
  assert (L : (i < List.length ws)%nat).
  { rewrite (F2_length _ _ _ F). apply nth_error_Some. rewrite Ei. discriminate. }
  destruct (M i) as (k' & E' & G); [apply in_seq; lia|]. congruence.
Qed.

(** C59, for a job reported complete. *)
Lemma jobs_complete f snap ts ws s' b : jsteps (job_start f snap ts ws) s' -> s_main s' = Ret b ->
  Forall2 (fun w k => k_tasks k = wk_tasks w /\
    (wk_port w <> None -> (List.length (wk_tasks w) <= 2)%nat -> k_crashed k = false ->
     ~ In VFail (views (k_events k)) -> sends (views (k_events k)) = wk_tasks w)) ws (s_wk s').
Proof.
  intros H E. pose proof (jobs_kinv _ _ _ _ _ H) as F. pose proof (jobs_gone _ _ _ _ _ _ H E) as G.
  clear H E. induction F as [|w k ws' l' K F IH]; [constructor|].
  inversion G as [|? ? G1 G2]; subst. constructor; [|apply IH; exact G2].
  clear IH F G G2. destruct K as [T L _ C]. split; [exact T|]. intros HP LE NC NF. specialize (L HP).
  destruct G1 as [A|A]; [|congruence].
  unfold alive in A. destruct (k_prog k) as [u|e|o kont] eqn:P; [| |discriminate A].
  - exact (proj1 (proj2 (worker_ret _ _ _ _ _ L))).
  - assert (NF2 : e <> OutOfFuel) by (intros ->; discriminate A).
    destruct (worker_end _ _ _ _ _ L) as [[W|[W|W]]|(_ & t1 & t2 & r & Et & S)].
    + congruence.
    + contradiction.
    + rewrite <- C in W. congruence.
    + rewrite S, Et. rewrite Et in LE. cbn in LE. destruct r; [reflexivity | cbn in LE; lia].
Qed.

(** ** Playing executions *)
Inductive ans : Type := ASt (s : sans) | AZ (z : Z) | AB (b : bans) | AD (d : dans) | AU | AFail.
Definition give (k : wkst) (o : jop) (a : ans) : option (res (jresp o)) :=
  match o as o' return option (res (jresp o')) with
  | JCurrent _ => Some (Ok tt)
  | JNames => Some (Ok (k_names k))
  | JStatus => match a with ASt s => Some (Ok s) | _ => None end
  | JClock => match a with AZ z => Some (Ok z) | _ => None end
  | JSend _ => match a with AB b => Some (Ok b) | _ => None end
  | JData => match a with AD d => Some (Ok d) | _ => None end
  | JStop => match a with AD d => Some (Ok d) | _ => None end
  | JStore _ => match a with AU => Some (Ok tt) | AFail => Some (Err FileNotFoundError) | _ => None end
  | JReset => match a with AB b => Some (Ok b) | _ => None end
  | JCrash => Some (Ok tt)
  end.
Lemma give_allowed k o a r : give k o a = Some r -> allowed k o r.
Proof.
  destruct o; cbn; try (intros H; injection H as <-; reflexivity); auto.
  destruct a; try discriminate. intros H; injection H as <-. eauto.
Qed.
Definition mgive (l : list wkst) (o : mop) (z : Z) : option (res (mresp o) * list wkst) :=
  match o as o' return option (res (mresp o') * list wkst) with
  | MCurrent i => match nth_error l i with
                  | Some k => Some (Ok (match k_current k with Some t => t_name t | None => None end), l)
                  | None => None end
  | MPush i n => match nth_error l i with
                  | Some k => Some (Ok tt, put_wk i (mkWk (k_tasks k) (k_prog k) (k_crashed k)
                                      (k_names k ++ filter (fun x => negb (mem x (k_names k))) n)
                                      (k_current k) (k_events k)) l)
                  | None => None end
  | MCrashed i => match nth_error l i with Some k => Some (Ok (k_crashed k), l) | None => None end
  | MAlive i => match nth_error l i with Some k => Some (Ok (alive k), l) | None => None end
  | MClock => Some (Ok z, l)
  | MSnapshot => Some (Ok tt, l)
  end.
Lemma mgive_mexec l o z r l' : mgive l o z = Some (r, l') -> mexec l o r l'.
Proof.
  destruct o; cbn; try (destruct (nth_error l i) as [k|] eqn:E; [|discriminate]);
    intros H; injection H as <- <-; eauto 6.
Qed.
Inductive mv : Type := W (i : nat) (a : ans) | M (z : Z).
Definition move (s : jsys) (m : mv) : option jsys :=
  match m with
  | W i a =>
      match nth_error (s_wk s) i with
      | Some k =>
          match k_prog k with
          | Op o kont =>
              match give k o a with
              | Some r => Some (mkJsys (put_wk i (wk_after k o r (kont r)) (s_wk s)) (s_main s))
              | None => None
              end
          | _ => None
          end
      | None => None
      end
  | M z =>
      match s_main s with
      | Op o kont =>
          match mgive (s_wk s) o z with
          | Some (r, l') => Some (mkJsys l' (kont r))
          | None => None
          end
      | _ => None
      end
  end.
Lemma move_step s m s' : move s m = Some s' -> jstep s s'.
Proof.
  destruct s as [l p]. destruct m as [i a|z]; cbn.
  - destruct (nth_error l i) as [k|] eqn:E; [|discriminate].
    destruct (k_prog k) as [|?|o kont] eqn:P; try discriminate.
    destruct (give k o a) as [r|] eqn:G; [|discriminate].
    intros H; injection H as <-. eapply step_worker; [exact E | exact P | eapply give_allowed; exact G].
  - destruct p as [|?|o kont]; try discriminate.
    destruct (mgive l o z) as [[r l']|] eqn:G; [|discriminate].
    intros H; injection H as <-. constructor. eapply mgive_mexec. exact G.
Qed.
Fixpoint moves (s : jsys) (l : list mv) : option jsys :=
  match l with
  | [] => Some s
  | m :: r => match move s m with Some s' => moves s' r | None => None end
  end.
Lemma moves_steps : forall l s s', moves s l = Some s' -> jsteps s s'.
Proof.
  assert (C : forall a b c, jstep a b -> jsteps b c -> jsteps a c).
  { intros a b c H K. induction K as [b|b c d K IH J]; [eapply js_step; [apply js_refl | exact H]|].
    eapply js_step; [apply IH; exact H | exact J]. }
  induction l as [|m l IH]; intros s s'; cbn.
  - intros H; injection H as <-. apply js_refl.
  - destruct (move s m) as [s1|] eqn:E; [|discriminate]. intros H.
    eapply C; [eapply move_step; exact E | apply IH; exact H].
Qed.
