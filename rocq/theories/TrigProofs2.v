(** * TrigProofs2: the worker obeys its triggers *)
From Coq Require Import List String ZArith Bool Lia.
From Verif Require Import Base BaseFacts Types Prog ProgFacts JobThreadModel SpecWorker SpecTrig
  JobThreadProofs JobThreadProofs2 JobThreadProofs3 TrigProofs.
Import ListNotations.
Open Scope prog_scope.
Open Scope Z_scope.

Lemma trigs_snoc v : forall l s s2, trigs s (l ++ [v]) s2 <->
  exists s1, trigs s l s1 /\ own s1 v /\ trig s1 v = Some s2.
Proof.
  induction l as [|w l IH]; intros s s2; cbn [trigs app].
  - split.
    + intros [O T]. exists s. split; [reflexivity|]. split; [exact O|].
      destruct (trig s v) as [s1|]; [rewrite T; reflexivity | contradiction].
    + intros (s1 & -> & O & ->). auto.
  - destruct (trig s w) as [s0|] eqn:E.
    + rewrite IH. split.
      * intros [O (s1 & A & B & C)]. exists s1. auto.
      * intros (s1 & [O A] & B & C). split; [exact O|]. exists s1. auto.
    + split; [intros [_ []] | intros (s1 & [_ []] & _)].
Qed.
Lemma trigs_fun : forall l s s1 s2, trigs s l s1 -> trigs s l s2 -> s1 = s2.
Proof.
  induction l as [|v l IH]; cbn [trigs]; intros s s1 s2 H K; [congruence|].
  destruct H as [_ H], K as [_ K]. destruct (trig s v); [eauto | contradiction].
Qed.

Definition idle_or_fuel (s : tstate) (e : exn) : Prop := match s with At _ (Some _) _ => e = OutOfFuel | _ => True end.
Fixpoint jgood {A} (p : jpgm A) (Q : A -> tstate -> Prop) (s : tstate) : Prop :=
  match p with
  | Ret a => Q a s
  | Raise e => idle_or_fuel s e
  | Op o k => forall r, own s (view (Ev o r)) /\
                exists s', trig s (view (Ev o r)) = Some s' /\ jgood (k r) Q s'
  end.
Lemma jgood_leads {A} (p : jpgm A) Q : forall s l q, jgood p Q s -> leads p l q ->
  exists s', trigs s (views l) s' /\ jgood q Q s'.
Proof.
  induction p as [a|e|o k IH]; intros s l q G H; cbn in H.
  - destruct H as [-> ->]. exists s. split; [reflexivity | exact G].
  - destruct H as [-> ->]. exists s. split; [reflexivity | exact G].
  - destruct H as [[-> ->]|(r & l' & -> & H)].
    + exists s. split; [reflexivity | exact G].
    + cbn [jgood] in G. destruct (G r) as [O (s1 & T & G1)]. destruct (IH _ _ _ _ G1 H) as (s' & K & G').
      exists s'. split; [|exact G']. cbn [views map trigs]. split; [exact O|]. rewrite T. exact K.
Qed.
Lemma jgood_bind {A B} (p : jpgm A) (f : A -> jpgm B) Q : forall s,
  jgood p (fun a s' => jgood (f a) Q s') s -> jgood (bind p f) Q s.
Proof.
  induction p as [a|e|o k IH]; intros s; cbn; auto. intros H r. destruct (H r) as [O (s' & T & G)]. eauto.
Qed.
Lemma jgood_impl {A} (p : jpgm A) (Q Q' : A -> tstate -> Prop) :
  (forall a s, Q a s -> Q' a s) -> forall s, jgood p Q s -> jgood p Q' s.
Proof.
  intros W. induction p as [a|e|o k IH]; intros s; cbn; auto. intros H r.
  destruct (H r) as [O (s' & T & G)]. eauto.
Qed.
(** An operation that has no business with triggers. *)
Definition plain (o : jop) : Prop :=
  match o with JStatus | JClock | JData | JStore _ | JReset => True | _ => False end.
Lemma jgood_plain {A} (o : jop) (f : jresp o -> jpgm A) Q c : plain o ->
  (forall x, jgood (f x) Q (At c None false)) -> jgood (bind (jact o) f) Q (At c None false).
Proof.
  intros P H. cbn. intros [x|e].
  - split; [destruct o; try contradiction; exact I|]. exists (At c None false).
    split; [destruct o; try contradiction; reflexivity|]. apply H.
  - split; [destruct o; exact I|]. exists Over. split; [destruct o; reflexivity | exact I].
Qed.
Lemma jgood_crash {A} Q c : jgood (crash : jpgm A) Q (At c None false).
Proof. cbn. intros [x|e]; (split; [exact I|]; exists Over; split; [reflexivity | exact I]). Qed.
Lemma jgood_store d c (Q : unit -> tstate -> Prop) : Q tt (At c None false) -> jgood (store d) Q (At c None false).
Proof.
  intros H. destruct d as [| |l]; cbn [store].
  - apply jgood_crash.
  - exact H.
  - cbn. intros [[]|e]; (split; [exact I|]).
    + exists (At c None false). auto.
    + exists Over. split; [reflexivity | exact I].
Qed.

Lemma good_wait_start t : forall f, jgood (wait_start f t) (fun _ s => s = At (Some t) None false)
  (At (Some t) (t_start_with t) false).
Proof.
  assert (X : forall n, t_start_with t = Some n -> forall f,
    jgood (wait_start f t) (fun _ s => s = At (Some t) None false) (At (Some t) (Some n) false)).
  { intros n E. induction f as [|f IH]; cbn [wait_start]; rewrite E; [reflexivity|].
    cbn. intros [l|e]; (split; [exact I|]).
    - eexists. split; [reflexivity|]. cbn. destruct (mem n l); [reflexivity | exact IH].
    - exists Over. split; [reflexivity | exact I]. }
  destruct (t_start_with t) as [n|] eqn:E; intros f; [exact (X n eq_refl f)|].
  destruct f; cbn [wait_start]; rewrite E; reflexivity.
Qed.
Lemma good_wait_ready c : forall f, jgood (wait_ready f) (fun _ s => s = At c None false) (At c None false).
Proof.
  induction f as [|f IH]; cbn [wait_ready]; [exact I|].
  apply jgood_plain; [exact I|]. intros s. destruct s as [| | |[] r cu]; try exact IH; [apply jgood_crash | reflexivity].
Qed.
Lemma good_wait_running c t0 : forall f,
  jgood (wait_running f t0) (fun _ s => s = At c None false) (At c None false).
Proof.
  induction f as [|f IH]; cbn [wait_running]; [exact I|].
  apply jgood_plain; [exact I|]. intros now. apply jgood_plain; [exact I|]. intros s.
  cbv zeta.
  assert (X : jgood (if MAX_TASK_WAIT <? now - t0 then crash else wait_running f t0)
                (fun _ s => s = At c None false) (At c None false)).
  { destruct (MAX_TASK_WAIT <? now - t0); [apply jgood_crash | exact IH]. }
  destruct s as [| | |cs [] [[]|]]; try exact X; try reflexivity. apply jgood_crash.
Qed.
Lemma good_task_loop t pr : forall f tp,
  jgood (task_loop f pr t tp) (fun _ s => s = At (Some t) None false) (At (Some t) None false).
Proof.
  induction f as [|f IH]; intros tp; cbn [task_loop]; [exact I|].
  apply jgood_plain; [exact I|]. intros tn. apply jgood_bind.
  eapply jgood_impl.
  2:{ instantiate (1 := fun _ s => s = At (Some t) None false).
      destruct (pr <? tn - tp); [|reflexivity].
      apply jgood_plain; [exact I|]. intros d. apply jgood_bind. apply jgood_store. reflexivity. }
  intros tp' s ->. apply jgood_plain; [exact I|]. intros s.
  assert (X : jgood (match t_stop_with t with
      | None => task_loop f pr t tp'
      | Some n => l <- jact JNames;; (if mem n (l : list string) then d <- jact JStop;; store d
                                      else task_loop f pr t tp')
      end) (fun _ s => s = At (Some t) None false) (At (Some t) None false)).
  { destruct (t_stop_with t) as [n|] eqn:E; [|apply IH].
    cbn. rewrite E. intros [l|e]; (split; [exact I|]).
    - eexists. split; [reflexivity|]. cbn. destruct (mem n l); [|apply IH].
      cbn. intros [d|e]; (split; [exact I|]).
      + eexists. split; [reflexivity|]. apply jgood_store. reflexivity.
      + exists Over. split; [reflexivity | exact I].
    - exists Over. split; [reflexivity | exact I]. }
  destruct s as [| | |cs [] [[]|]]; try exact X; try reflexivity. apply jgood_crash.
Qed.
Lemma good_one_task f pr co t :
  jgood (one_task f pr co t) (fun co' s => s = At None None false) (At None None false).
Proof.
  unfold one_task. cbn [jact do bind jgood]. intros [[]|e]; (split; [exact I|]).
  2:{ exists Over. split; [reflexivity | exact I]. }
  exists (At (Some t) (t_start_with t) false). split; [reflexivity|]. cbn [lift bind].
  apply jgood_bind. eapply jgood_impl; [|apply good_wait_start]. intros u s ->.
  apply jgood_bind. eapply jgood_impl; [|apply good_wait_ready]. intros u1 s ->.
  apply jgood_plain; [exact I|]. intros t0.
  cbn [jact do bind jgood]. intros [b|e]; (split; [try exact I; try reflexivity|]).
  2:{ exists Over. split; [reflexivity | exact I]. }
  exists (At (Some t) None false). split; [reflexivity|]. cbn [lift bind].
  destruct b as [|b]; [apply jgood_crash|].
  apply jgood_bind. eapply jgood_impl; [|apply good_wait_running]. intros u2 s ->.
  apply jgood_plain; [exact I|]. intros tp.
  apply jgood_bind. eapply jgood_impl; [|apply good_task_loop]. intros u3 s ->.
  apply jgood_plain; [exact I|]. intros d. apply jgood_bind. apply jgood_store.
  destruct co as [l|]; [|exact I].
  cbn. intros [[]|e]; (split; [exact I|]); eexists; (split; [reflexivity|]); [reflexivity | exact I].
Qed.
Lemma good_job f pr ts : jgood (job_thread f pr ts) (fun _ s => s = At None None false) fresh.
Proof.
  unfold job_thread. apply jgood_bind. eapply jgood_impl with (Q := fun _ s => s = At None None false).
  - intros co s ->. apply jgood_plain; [exact I|]. intros [|b]; [apply jgood_crash | reflexivity].
  - generalize (Some [] : option (list task)) as co. unfold fresh.
    induction ts as [|t ts IH]; intros co; cbn [forP]; [reflexivity|].
    apply jgood_bind. eapply jgood_impl; [|apply good_one_task]. intros co' s ->. apply IH.
Qed.

(** ** Workers in the job process *)
Lemma worker_trigs f snap ts ws s' i k : jsteps (job_start f snap ts ws) s' -> nth_error (s_wk s') i = Some k ->
  exists st, trigs fresh (views (k_events k)) st /\ jgood (k_prog k) (fun _ s => s = At None None false) st.
Proof.
  intros H E. pose proof (jobs_kinv _ _ _ _ _ H) as F.
  assert (exists w, kinv f w k) as [w [_ L N _]].
  { clear H. revert i E. induction F as [|w k' ws l K F IH]; intros [|i] E; cbn in E; try discriminate E.
    - injection E as <-. eauto.
    - eauto. }
  destruct (wk_port w) as [p|] eqn:P.
  - eapply jgood_leads; [apply good_job | apply L; discriminate].
  - destruct (N eq_refl) as [-> ->]. exists fresh. split; [reflexivity | exact I].
Qed.
(** Past its start trigger, a worker has seen the name; a stop trigger is due exactly if its
    name has just been seen. *)
Lemma trigs_facts : forall l s, trigs fresh l s ->
  match s with
  | Over => True
  | At c h st =>
      (h <> None -> h = start_of c) /\ (h <> None -> st = false) /\
      (h = None -> forall n, start_of c = Some n -> exists ns, In (VNames ns) l /\ In n ns) /\
      (st = true -> exists n ns l', stop_of c = Some n /\ l = (l' ++ [VNames ns])%list /\ In n ns)
  end.
Proof.
  induction l as [|v l IH] using rev_ind; intros s H.
  - cbn in H. subst. cbn. split; [congruence|]. split; [congruence|].
    split; [intros _ n E; discriminate E | discriminate].
  - apply trigs_snoc in H as (s1 & H & O & T). specialize (IH _ H).
    destruct s1 as [|c h st]; [destruct v; discriminate T|].
    destruct IH as (I1 & I2 & I3 & I4).
    assert (MORE : h = None -> forall n, start_of c = Some n -> exists ns, In (VNames ns) (l ++ [v]) /\ In n ns).
    { intros E n En. destruct (I3 E n En) as (ns & K & Kn). exists ns. rewrite in_app_iff. auto. }
    assert (KEEP : h = None -> (h <> None -> h = start_of c) /\ (h <> None -> false = false)
       /\ (h = None -> forall n, start_of c = Some n -> exists ns, In (VNames ns) (l ++ [v]) /\ In n ns)
       /\ (false = true -> exists n ns l', stop_of c = Some n /\ (l ++ [v] = l' ++ [VNames ns])%list /\ In n ns)).
    { intros ->. split; [congruence|]. split; [congruence|]. split; [exact MORE | discriminate]. }
    destruct v; destruct h as [n|]; try destruct st; cbn in T; try discriminate T;
      try (injection T as <-; try exact I; try (apply KEEP; reflexivity)).
    + (* VCurrent *) split; [reflexivity|]. split; [reflexivity|]. split; [intros E n En; congruence | discriminate].
    + pose proof (I2 ltac:(discriminate)) as Z. discriminate Z.
    + destruct (mem n l0) eqn:B.
      * split; [congruence|]. split; [congruence|]. split; [|discriminate].
        intros _ m Em. rewrite <- (I1 ltac:(discriminate)) in Em. injection Em as <-.
        exists l0. rewrite in_app_iff. split; [right; left; reflexivity | apply mem_In, B].
      * split; [intros _; apply I1; discriminate|]. split; [reflexivity|]. split; [discriminate | discriminate].
    + destruct (stop_of c) as [n|] eqn:En; [|discriminate T]. injection T as <-.
      split; [congruence|]. split; [congruence|]. split; [exact MORE|].
      intros B. exists n, l0, l. split; [first [exact En | reflexivity]|]. split; [reflexivity | apply mem_In, B].
Qed.
