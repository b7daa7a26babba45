(** * OrderProofs3: a thread of the whole system is a program among others (C126) *)
From Coq Require Import List String ZArith Bool Lia Sorting.Sorted Sorting.Permutation.
From Verif Require Import Base BaseFacts Types ConfigModel Prog ProgFacts World WorldFacts CmdModel KetchupModel JobModel
  SysModel SpecJob JobProofs RGFacts SpecOrder OrderProofs OrderProofs2.
Import ListNotations.
Open Scope list_scope.
Open Scope Z_scope.

Lemma among_ext : forall A env env' (p : pgm A) n w, (forall m u, (n <= m)%nat -> env m u = env' m u) ->
  among env p n w = among env' p n w.
Proof.
  intros A env env' p. induction p as [a|e|o k IH]; intros n w H; cbn; try reflexivity.
  rewrite (H n w (le_n n)). rewrite (IH _ (S n)); [reflexivity|]. intros m u L. apply H. lia.
Qed.

Lemma among_jobless : forall A env (p : pgm A), (forall n u, w_jobs (env n u) = []) -> forall n w tr r s,
  among env p n w = (tr, r, s) -> forall o u, In (o, u) tr -> w_jobs u = [].
Proof.
  intros A env p E. induction p as [a|e|o k IH]; intros n w tr r s H o' u I; cbn in H.
  - injection H as <- _ _. destruct I.
  - injection H as <- _ _. destruct I.
  - destruct (among env (k (fst (exec o (env n w)))) (S n) (snd (exec o (env n w)))) as [[t1 r1] s1] eqn:E1.
    injection H as <- _ _. destruct I as [I|I]; [injection I as <- <-; apply E|exact (IH _ _ _ _ _ _ E1 _ _ I)].
Qed.

Lemma nth_other : forall A (x : A) l m n, m <> n -> nth_error (set_nth m x l) n = nth_error l n.
Proof.
  intros A x l. induction l as [|y l IH]; intros [|m] [|n] N; cbn; try reflexivity; try congruence.
  apply IH. congruence.
Qed.
Lemma nth_app : forall A (l l' : list A) n x, nth_error l n = Some x -> nth_error (l ++ l') n = Some x.
Proof. intros A l. induction l as [|y l IH]; intros l' [|n] x H; cbn in *; try discriminate; auto. Qed.

(** A step that is not one of thread [n] leaves manager [n] as it is, as long as the daemon
    process lives. *)
Lemma step_keeps : forall l s s' n t, step l s = Some s' -> nth_error (s_threads s) n = Some t ->
  is_mgr (t_kind t) = true -> l <> LStep n -> l <> LCrash -> l <> LExit ->
  nth_error (s_threads s') n = Some t.
Proof.
  intros l s s' n t H T M N1 N2 N3. destruct l; cbn in H; try congruence.
  - injection H as <-. cbn. apply nth_app. exact T.
  - assert (NE : n0 <> n) by congruence.
    destruct (nth_error (s_threads s) n0) as [t0|] eqn:T0; [|discriminate]. unfold step_thread in H.
    destruct (t_pgm t0) as [a|e|o k].
    + destruct (mgr_pass (t_kind t0)); [|discriminate]. destruct (t_done t0); [discriminate|].
      destruct (s_run s); injection H as <-; cbn; rewrite nth_other by exact NE; exact T.
    + discriminate.
    + destruct (exec o (s_world s)). injection H as <-. cbn. rewrite nth_other by exact NE. exact T.
  - destruct (nth_error (s_threads s) n0) as [t0|] eqn:T0; [|discriminate].
    destruct (is_mgr (t_kind t0)) eqn:M0; [discriminate|]. injection H as <-. cbn.
    rewrite nth_other; [exact T|]. intros ->. congruence.
  - destruct (w_daemon (s_world s)); [|discriminate]. destruct (mgr_pass k); [|discriminate].
    destruct (has_kind k s); [discriminate|]. injection H as <-. cbn. apply nth_app. exact T.
  - destruct (w_daemon (s_world s)) as [d|]; [|discriminate]. destruct (dm_status d); try discriminate.
    injection H as <-. exact T.
  - destruct (nth_error (w_spawned (s_world s)) i); [|discriminate].
    destruct (get_proc (w_procs (s_world s)) pid); [discriminate|]. injection H as <-. cbn. apply nth_app. exact T.
  - destruct (nth_error (w_spawned (s_world s)) i); [|discriminate]. injection H as <-. exact T.
  - injection H as <-. cbn. apply nth_app. exact T.
  - destruct (existsb (runs_pid pid) (s_threads s)); [discriminate|]. injection H as <-. exact T.
  - destruct (get_proc (w_procs (s_world s)) pid); [discriminate|]. injection H as <-. exact T.
  - injection H as <-. exact T.
  - injection H as <-. exact T.
  - injection H as <-. exact T.
  - injection H as <-. exact T.
Qed.

(** What a manager does in any execution of the system is the beginning of what its program
    does among others; for the rest it can be left alone in a world without jobs. *)
Lemma covered : forall n ls s t m w, nth_error (s_threads s) n = Some t -> is_mgr (t_kind t) = true ->
  exists env rest r st, among env (t_pgm t) m w = (pass_ops n ls s ++ rest, r, st) /\
    forall o u, In (o, u) rest -> w_jobs u = [].
Proof.
  intros n ls. induction ls as [|l ls IH]; intros s t m w T M.
  { set (env := fun (_ : nat) u => set_jobs u [] 0).
    destruct (among env (t_pgm t) m w) as [[tr r] st] eqn:E. exists env, tr, r, st.
    split; [exact E|]. exact (among_jobless _ env _ (fun _ _ => eq_refl) _ _ _ _ _ E). }
  assert (STOP : exists env rest r st, among env (t_pgm t) m w = ([] ++ rest, r, st) /\
            forall o u, In (o, u) rest -> w_jobs u = []).
  { set (env := fun (_ : nat) u => set_jobs u [] 0).
    destruct (among env (t_pgm t) m w) as [[tr r] st] eqn:E. exists env, tr, r, st.
    split; [exact E|]. exact (among_jobless _ env _ (fun _ _ => eq_refl) _ _ _ _ _ E). }
  cbn [pass_ops]. destruct (step l s) as [s'|] eqn:S; [|exact STOP].
  assert (KEEP : l <> LStep n -> l <> LCrash -> l <> LExit ->
    exists env rest r st, among env (t_pgm t) m w = (pass_ops n ls s' ++ rest, r, st) /\
      forall o u, In (o, u) rest -> w_jobs u = []).
  { intros N1 N2 N3. apply IH; [|exact M]. exact (step_keeps _ _ _ _ _ S T M N1 N2 N3). }
  destruct l as [c|k|k| | | | | | | | | | | | |]; try exact STOP; try (apply KEEP; discriminate).
  destruct (Nat.eqb k n) eqn:EN.
  2:{ apply KEEP; try discriminate. intros X. injection X as ->. rewrite PeanoNat.Nat.eqb_refl in EN. discriminate. }
  apply PeanoNat.Nat.eqb_eq in EN. subst k. rewrite T. cbn [step] in S. rewrite T in S. unfold step_thread in S.
  destruct (t_pgm t) as [a|e|o k] eqn:P; [exact STOP|exact STOP|].
  destruct (exec o (s_world s)) as [r0 w0] eqn:X. injection S as <-.
  set (t1 := mkThread (t_kind t) (k r0) (t_done t)).
  destruct (IH (mkSys w0 (set_nth n t1 (s_threads s)) (s_run s)) t1 (S m) w0) as (env & rest & r & st & E & R).
  { cbn. exact (nth_set_nth_eq _ _ _ _ T). }
  { exact M. }
  set (env' := fun (j : nat) u => if Nat.eqb j m then s_world s else env j u).
  exists env', rest, r, st. split; [|exact R].
  cbn [among]. assert (E0 : env' m w = s_world s) by (unfold env'; rewrite PeanoNat.Nat.eqb_refl; reflexivity).
  rewrite E0, X. cbn [fst snd].
  rewrite (among_ext _ env' env).
  - cbn [t1 t_pgm] in E. rewrite E. reflexivity.
  - intros j u L. unfold env'. destruct (Nat.eqb j m) eqn:J; [apply PeanoNat.Nat.eqb_eq in J; lia|reflexivity].
Qed.

Lemma sorted_app : forall (a b : list Z), StronglySorted Z.lt (a ++ b) ->
  StronglySorted Z.lt a /\ forall x y, In x a -> In y b -> x < y.
Proof.
  intros a b. induction a as [|z a IH]; intros H; [split; [constructor|intros ? ? []]|].
  cbn [app] in H. apply StronglySorted_inv in H as [H F]. destruct (IH H) as [A B]. rewrite Forall_forall in F.
  split.
  - constructor; [exact A|]. apply Forall_forall. intros y Y. apply F. apply in_or_app. left. exact Y.
  - intros x y [<-|X] Y; [apply F; apply in_or_app; right; exact Y|exact (B x y X Y)].
Qed.

(** The worlds in [pass_ops] are worlds of the execution. *)
Lemma pass_moment : forall n ls s o u, In (o, u) (pass_ops n ls s) ->
  exists ls1 ls2 s1, ls = ls1 ++ ls2 /\ runs ls1 s = Some s1 /\ u = s_world s1.
Proof.
  intros n ls. induction ls as [|l ls IH]; intros s o u H; [destruct H|].
  cbn [pass_ops] in H. destruct (step l s) as [s'|] eqn:S; [|destruct H].
  assert (K : In (o, u) (pass_ops n ls s') -> exists ls1 ls2 s1, l :: ls = ls1 ++ ls2 /\ runs ls1 s = Some s1 /\ u = s_world s1).
  { intros X. destruct (IH _ _ _ X) as (a & b & s1 & -> & R & U). exists (l :: a), b, s1.
    split; [reflexivity|]. split; [cbn; rewrite S; exact R|exact U]. }
  destruct l as [c|k|k| | | | | | | | | | | | |]; try (exact (K H)); try (destruct H; fail).
  destruct (Nat.eqb k n); [|exact (K H)].
  destruct (nth_error (s_threads s) n) as [t|]; [|destruct H]. destruct (t_pgm t); try (destruct H; fail).
  destruct H as [H|H]; [|exact (K H)]. injection H as _ <-.
  exists [], (LStep k :: ls), s. repeat split.
Qed.
