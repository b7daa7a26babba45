(** * ProgFacts: lemmas about programs *)
From Coq Require Import List.
From Verif Require Import Base Prog.
Import ListNotations.

Section Facts.
  Context {op : Type} {resp : op -> Type} {W : Type}.
  Context (exec : forall o : op, W -> res (resp o) * W).
  Notation run := (run exec).

  Lemma run_bind {A B} (p : prog op resp A) (f : A -> prog op resp B) : forall w,
    run (bind p f) w =
    match run p w with
    | (Ok a, w') => run (f a) w'
    | (Err e, w') => (Err e, w')
    end.
  Proof.
    induction p as [a|e|o k IH]; intros w; cbn; auto.
    destruct (exec o w) as [r w'] eqn:E. apply IH.
  Qed.

  Lemma run_ret {A} (a : A) w : run (Ret a : prog op resp A) w = (Ok a, w).
  Proof. reflexivity. Qed.

  Lemma run_do (o : op) w : run (do o) w = exec o w.
  Proof. cbn. destruct (exec o w) as [[x|e] w']; reflexivity. Qed.

  Lemma run_lift {A} (x : res A) w : run (lift x : prog op resp A) w = (x, w).
  Proof. destruct x; reflexivity. Qed.

  Lemma run_assert b w :
    run (assertP b : prog op resp unit) w = (if b then Ok tt else Err AssertionError, w).
  Proof. destruct b; reflexivity. Qed.

  Lemma run_catch {A} (p : prog op resp A) h : forall w,
    run (catch p h) w =
    match run p w with
    | (Ok a, w') => (Ok a, w')
    | (Err e, w') => match h e with Some q => run q w' | None => (Err e, w') end
    end.
  Proof.
    induction p as [a|e|o k IH]; intros w; cbn; auto.
    - destruct (h e); reflexivity.
    - destruct (exec o w) as [r w'] eqn:E. apply IH.
  Qed.

  Lemma run_forP_nil {S A} (f : S -> A -> prog op resp S) s w : run (forP f s []) w = (Ok s, w).
  Proof. reflexivity. Qed.

  Lemma run_forP_cons {S A} (f : S -> A -> prog op resp S) s a l w :
    run (forP f s (a :: l)) w =
    match run (f s a) w with
    | (Ok s', w') => run (forP f s' l) w'
    | (Err e, w') => (Err e, w')
    end.
  Proof. cbn [forP]. apply run_bind. Qed.

  Lemma run_forP_app {S A} (f : S -> A -> prog op resp S) l1 l2 : forall s w,
    run (forP f s (l1 ++ l2)) w =
    match run (forP f s l1) w with
    | (Ok s', w') => run (forP f s' l2) w'
    | (Err e, w') => (Err e, w')
    end.
  Proof.
    induction l1 as [|a l1 IH]; intros s w; [reflexivity|].
    cbn [app]. rewrite !run_forP_cons. destruct (run (f s a) w) as [[s'|e] w']; auto.
  Qed.

  (** Invariant rule for loops: [I] is about the elements already processed. *)
  Lemma run_forP_inv {S A} (f : S -> A -> prog op resp S) (I : list A -> S -> W -> Prop) l :
    forall s w,
    I [] s w ->
    (forall pre a post s w, l = pre ++ a :: post -> I pre s w ->
       match run (f s a) w with
       | (Ok s', w') => I (pre ++ [a]) s' w'
       | (Err _, _) => True
       end) ->
    match run (forP f s l) w with
    | (Ok s', w') => I l s' w'
    | (Err _, _) => True
    end.
  Proof.
    intros s w H0 Hs.
    assert (G : forall post pre s w, l = pre ++ post -> I pre s w ->
      match run (forP f s post) w with
      | (Ok s', w') => I l s' w' | (Err _, _) => True end).
    { induction post as [|a post IH]; intros pre s1 w1 El Hi.
      - rewrite app_nil_r in El. subst. exact Hi.
      - rewrite run_forP_cons. specialize (Hs pre a post s1 w1 El Hi).
        destruct (run (f s1 a) w1) as [[s2|e] w2]; [|exact Logic.I].
        apply (IH (pre ++ [a])); [|exact Hs]. rewrite <- app_assoc. exact El. }
    exact (G l [] s w eq_refl H0).
  Qed.

  (** The same when the body also preserves something on an exception. *)
  Lemma run_forP_inv_any {S A} (f : S -> A -> prog op resp S) (J : W -> Prop) l :
    forall s w,
    J w ->
    (forall a s w, In a l -> J w -> J (snd (run (f s a) w))) ->
    J (snd (run (forP f s l) w)).
  Proof.
    induction l as [|a l IH]; intros s w H0 Hs; [exact H0|].
    rewrite run_forP_cons. pose proof (Hs a s w (or_introl eq_refl) H0) as H1.
    destruct (run (f s a) w) as [[s2|e] w2]; [|exact H1].
    apply IH; auto. intros; apply Hs; auto. now right.
  Qed.
End Facts.

(** Operations of composed programs. *)
Section AllOps.
  Context {op : Type} {resp : op -> Type}.
  Context (P : op -> Prop).

  Lemma all_ops_bind {A B} (p : prog op resp A) (f : A -> prog op resp B) :
    all_ops P p -> (forall a, all_ops P (f a)) -> all_ops P (bind p f).
  Proof.
    induction p as [a|e|o k IH]; cbn; auto. intros [Ho Hk] Hf. split; auto.
  Qed.

  Lemma all_ops_do (o : op) : P o -> all_ops (resp := resp) P (do o).
  Proof. intros H. cbn. split; auto. intros [x|e]; exact I. Qed.

  Lemma all_ops_lift {A} (x : res A) : all_ops P (lift x : prog op resp A).
  Proof. destruct x; exact I. Qed.

  Lemma all_ops_assert b : all_ops P (assertP b : prog op resp unit).
  Proof. destruct b; exact I. Qed.

  Lemma all_ops_catch {A} (p : prog op resp A) h :
    all_ops P p -> (forall e q, h e = Some q -> all_ops P q) -> all_ops P (catch p h).
  Proof.
    induction p as [a|e|o k IH]; cbn; auto.
    - intros _ H. destruct (h e) eqn:E; [eapply H; eauto|exact I].
    - intros [Ho Hk] Hf. split; auto.
  Qed.

  Lemma all_ops_forP {S A} (f : S -> A -> prog op resp S) l : forall s,
    (forall s a, all_ops P (f s a)) -> all_ops P (forP f s l).
  Proof.
    induction l as [|a l IH]; intros s H; cbn; [exact I|].
    apply all_ops_bind; auto.
  Qed.

  Lemma all_ops_forB {S A R} (f : S -> A -> prog op resp (S + R)) l : forall s,
    (forall s a, all_ops P (f s a)) -> all_ops P (forB f s l).
  Proof.
    induction l as [|a l IH]; intros s H; cbn; [exact I|].
    apply all_ops_bind; auto. intros [s'|y]; [auto|exact I].
  Qed.
End AllOps.
