(** * ProcProofs: process trees (C127) *)
From Coq Require Import List String ZArith Bool Lia.
From Verif Require Import Base ProcModel SpecProc.
Import ListNotations.
Open Scope Z_scope.

Lemma uniq : forall t i j, NoDup (map pi_pid t) -> In i t -> In j t -> pi_pid i = pi_pid j -> i = j.
Proof.
  induction t as [|x t IH]; intros i j N I J E; [destruct I|]. cbn in N. inversion N as [|? ? N1 N2]; subst.
  destruct I as [->|I], J as [->|J]; auto.
  - exfalso. apply N1. rewrite E. now apply in_map.
  - exfalso. apply N1. rewrite <- E. now apply in_map.
Qed.
Lemma lookup_in : forall t p i, NoDup (map pi_pid t) -> lookup t p = Some i <-> In i t /\ pi_pid i = p.
Proof.
  intros t p i N. unfold lookup. split.
  - intros H. apply find_some in H as [H1 H2]. apply Z.eqb_eq in H2. auto.
  - intros [I E]. destruct (find (fun q => pi_pid q =? p) t) as [j|] eqn:F.
    + apply find_some in F as [F1 F2]. apply Z.eqb_eq in F2. f_equal. apply (uniq t); congruence.
    + exfalso. apply (find_none _ _ F) in I. apply Z.eqb_neq in I. congruence.
Qed.
Lemma in_children : forall t p i, In i (children t p) <-> In i t /\ pi_parent i = Some p.
Proof.
  intros t p i. unfold children. rewrite filter_In. destruct (pi_parent i) as [x|].
  - rewrite Z.eqb_eq. intuition congruence.
  - intuition congruence.
Qed.
Lemma children_child : forall t p q, In q (map pi_pid (children t p)) <-> child t p q.
Proof.
  intros t p q. rewrite in_map_iff. unfold child. split.
  - intros (i & E & I). apply in_children in I as [I P]. eauto.
  - intros (i & I & E & P). exists i. split; [exact E|]. apply in_children. auto.
Qed.
Lemma child_fun : forall t p p' q, NoDup (map pi_pid t) -> child t p q -> child t p' q -> p = p'.
Proof.
  intros t p p' q N (i & I & E & P) (j & J & F & Q). assert (i = j) by (apply (uniq t); congruence). congruence.
Qed.
Lemma below_present : forall t p q, below t p q -> present t q.
Proof. intros t p q [r (i & I & E & _)|r x _ (i & I & E & _)]; unfold present; rewrite <- E; now apply in_map. Qed.
Lemma below_trans : forall t p q r, below t p q -> below t q r -> below t p r.
Proof. intros t p q r A B. induction B; eapply below_more; eauto. Qed.
Lemma below_age : forall t age p q, (forall i p, In i t -> pi_parent i = Some p -> (age p < age (pi_pid i))%nat) ->
  below t p q -> (age p < age q)%nat.
Proof.
  intros t age p q A B. induction B as [q (i & I & E & P)|q r B IH (i & I & E & P)]; pose proof (A i _ I P); subst; lia.
Qed.
Lemma below_irrefl : forall t p, proc_table t -> ~ below t p p.
Proof. intros t p (_ & age & A) B. pose proof (below_age t age p p A B). lia. Qed.

(** Ancestors of one process are on one line. *)
Lemma below_line : forall t a b q, NoDup (map pi_pid t) -> below t a q -> below t b q -> a = b \/ below t a b \/ below t b a.
Proof.
  intros t a b q N A. revert b. induction A as [q C|q r A IH C]; intros b B; inversion B as [q' C'|q' r' B' C']; subst.
  - left. exact (child_fun _ _ _ _ N C C').
  - rewrite <- (child_fun _ _ _ _ N C C') in B'. auto.
  - rewrite <- (child_fun _ _ _ _ N C C'). auto.
  - rewrite <- (child_fun _ _ _ _ N C C') in B'. auto.
Qed.

Definition older (age : Z -> nat) (n : nat) (t : list pinfo) : nat :=
  List.length (filter (fun i => Nat.ltb (age (pi_pid i)) n) t).
Lemma older_mono : forall age n m t, (n <= m)%nat -> (older age n t <= older age m t)%nat.
Proof.
  intros age n m t L. unfold older. induction t as [|x t IH]; cbn [filter List.length]; [lia|].
  destruct (Nat.ltb_spec (age (pi_pid x)) n), (Nat.ltb_spec (age (pi_pid x)) m); cbn [List.length]; lia.
Qed.
Lemma older_less : forall age m t i, In i t -> (age (pi_pid i) < m)%nat -> (older age (age (pi_pid i)) t < older age m t)%nat.
Proof.
  intros age m t i I L. induction t as [|x t IH]; [destruct I|].
  pose proof (older_mono age (age (pi_pid i)) m t ltac:(lia)) as M. unfold older in *. cbn [filter].
  destruct I as [->|I].
  - destruct (Nat.ltb_spec (age (pi_pid i)) (age (pi_pid i))), (Nat.ltb_spec (age (pi_pid i)) m); cbn [List.length]; lia.
  - specialize (IH I). destruct (Nat.ltb_spec (age (pi_pid x)) (age (pi_pid i))), (Nat.ltb_spec (age (pi_pid x)) m); cbn [List.length]; lia.
Qed.

Lemma climb : forall t age exe, NoDup (map pi_pid t) ->
  (forall i p, In i t -> pi_parent i = Some p -> (age p < age (pi_pid i))%nat) ->
  forall f p, (older age (age p) t <= f)%nat ->
  match find (fun q => String.eqb (pi_name q) exe) (parents f t p) with
  | Some r => named t (pi_pid r) exe /\ below t (pi_pid r) p /\
      forall a, below t a p -> named t a exe -> a = pi_pid r \/ below t a (pi_pid r)
  | None => forall a, below t a p -> ~ named t a exe
  end.
Proof.
  intros t age exe N A f. induction f as [|f IH]; intros p L; cbn [parents find].
  { intros a B (i & I & E & _). pose proof (below_age t age a p A B) as X.
    subst a. pose proof (older_less age (age p) t i I X). lia. }
  unfold parent_of. destruct (lookup t p) as [i|] eqn:LP.
  2:{ intros a B _. apply below_present in B. unfold present in B. apply in_map_iff in B as (i & E & I).
      assert (lookup t p = Some i) by (apply lookup_in; auto). congruence. }
  apply (lookup_in _ _ _ N) in LP as [I E].
  destruct (pi_parent i) as [x|] eqn:PI.
  2:{ cbn. intros a B _. assert (exists y, child t y p) as (y & j & J & F & Q) by (destruct B; eauto).
      assert (i = j) by (apply (uniq t); congruence). congruence. }
  assert (CX : child t x p) by (exists i; auto).
  destruct (lookup t x) as [q|] eqn:LX.
  2:{ cbn. intros a B NA. assert (present t x) as X.
      { inversion B as [? C|y ? B' C]; subst.
        - rewrite (child_fun _ _ _ _ N CX C). destruct NA as (j & J & F & _). unfold present. rewrite <- F. now apply in_map.
        - rewrite (child_fun _ _ _ _ N CX C). exact (below_present _ _ _ B'). }
      unfold present in X. apply in_map_iff in X as (j & F & J).
      assert (lookup t x = Some j) by (apply lookup_in; auto). congruence. }
  apply (lookup_in _ _ _ N) in LX as [Q EQ]. cbn [find].
  assert (UP : forall a, below t a p -> a = x \/ below t a x).
  { intros a B. inversion B as [? C|y ? B' C]; subst.
    - left. exact (child_fun _ _ _ _ N C CX).
    - right. rewrite (child_fun _ _ _ _ N CX C). exact B'. }
  destruct (String.eqb_spec (pi_name q) exe) as [NE|NE].
  - split; [exists q; auto|]. split; [rewrite EQ; constructor; exact CX|].
    intros a B _. rewrite EQ. exact (UP a B).
  - assert (L' : (older age (age (pi_pid q)) t <= f)%nat).
    { pose proof (A i x I PI) as X. rewrite E in X. rewrite <- EQ in X. pose proof (older_less age (age p) t q Q X). lia. }
    assert (NX : ~ named t x exe).
    { intros (j & J & F & G). assert (j = q) by (apply (uniq t); congruence). congruence. }
    specialize (IH (pi_pid q) L'). rewrite EQ in IH |- *.
    destruct (find (fun q => String.eqb (pi_name q) exe) (parents f t x)) as [r|].
    + destruct IH as (I1 & I2 & I3). split; [exact I1|]. split; [eapply below_more; [exact I2|exact CX]|].
      intros a B NA. destruct (UP a B) as [->|B']; [contradiction|auto].
    + intros a B NA. destruct (UP a B) as [->|B']; [contradiction|]. exact (IH a B' NA).
Qed.

Lemma older_all : forall age n t, (older age n t <= List.length t)%nat.
Proof. intros age n t. unfold older. induction t as [|x t IH]; cbn [filter List.length]; [lia|].
  destruct (Nat.ltb (age (pi_pid x)) n); cbn [List.length]; lia. Qed.

Lemma kill_windows : forall t p q, NoDup (map pi_pid t) -> In q (kill_job_signals Windows t p) <->
  exists c, child t p c /\ ~ named t c "conhost.exe" /\ child t c q.
Proof.
  intros t p q N. unfold kill_job_signals. rewrite in_map_iff. split.
  - intros (i & E & I). apply in_flat_map in I as (c & C & I). apply filter_In in C as [C NC].
    apply in_children in C as [C PC]. apply in_children in I as [I PI]. exists (pi_pid c).
    split; [exists c; auto|]. split; [|exists i; auto].
    intros (j & J & F & G). assert (j = c) by (apply (uniq t); congruence). subst j. rewrite G in NC. discriminate.
  - intros (c & (i & I & E & P) & NC & (j & J & F & Q)). exists j. split; [exact F|]. apply in_flat_map. exists i.
    split; [|apply in_children; subst; auto]. apply filter_In. split; [apply in_children; auto|].
    destruct (String.eqb_spec (pi_name i) "conhost.exe") as [X|X]; [|reflexivity]. exfalso. apply NC. exists i. auto.
Qed.
