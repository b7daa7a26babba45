(** * LppProofs: proofs about the retrying request channel (C42, C43) *)
From Coq Require Import List ZArith Bool Lia.
From Verif Require Import Base Prog ProgFacts LppModel.
Import ListNotations.
Open Scope Z_scope.

Section Facts.
  Context {A : Type} (srv : server A).

  Definition hits (s : nat) (n : nat) : nat :=
    List.length (filter (fun k => fst (srv k)) (seq s n)).
  Lemma hits_S s n : hits s (S n) = ((if fst (srv s) then 1 else 0) + hits (S s) n)%nat.
  Proof. unfold hits. cbn. destruct (fst (srv s)); reflexivity. Qed.
  Lemma hits_le s n : (hits s n <= n)%nat.
  Proof.
    unfold hits. revert s. induction n as [|n IH]; intros s; cbn; [lia|]. specialize (IH (S s)).
    destruct (fst (srv s)); cbn; lia.
  Qed.
  Lemma hits_0 s : hits s 0 = 0%nat.
  Proof. reflexivity. Qed.
End Facts.
Arguments hits {A} srv s n : simpl never.

(** The loop, entered after the request number [s] was sent. *)
Lemma loop_answer {A} (srv : server A) a : forall i f r s e,
  (forall k, (k < i)%nat -> snd (srv (s + k)%nat) = None) ->
  snd (srv (s + i)%nat) = Some a -> (Z.of_nat i < r) -> (i < f)%nat ->
  run (nexec srv) (comm_loop f r) (mkNet Awaiting (S s) e) =
    (Ok (Answer a), mkNet Fresh (s + i + 1)%nat (e + hits srv (S s) i)).
Proof.
  induction i as [|i IH]; intros f r s e Hn Ha Hr Hf; destruct f as [|f]; try lia.
  - cbn [comm_loop]. unfold nact. rewrite run_bind, run_do. cbn. rewrite Nat.add_0_r in Ha. rewrite Ha. cbn.
    rewrite Ha. cbn. unfold hits. cbn. f_equal; f_equal; lia.
  - cbn [comm_loop]. unfold nact. rewrite run_bind, run_do. cbn.
    pose proof (Hn O ltac:(lia)) as H0. rewrite Nat.add_0_r in H0. rewrite H0. cbn.
    destruct (Z.eqb_spec (r - 1) 0); [lia|]. cbn.
    rewrite IH.
    + rewrite hits_S. destruct (fst (srv (S s))); f_equal; f_equal; lia.
    + intros k Hk. replace (S s + k)%nat with (s + S k)%nat by lia. apply Hn. lia.
    + replace (S s + i)%nat with (s + S i)%nat by lia. exact Ha.
    + lia.
    + lia.
Qed.

Lemma loop_silent {A} (srv : server A) : forall n f s e,
  (forall k, (k <= n)%nat -> snd (srv (s + k)%nat) = None) -> (n < f)%nat ->
  run (nexec srv) (comm_loop f (Z.of_nat (S n))) (mkNet Awaiting (S s) e) =
    (Ok Offline, mkNet Closed (s + n + 1)%nat (e + hits srv (S s) n)).
Proof.
  induction n as [|n IH]; intros f s e Hn Hf; destruct f as [|f]; try lia.
  - cbn [comm_loop]. unfold nact. rewrite run_bind, run_do. cbn.
    pose proof (Hn O ltac:(lia)) as H0. rewrite Nat.add_0_r in H0. rewrite H0. cbn.
    unfold hits. cbn. f_equal; f_equal; lia.
  - cbn [comm_loop]. unfold nact. rewrite run_bind, run_do. cbn -[Z.of_nat].
    pose proof (Hn O ltac:(lia)) as H0. rewrite Nat.add_0_r in H0. rewrite H0. cbn -[Z.of_nat].
    destruct (Z.eqb_spec (Z.of_nat (S (S n)) - 1) 0); [lia|].
    replace (Z.of_nat (S (S n)) - 1) with (Z.of_nat (S n)) by lia. cbn -[Z.of_nat].
    rewrite IH.
    + rewrite hits_S. destruct (fst (srv (S s))); f_equal; f_equal; lia.
    + intros k Hk. replace (S s + k)%nat with (s + S k)%nat by lia. apply Hn. lia.
    + lia.
Qed.

Lemma first_answer {A} (srv : server A) s : forall n,
  (forall k, (k < n)%nat -> snd (srv (s + k)%nat) = None) \/
  (exists i a, (i < n)%nat /\ snd (srv (s + i)%nat) = Some a /\
     forall k, (k < i)%nat -> snd (srv (s + k)%nat) = None).
Proof.
  induction n as [|n [IH|IH]].
  - left. intros k Hk. lia.
  - destruct (snd (srv (s + n)%nat)) as [a|] eqn:E.
    + right. exists n, a. split; [lia|]. auto.
    + left. intros k Hk. destruct (Nat.eq_dec k n) as [->|]; [exact E|]. apply IH. lia.
  - destruct IH as (i & a & Hi & Ha & Hn). right. exists i, a. split; [lia|]. auto.
Qed.

Lemma comm_spec {A} (srv : server A) n f s e : (1 <= n)%nat -> (n <= f)%nat ->
  (exists i a, (i < n)%nat /\ snd (srv (s + i)%nat) = Some a /\
     (forall k, (k < i)%nat -> snd (srv (s + k)%nat) = None) /\
     run (nexec srv) (comm f (Z.of_nat n)) (mkNet Fresh s e) =
       (Ok (Answer a), mkNet Fresh (s + S i)%nat (e + hits srv s (S i)))) \/
  ((forall k, (k < n)%nat -> snd (srv (s + k)%nat) = None) /\
   run (nexec srv) (comm f (Z.of_nat n)) (mkNet Fresh s e) =
     (Ok Offline, mkNet Closed (s + n)%nat (e + hits srv s n))).
Proof.
  intros Hn Hf. unfold comm, nact. rewrite run_bind, run_do. cbn -[comm_loop].
  destruct (first_answer srv s n) as [H|(i & a & Hi & Ha & H)].
  - right. split; [exact H|]. destruct n as [|n]; [lia|].
    rewrite loop_silent; [|intros k Hk; apply H; lia|lia].
    rewrite hits_S. destruct (fst (srv s)); f_equal; f_equal; lia.
  - left. exists i, a. split; [exact Hi|]. split; [exact Ha|]. split; [exact H|].
    rewrite loop_answer with (i := i) (a := a); auto; [|lia|lia].
    rewrite hits_S. destruct (fst (srv s)); f_equal; f_equal; lia.
Qed.

(** With a retry count below one the loop does not give up. *)
Lemma loop_forever {A} (srv : server A) : (forall k, snd (srv k) = None) -> forall f r s e, r <= 0 ->
  exists e', run (nexec srv) (comm_loop f r) (mkNet Awaiting (S s) e) =
    (Err OutOfFuel, mkNet Awaiting (S s + f)%nat e').
Proof.
  intros Hs. induction f as [|f IH]; intros r s e Hr.
  - exists e. cbn. f_equal; f_equal; lia.
  - cbn [comm_loop]. unfold nact. rewrite run_bind, run_do. cbn. rewrite Hs. cbn.
    destruct (Z.eqb_spec (r - 1) 0); [lia|]. cbn.
    destruct (IH (r - 1) (S s) (if fst (srv (S s)) then S e else e) ltac:(lia)) as [e' E].
    exists e'. rewrite E. f_equal; f_equal; lia.
Qed.

Lemma C42_lemma {A} (srv : server A) n f s e : (1 <= n)%nat -> (n <= f)%nat ->
  exists x w', run (nexec srv) (comm f (Z.of_nat n)) (mkNet Fresh s e) = (Ok x, w') /\
    (n_sent w' - s <= n)%nat /\ (s <= n_sent w')%nat /\
    (forall a, x = Answer a <->
       exists i, (i < n)%nat /\ snd (srv (s + i)%nat) = Some a /\ n_sent w' = (s + i + 1)%nat /\
         forall k, (k < i)%nat -> snd (srv (s + k)%nat) = None) /\
    (x = Offline <-> forall k, (k < n)%nat -> snd (srv (s + k)%nat) = None) /\
    (n_sock w' <> Closed <-> exists a, x = Answer a).
Proof.
  intros Hn Hf. destruct (comm_spec srv n f s e Hn Hf) as [(i & a & Hi & Ha & H & E)|(H & E)].
  - exists (Answer a). eexists. split; [exact E|]. cbn. split; [lia|]. split; [lia|]. split; [|split].
    + intros b. split.
      * intros X. injection X as <-. exists i. repeat split; auto; lia.
      * intros (j & Hj & Hb & Hs & _). assert (j = i) by lia. subst j. congruence.
    + split; [discriminate|]. intros X. rewrite (X i Hi) in Ha. discriminate.
    + split; [eauto|discriminate].
  - exists Offline. eexists. split; [exact E|]. cbn. split; [lia|]. split; [lia|]. split; [|split].
    + intros b. split; [discriminate|]. intros (j & Hj & Hb & _). rewrite (H j Hj) in Hb. discriminate.
    + split; auto.
    + split; [intros X; contradiction|intros [a X]; discriminate].
Qed.

Lemma C42_unbounded_lemma {A} (srv : server A) : (forall k, snd (srv k) = None) -> forall f r s e, r <= 0 ->
  exists w', run (nexec srv) (comm f r) (mkNet Fresh s e) = (Err OutOfFuel, w') /\ n_sent w' = (s + f + 1)%nat.
Proof.
  intros Hs f r s e Hr. unfold comm, nact. rewrite run_bind, run_do. cbn -[comm_loop].
  destruct (loop_forever srv Hs f r s (if fst (srv s) then S e else e) Hr) as [e' E].
  rewrite E. eexists. split; [reflexivity|]. cbn. lia.
Qed.

Lemma hits_none {A} (srv : server A) : forall n s,
  (forall k, (k < n)%nat -> fst (srv (s + k)%nat) = false) -> hits srv s n = 0%nat.
Proof.
  induction n as [|n IH]; intros s H; [reflexivity|]. rewrite hits_S.
  pose proof (H O ltac:(lia)) as H0. rewrite Nat.add_0_r in H0. rewrite H0. cbn. apply IH.
  intros k Hk. replace (S s + k)%nat with (s + S k)%nat by lia. apply H. lia.
Qed.
Lemma hits_app {A} (srv : server A) : forall n m s, hits srv s (n + m) = (hits srv s n + hits srv (s + n) m)%nat.
Proof.
  intros n m s. unfold hits. rewrite seq_app, filter_app, app_length. reflexivity.
Qed.

Lemma C43_lemma {A} (srv : server A) n f s e : (1 <= n)%nat -> (n <= f)%nat ->
  exists x w', run (nexec srv) (comm f (Z.of_nat n)) (mkNet Fresh s e) = (Ok x, w') /\
    (n_execs w' - e <= n)%nat /\
    ((forall k, snd (srv k) = None -> fst (srv k) = false) -> (n_execs w' - e <= 1)%nat).
Proof.
  intros Hn Hf. destruct (comm_spec srv n f s e Hn Hf) as [(i & a & Hi & Ha & H & E)|(H & E)].
  - exists (Answer a). eexists. split; [exact E|]. cbn [n_execs].
    pose proof (hits_le srv s (S i)). split; [lia|]. intros X.
    replace (S i) with (i + 1)%nat by lia. rewrite hits_app, (hits_none srv i s).
    + pose proof (hits_le srv (s + i) 1). lia.
    + intros k Hk. apply X. auto.
  - exists Offline. eexists. split; [exact E|]. cbn [n_execs].
    pose proof (hits_le srv s n). split; [lia|]. intros X. rewrite (hits_none srv n s); [lia|].
    intros k Hk. apply X. auto.
Qed.
