(** * SetupProofs: lemmas about SetupModel *)
From Coq Require Import List String ZArith Bool Lia.
From Verif Require Import Base BaseFacts Prog ProgFacts SetupModel.
Import ListNotations.
Open Scope string_scope.
Open Scope prog_scope.

Lemma look_put_same t p n : look (put t p n) p = Some n.
Proof. cbn. destruct (path_eq p p); congruence. Qed.
Lemma look_put_other t p q n : q <> p -> look (put t p n) q = look t q.
Proof. intros N. cbn. destruct (path_eq p q); congruence. Qed.
Lemma node_put_same t p n : p <> [] -> node_at (put t p n) p = Some n.
Proof. destruct p; [congruence|]. intros _. apply look_put_same. Qed.
Lemma node_put_other t p q n : q <> p -> node_at (put t p n) q = node_at t q.
Proof. intros N. destruct q; [reflexivity|]. apply look_put_other. exact N. Qed.

(** Everything of [t0] is in [t]. *)
Definition grown (t0 t : tree) : Prop := forall p n, node_at t0 p = Some n -> node_at t p = Some n.
Lemma grown_refl t : grown t t.
Proof. intros p n H. exact H. Qed.
Lemma grown_put t0 t p n : grown t0 t -> node_at t0 p = None -> grown t0 (put t p n).
Proof.
  intros G N q m H. rewrite node_put_other; [apply G; exact H|]. congruence.
Qed.
Lemma mkdirs_grown : forall todo t done t', mkdirs t done todo = Ok t' -> grown t t'.
Proof.
  induction todo as [|c r IH]; intros t done t' H; cbn in H.
  - injection H as <-. apply grown_refl.
  - destruct (node_at t (done ++ [c])%list) as [[]|] eqn:E; try discriminate H.
    + exact (IH _ _ _ H).
    + intros p n Hp. apply (IH _ _ _ H). apply (grown_put t t); [apply grown_refl | exact E | exact Hp].
Qed.
Lemma mkdirs_exists : forall todo t done t', node_at t done = Some NDir -> mkdirs t done todo = Ok t' ->
  node_at t' (done ++ todo)%list = Some NDir.
Proof.
  induction todo as [|c r IH]; intros t done t' D H; cbn in H.
  - injection H as <-. rewrite app_nil_r. exact D.
  - assert (S : (done ++ c :: r = (done ++ [c]) ++ r)%list) by (rewrite <- app_assoc; reflexivity). rewrite S.
    destruct (node_at t (done ++ [c])%list) as [[]|] eqn:E; try discriminate H.
    + exact (IH _ _ _ E H).
    + refine (IH _ _ _ _ H). apply node_put_same. intros X. apply app_eq_nil in X as [_ X]. discriminate X.
Qed.

(** ** Programs that keep all of [t0] at every moment *)
Definition inv (t0 : tree) (h : host) : Prop := grown t0 (h_tree h).
Definition saf (t0 : tree) {A} (p : spgm A) : Prop := forall h n, inv t0 h -> inv t0 (snd (cut n p h)).

Lemma cut_bind {A B} (p : spgm A) (f : A -> spgm B) : forall n h,
  snd (cut n (bind p f) h) = snd (cut n p h)
  \/ exists a k m, cut k p h = (Ret a, snd (cut k p h)) /\ snd (cut n (bind p f) h) = snd (cut m (f a) (snd (cut k p h))).
Proof.
  induction p as [a|e|o k IH]; intros n h.
  - right. exists a, 0%nat, n. split; reflexivity.
  - left. destruct n; reflexivity.
  - destruct n as [|n]; [left; reflexivity|]. cbn [cut bind]. destruct (sexec o h) as [r h'] eqn:E.
    destruct (IH r n h') as [->|(a & j & m & E1 & E2)]; [left; reflexivity|].
    right. exists a, (S j), m. cbn [cut]. rewrite E. split; assumption.
Qed.
Lemma saf_ret t0 {A} (a : A) : saf t0 (Ret a).
Proof. intros h [|n] I; exact I. Qed.
Lemma saf_raise t0 {A} e : saf t0 (Raise e : spgm A).
Proof. intros h [|n] I; exact I. Qed.
Lemma saf_bind t0 {A B} (p : spgm A) (f : A -> spgm B) : saf t0 p -> (forall a, saf t0 (f a)) -> saf t0 (bind p f).
Proof.
  intros P F h n I. destruct (cut_bind p f n h) as [->|(a & k & m & _ & ->)]; [apply P; exact I|].
  apply F. apply P. exact I.
Qed.
Lemma saf_op t0 o : (forall h, inv t0 h -> inv t0 (snd (sexec o h))) -> saf t0 (sact o).
Proof.
  intros H h [|n] I; [exact I|]. cbn [cut sact do]. specialize (H h I). destruct (sexec o h) as [r h'].
  destruct r, n; exact H.
Qed.
Lemma saf_exists t0 p : saf t0 (sact (UExists p)).
Proof. apply saf_op. intros h I. exact I. Qed.
Lemma saf_version t0 p : saf t0 (sact (UVersion p)).
Proof. apply saf_op. intros h I. cbn. destruct (db_at (h_tree h) p); exact I. Qed.
Lemma saf_makedirs t0 p : saf t0 (sact (UMakedirs p)).
Proof.
  apply saf_op. intros h I. cbn. destruct (mkdirs (h_tree h) [] p) as [t|] eqn:E; [|exact I].
  intros q n H. apply (mkdirs_grown _ _ _ _ E). apply I. exact H.
Qed.
Lemma saf_open t0 p : node_at t0 p = None -> saf t0 (sact (UOpen p)).
Proof.
  intros N. apply saf_op. intros h I. cbn. destruct (node_at (h_tree h) p) as [[]|]; try exact I.
  - apply grown_put; assumption.
  - apply grown_put; assumption.
  - destruct (node_at (h_tree h) (removelast p)) as [[]|]; try exact I. apply grown_put; assumption.
Qed.
Lemma saf_write t0 p c : node_at t0 p = None -> saf t0 (sact (UWrite p c)).
Proof. intros N. apply saf_op. intros h I. apply grown_put; assumption. Qed.
Lemma saf_queue t0 p : node_at t0 p = None -> saf t0 (sact (UQueue p)).
Proof. intros N. apply saf_op. intros h I. cbn. destruct (db_at (h_tree h) p); [|exact I]. apply grown_put; assumption. Qed.
Lemma saf_sql t0 p s : node_at t0 p = None -> saf t0 (sact (USql p s)).
Proof.
  intros N. apply saf_op. intros h I. cbn. destruct (db_at (h_tree h) p); [|exact I].
  destruct (sql s a); [|exact I]. apply grown_put; assumption.
Qed.
Lemma saf_assert t0 b : saf t0 (assertP b).
Proof. destruct b; [apply saf_ret | apply saf_raise]. Qed.
Lemma saf_connect t0 p : saf t0 (connect_db p).
Proof.
  apply saf_bind; [apply saf_exists|]. intros [|]; [apply saf_ret | apply saf_makedirs].
Qed.
Lemma saf_upgrade t0 p : node_at t0 p = None -> forall f v, saf t0 (upgrade f p v).
Proof.
  intros N. induction f as [|f IH]; intros v; [apply saf_raise|]. cbn [upgrade].
  destruct (v <? 3)%Z; [|apply saf_ret].
  apply saf_bind; [|intros _; apply saf_bind; [|intros _; apply saf_bind; [apply saf_version | exact IH]]].
  - destruct (v =? 1)%Z; [|apply saf_ret]. repeat (apply saf_bind; [apply saf_sql; exact N | intros _]). apply saf_sql. exact N.
  - destruct (v =? 2)%Z; [|apply saf_ret]. repeat (apply saf_bind; [apply saf_sql; exact N | intros _]). apply saf_sql. exact N.
Qed.
Lemma saf_setup_db t0 p : node_at t0 p = None -> saf t0 (setup_db p).
Proof.
  intros N. apply saf_bind; [apply saf_connect|]. intros _.
  apply saf_bind; [apply saf_queue; exact N|]. intros [|].
  - apply saf_bind; [apply saf_version|]. intros v. apply saf_bind; [apply saf_assert|]. intros _. apply saf_upgrade. exact N.
  - repeat (apply saf_bind; [apply saf_sql; exact N | intros _]). apply saf_sql. exact N.
Qed.
(** What exists is left alone. *)
Lemma saf_unless t0 p q : (node_at t0 p = None -> saf t0 q) -> saf t0 (unless p q).
Proof.
  intros H h n I. unfold unless. destruct (node_at t0 p) as [m|] eqn:E.
  - destruct n as [|n]; [exact I|]. cbn [sact do bind cut sexec]. rewrite (I p m E). cbn [is_some bind].
    destruct n; exact I.
  - apply saf_bind; [apply saf_exists | | exact I]. intros [|]; [apply saf_ret | apply H; reflexivity].
Qed.
Lemma saf_init t0 a d l s1 s2 : saf t0 (init a d l s1 s2).
Proof.
  unfold init. repeat first [apply saf_bind; [|intros _] | apply saf_ret].
  all: apply saf_unless; intros N.
  - apply saf_makedirs.
  - apply saf_bind; [apply saf_open; exact N|]. intros _. apply saf_write. exact N.
  - apply saf_bind; [apply saf_open; exact N|]. intros _. apply saf_write. exact N.
  - apply saf_makedirs.
  - apply saf_makedirs.
  - apply saf_setup_db. exact N.
Qed.

(** Whole runs are cuts. *)
Lemma run_cut {A} (p : spgm A) : forall h, exists n, snd (runs p h) = snd (cut n p h).
Proof.
  unfold runs. induction p as [a|e|o k IH]; intros h.
  - exists 0%nat. reflexivity.
  - exists 0%nat. reflexivity.
  - cbn [run]. destruct (sexec o h) as [r h'] eqn:E. destruct (IH r h') as [n H]. exists (S n). cbn [cut]. rewrite E. exact H.
Qed.
Lemma saf_run t0 {A} (p : spgm A) h : saf t0 p -> inv t0 h -> inv t0 (snd (runs p h)).
Proof. intros S I. destruct (run_cut p h) as [n ->]. apply S. exact I. Qed.
