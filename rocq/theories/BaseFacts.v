(** * BaseFacts: lemmas about the base definitions *)
From Coq Require Import List String ZArith Bool Lia.
From Verif Require Import Base.
Import ListNotations.

Lemma is_some_true {A} (o : option A) : is_some o = true <-> exists a, o = Some a.
Proof. destruct o; simpl; split; intros; eauto; try discriminate. destruct H; discriminate. Qed.

Lemma is_some_false {A} (o : option A) : is_some o = false <-> o = None.
Proof. destruct o; simpl; split; intros; congruence. Qed.

(** ** foldM *)
Lemma foldM_app {S A} (f : S -> A -> res S) s l1 l2 :
  foldM f s (l1 ++ l2) =
  match foldM f s l1 with Ok s' => foldM f s' l2 | Err e => Err e end.
Proof.
  revert s; induction l1 as [|a l1 IH]; simpl; intros s; auto.
  destruct (f s a); auto.
Qed.

Lemma foldM_inv {S A} (f : S -> A -> res S) (I : S -> Prop) l : forall s s',
  I s ->
  (forall a s1 s2, In a l -> I s1 -> f s1 a = Ok s2 -> I s2) ->
  foldM f s l = Ok s' -> I s'.
Proof.
  induction l as [|a l IH]; simpl; intros s s' Hs Hstep H.
  - congruence.
  - destruct (f s a) as [s1|] eqn:E; [|discriminate].
    apply (IH s1 s'); auto. apply (Hstep a s s1); auto.
    intros a0 s2 s3 Hin; apply Hstep; auto.
Qed.

(** Prefix invariant: [I] relates the consumed prefix to the state. *)
Lemma foldM_prefix {S A} (f : S -> A -> res S) (I : list A -> S -> Prop) l : forall s s',
  I [] s ->
  (forall l1 a l2 s1 s2, l = l1 ++ a :: l2 -> I l1 s1 -> f s1 a = Ok s2 -> I (l1 ++ [a]) s2) ->
  foldM f s l = Ok s' -> I l s'.
Proof.
  intros s s' H0 Hstep H.
  assert (G : forall l2 l1 s1, l = l1 ++ l2 -> I l1 s1 -> foldM f s1 l2 = Ok s' -> I l s').
  { induction l2 as [|a l2 IH]; intros l1 s1 E Hi Hf; simpl in Hf.
    - rewrite app_nil_r in E. congruence.
    - destruct (f s1 a) as [s2|] eqn:Ef; [|discriminate].
      apply (IH (l1 ++ [a]) s2); auto.
      + rewrite <- app_assoc. auto.
      + eapply Hstep; eauto. }
  apply (G l [] s); auto.
Qed.

Lemma foldM_ok_iff {S A} (f : S -> A -> res S) (P : A -> Prop) l :
  (forall s a, In a l -> (exists s', f s a = Ok s') <-> P a) ->
  forall s, (exists s', foldM f s l = Ok s') <-> Forall P l.
Proof.
  induction l as [|a l IH]; intros H s; simpl.
  - split; eauto.
  - split.
    + intros [s' E]. destruct (f s a) as [s1|] eqn:Ea; [|discriminate].
      constructor. apply (H s a); simpl; eauto.
      apply (IH (fun s a Ha => H s a (or_intror Ha)) s1). eauto.
    + intros F. inversion F as [|? ? Pa Pl]; subst.
      apply (H s a) in Pa; simpl; auto. destruct Pa as [s1 E]. rewrite E.
      apply IH; auto. intros; apply H; simpl; auto.
Qed.

(** ** dict *)
Section Dict.
  Context {V : Type}.
  Implicit Types d : dict V.

  Lemma dget_dset_same d k v : dget (dset d k v) k = Some v.
  Proof.
    induction d as [|[k' v'] d IH]; simpl.
    - now rewrite String.eqb_refl.
    - destruct (String.eqb k k') eqn:E; simpl.
      + now rewrite String.eqb_refl.
      + now rewrite E.
  Qed.

  Lemma dget_dset_other d k k' v : k' <> k -> dget (dset d k v) k' = dget d k'.
  Proof.
    intros Hk. induction d as [|[k1 v1] d IH]; simpl.
    - destruct (String.eqb_spec k' k); congruence.
    - destruct (String.eqb_spec k k1); simpl.
      + subst. destruct (String.eqb_spec k' k1); congruence.
      + destruct (String.eqb_spec k' k1); auto.
  Qed.

  Lemma dget_dset d k k' v :
    dget (dset d k v) k' = if String.eqb k' k then Some v else dget d k'.
  Proof.
    destruct (String.eqb_spec k' k); subst.
    - apply dget_dset_same.
    - now apply dget_dset_other.
  Qed.

  Lemma dkeys_dset_in d k v x : In x (dkeys (dset d k v)) <-> x = k \/ In x (dkeys d).
  Proof.
    induction d as [|[k1 v1] d IH]; simpl.
    - intuition.
    - destruct (String.eqb_spec k k1); simpl.
      + subst. intuition.
      + rewrite IH. intuition.
  Qed.

  Lemma NoDup_dset d k v : NoDup (dkeys d) -> NoDup (dkeys (dset d k v)).
  Proof.
    induction d as [|[k1 v1] d IH]; simpl; intros H.
    - constructor; auto.
    - inversion H as [|? ? Hn Hd]; subst.
      destruct (String.eqb_spec k k1); simpl.
      + subst. constructor; auto.
      + constructor; auto. rewrite dkeys_dset_in. intros [E|E]; congruence.
  Qed.

  Lemma dget_In d k v : dget d k = Some v -> In (k, v) d.
  Proof.
    induction d as [|[k1 v1] d IH]; simpl; intros H; [discriminate|].
    destruct (String.eqb_spec k k1); subst.
    - injection H as ->. auto.
    - auto.
  Qed.

  Lemma In_dget d k v : NoDup (dkeys d) -> In (k, v) d -> dget d k = Some v.
  Proof.
    induction d as [|[k1 v1] d IH]; simpl; intros Hn H; [contradiction|].
    inversion Hn as [|? ? Hni Hnd]; subst.
    destruct H as [E|H].
    - injection E as -> ->. now rewrite String.eqb_refl.
    - destruct (String.eqb_spec k k1); subst.
      + exfalso. apply Hni. apply (in_map fst) in H. exact H.
      + auto.
  Qed.

  Lemma dget_None d k : dget d k = None <-> ~ In k (dkeys d).
  Proof.
    induction d as [|[k1 v1] d IH]; simpl.
    - intuition.
    - destruct (String.eqb_spec k k1); subst.
      + split; [discriminate|]. intros H; exfalso; auto.
      + rewrite IH. split; intros H; [intros [E|E]; auto|auto].
  Qed.

  Lemma dget_Some_key d k : (exists v, dget d k = Some v) <-> In k (dkeys d).
  Proof.
    split.
    - intros [v H]. apply dget_In in H. apply (in_map fst) in H. exact H.
    - intros H. destruct (dget d k) eqn:E; eauto. apply dget_None in E. contradiction.
  Qed.

  Lemma dhas_true d k : dhas d k = true <-> exists v, dget d k = Some v.
  Proof. unfold dhas. apply is_some_true. Qed.

  Lemma dhas_false d k : dhas d k = false <-> dget d k = None.
  Proof. unfold dhas. apply is_some_false. Qed.

  Lemma In_dvals d v : NoDup (dkeys d) -> (In v (dvals d) <-> exists k, dget d k = Some v).
  Proof.
    intros Hn. unfold dvals. rewrite in_map_iff. split.
    - intros [[k v'] [E H]]. simpl in E; subst. exists k. apply In_dget; auto.
    - intros [k H]. exists (k, v). split; auto. now apply dget_In.
  Qed.

  Lemma ddel_keys_in d k x : NoDup (dkeys d) -> (In x (dkeys (ddel d k)) <-> x <> k /\ In x (dkeys d)).
  Proof.
    induction d as [|[k1 v1] d IH]; simpl; intros Hn.
    - intuition.
    - inversion Hn as [|? ? Hni Hnd]; subst.
      destruct (String.eqb_spec k k1); subst.
      + split; [intros H; split; auto; intros ->; contradiction|].
        intros [Hx [E|H]]; congruence.
      + simpl. rewrite IH by auto. split.
        * intros [E|[H1 H2]]; split; auto; congruence.
        * intros [H1 [E|H2]]; auto.
  Qed.

  Lemma NoDup_ddel d k : NoDup (dkeys d) -> NoDup (dkeys (ddel d k)).
  Proof.
    induction d as [|[k1 v1] d IH]; simpl; intros Hn; auto.
    inversion Hn as [|? ? Hni Hnd]; subst.
    destruct (String.eqb_spec k k1); subst; auto.
    simpl. constructor; auto. intros H. apply Hni.
    apply ddel_keys_in in H; tauto.
  Qed.

  Lemma dget_ddel d k k' : NoDup (dkeys d) ->
    dget (ddel d k) k' = if String.eqb k' k then None else dget d k'.
  Proof.
    induction d as [|[k1 v1] d IH]; simpl; intros Hn.
    - now destruct (String.eqb k' k).
    - inversion Hn as [|? ? Hni Hnd]; subst.
      destruct (String.eqb_spec k k1); subst.
      + destruct (String.eqb_spec k' k1); subst; auto.
        now apply dget_None.
      + simpl. rewrite IH by auto. destruct (String.eqb_spec k' k1); subst; auto.
        destruct (String.eqb_spec k1 k); congruence.
  Qed.

  Lemma dget_dupdate e : forall d k, NoDup (dkeys e) ->
    dget (dupdate d e) k = match dget e k with Some v => Some v | None => dget d k end.
  Proof.
    unfold dupdate. induction e as [|[k1 v1] e IH]; simpl; intros d k Hn; auto.
    inversion Hn as [|? ? Hni Hnd]; subst.
    rewrite IH by auto. rewrite dget_dset.
    destruct (String.eqb_spec k k1); subst.
    - apply dget_None in Hni. now rewrite Hni.
    - reflexivity.
  Qed.

  Lemma NoDup_dupdate e : forall d, NoDup (dkeys d) -> NoDup (dkeys (dupdate d e)).
  Proof.
    unfold dupdate. induction e as [|[k1 v1] e IH]; simpl; intros d H; auto.
    apply IH. now apply NoDup_dset.
  Qed.
End Dict.

(** ** string sets *)
Lemma mem_In x l : mem x l = true <-> In x l.
Proof.
  induction l as [|y l IH]; simpl; [split; [discriminate|contradiction]|].
  rewrite orb_true_iff, IH, String.eqb_eq. intuition.
Qed.

Lemma mem_not_In x l : mem x l = false <-> ~ In x l.
Proof.
  rewrite <- mem_In. destruct (mem x l); intuition discriminate.
Qed.

Lemma dedup_aux_In l : forall seen x,
  In x (dedup_aux seen l) <-> In x l /\ ~ In x seen.
Proof.
  induction l as [|y l IH]; simpl; intros seen x; [intuition|].
  destruct (mem y seen) eqn:E.
  - apply mem_In in E. rewrite IH. split; intros [H1 H2]; split; auto.
    destruct H1 as [->|H1]; [contradiction|auto].
  - apply mem_not_In in E. simpl. rewrite IH. simpl. split.
    + intros [->|[H1 H2]]; auto.
    + intros [[->|H1] H2]; auto.
      destruct (String.string_dec y x); subst; auto.
      right. split; auto. intros [?|?]; auto.
Qed.

Lemma dedup_aux_NoDup l : forall seen, NoDup (dedup_aux seen l).
Proof.
  induction l as [|y l IH]; simpl; intros seen; [constructor|].
  destruct (mem y seen); auto.
  constructor; auto. rewrite dedup_aux_In. simpl. intuition.
Qed.

Lemma set_of_In l x : In x (set_of l) <-> In x l.
Proof. unfold set_of. rewrite dedup_aux_In. simpl. intuition. Qed.

Lemma set_of_NoDup l : NoDup (set_of l).
Proof. apply dedup_aux_NoDup. Qed.

Lemma subset_spec a b : subset a b = true <-> forall x, In x a -> In x b.
Proof.
  unfold subset. rewrite forallb_forall. split; intros H x Hx.
  - apply mem_In, H, Hx.
  - apply mem_In. auto.
Qed.

Lemma memZ_In x l : memZ x l = true <-> In x l.
Proof.
  induction l as [|y l IH]; simpl; [split; [discriminate|contradiction]|].
  rewrite orb_true_iff, IH, Z.eqb_eq. intuition.
Qed.

Lemma memZ_not_In x l : memZ x l = false <-> ~ In x l.
Proof.
  rewrite <- memZ_In. destruct (memZ x l); intuition discriminate.
Qed.

(** ** dictionary equality *)
Lemma dict_eqb_spec {V} (veq : V -> V -> bool)
  (Hveq : forall a b, veq a b = true <-> a = b) (d e : dict V) :
  NoDup (dkeys d) -> NoDup (dkeys e) ->
  dict_eqb veq d e = true <-> (forall k, dget d k = dget e k).
Proof.
  intros Hd He. unfold dict_eqb. rewrite andb_true_iff, forallb_forall, Nat.eqb_eq.
  split.
  - intros [Hl Hf] k.
    assert (Hsub : forall k v, dget d k = Some v -> dget e k = Some v).
    { intros k0 v H. specialize (Hf (k0, v) (dget_In _ _ _ H)). simpl in Hf.
      destruct (dget e k0); [|discriminate]. apply Hveq in Hf. congruence. }
    destruct (dget d k) eqn:E.
    + symmetry. auto.
    + destruct (dget e k) eqn:E2; auto. exfalso.
      assert (Hi : incl (dkeys d) (dkeys e)).
      { intros x Hx. apply dget_Some_key in Hx as [v9 Hv]. apply dget_Some_key. eauto. }
      assert (Hlen : (List.length (dkeys e) <= List.length (dkeys d))%nat).
      { unfold dkeys. rewrite !map_length. lia. }
      assert (Hi2 : incl (dkeys e) (dkeys d)).
      { apply NoDup_length_incl; auto. }
      apply dget_None in E. apply E, Hi2, dget_Some_key. eauto.
  - intros H. split.
    + assert (Hi1 : incl (dkeys d) (dkeys e)).
      { intros x Hx. apply dget_Some_key in Hx as [v9 Hv]. apply dget_Some_key.
        rewrite H in Hv. eauto. }
      assert (Hi2 : incl (dkeys e) (dkeys d)).
      { intros x Hx. apply dget_Some_key in Hx as [v9 Hv]. apply dget_Some_key.
        rewrite <- H in Hv. eauto. }
      pose proof (NoDup_incl_length Hd Hi1) as L1.
      pose proof (NoDup_incl_length He Hi2) as L2.
      unfold dkeys in L1, L2. rewrite !map_length in *. lia.
    + intros [k v] Hin. simpl. apply In_dget in Hin; auto.
      rewrite <- H, Hin. now apply Hveq.
Qed.

(** ** lists *)
Lemma NoDup_app_snoc {A} (l : list A) x : NoDup l -> ~ In x l -> NoDup (l ++ [x]).
Proof.
  induction l as [|y l IH]; simpl; intros Hn Hx.
  - constructor; auto.
  - inversion Hn as [|? ? H1 H2]; subst. constructor.
    + rewrite in_app_iff. simpl. intros [H|[H|[]]]; [contradiction|]. subst. auto.
    + apply IH; auto.
Qed.
