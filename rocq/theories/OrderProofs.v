(** * OrderProofs: the order in which queued jobs are started (C126) *)
From Coq Require Import List String ZArith Bool Lia Sorting.Sorted Sorting.Permutation.
From Verif Require Import Base BaseFacts Types ConfigModel Prog ProgFacts World WorldFacts CmdModel JobModel
  SpecJob JobProofs SpecOrder.
Import ListNotations.
Open Scope list_scope.
Open Scope Z_scope.

Lemma among_bind : forall A B env (p : pgm A) (f : A -> pgm B) n w,
  among env (bind p f) n w =
  match among env p n w with
  | (tr, Ok a, (m, w')) => match among env (f a) m w' with (tr', r, s) => (tr ++ tr', r, s) end
  | (tr, Err e, s) => (tr, Err e, s)
  end.
Proof.
  intros A B env p f. induction p as [a|e|o k IH]; intros n w; cbn [bind among].
  - destruct (among env (f a) n w) as [[tr r] s]. reflexivity.
  - reflexivity.
  - rewrite IH. destruct (among env (k (fst (exec o (env n w)))) (S n) (snd (exec o (env n w)))) as [[tr r] [m w']].
    destruct r as [a|e]; [|reflexivity].
    destruct (among env (f a) m w') as [[tr' r'] s]. reflexivity.
Qed.

Lemma among_act : forall env o n w,
  among env (act o) n w = ([(o, env n w)], fst (exec o (env n w)), (S n, snd (exec o (env n w)))).
Proof.
  intros env o n w. unfold act, do. cbn [among].
  destruct (fst (exec o (env n w))); reflexivity.
Qed.

Lemma starts_app : forall a b, starts (a ++ b) = starts a ++ starts b.
Proof. intros. apply flat_map_app. Qed.

(** A program that starts no process. *)
Definition no_start (o : op) : Prop := match o with OSpawnJob _ => False | _ => True end.
Lemma quiet_among : forall A env (p : pgm A), all_ops no_start p -> forall n w tr r s,
  among env p n w = (tr, r, s) -> starts tr = [].
Proof.
  intros A env p. induction p as [a|e|o k IH]; intros H n w tr r s E; cbn in H, E.
  - injection E as <- _ _. reflexivity.
  - injection E as <- _ _. reflexivity.
  - destruct H as [Ho Hk].
    destruct (among env (k (fst (exec o (env n w)))) (S n) (snd (exec o (env n w)))) as [[tr' r'] s'] eqn:E'.
    injection E as <- <- <-. unfold starts. cbn [flat_map fst].
    rewrite (IH _ (Hk _) _ _ _ _ _ E' : flat_map _ tr' = []).
    destruct o; try reflexivity. contradiction.
Qed.

(** One start: at most one process, for this job and pipeline; exactly one if it succeeds. *)
Lemma launch_starts : forall env d j pn n w tr r s,
  among env (launch d j pn) n w = (tr, r, s) ->
  (starts tr = [(j_id j, pn)]) \/ (starts tr = [] /\ exists e, r = Err e).
Proof.
  intros env d j pn n w tr r s H. unfold launch in H.
  rewrite among_bind, among_act in H.
  destruct (fst (exec (OMkdir _) _)) as [?|e]; [|injection H as <- <- <-; right; split; [reflexivity|eauto]].
  rewrite among_bind in H.
  destruct (need (dget (df_pipelines (dm_df d)) pn)) as [?|e]; cbn [lift among] in H;
    [|injection H as <- <- <-; right; split; [reflexivity|eauto]].
  rewrite among_bind, among_act in H.
  destruct (fst (exec (OWriteJobdata _ _) _)) as [?|e]; [|injection H as <- <- <-; right; split; [reflexivity|eauto]].
  rewrite among_bind in H.
  match type of H with context [among env (update_pip ?a ?b) ?m ?x] =>
    destruct (among env (update_pip a b) m x) as [[t4 r4] [n4 w4]] eqn:E4 end.
  assert (Q4 : starts t4 = []).
  { revert E4. apply quiet_among. unfold update_pip. cbn. repeat (split; intros; try exact I; try (destruct r0; cbn; auto)). }
  destruct r4 as [?|e].
  2:{ injection H as <- <- <-. right. split; [|eauto]. rewrite ?starts_app. unfold starts in *. cbn [flat_map fst app]. exact Q4. }
  rewrite among_bind, among_act in H.
  assert (F : exists tt', tr = tt' /\ True) by eauto. clear F.
  assert (S5 : forall x rest, starts rest = [] -> starts ((OSpawnJob (job_args d j pn), x) :: rest) = [(j_id j, pn)]).
  { intros x rest R. unfold starts in *. cbn [flat_map fst]. rewrite R. reflexivity. }
  destruct (fst (exec (OSpawnJob _) _)) as [?|e] eqn:E5.
  2:{ injection H as <- <- <-. left. rewrite ?starts_app. unfold starts in *. cbn [flat_map fst app]. rewrite flat_map_app, Q4. reflexivity. }
  match type of H with context [match among env ?p ?m ?x with _ => _ end] =>
    destruct (among env p m x) as [[t6 r6] s6] eqn:E6 end.
  assert (Q6 : starts t6 = []).
  { revert E6. apply quiet_among. unfold update_job_id. cbn.
    repeat first [exact I | split | intros; match goal with |- context [match ?x with Ok _ => _ | Err _ => _ end] => destruct x; cbn end]. }
  injection H as <- <- <-. left. rewrite ?starts_app.
  unfold starts in *. cbn [flat_map fst app]. rewrite flat_map_app, Q4. cbn [flat_map fst app]. rewrite Q6. reflexivity.
Qed.

(** What the loop over the pipelines of one job does, given the pipelines still available. *)
Definition fits (avail : dict pipstate) (j : job) (pn : string) : Prop :=
  exists ps, dget avail pn = Some ps /\ p_ready ps = true /\ p_sample ps = Some (pl_sample (j_payload j)).

Lemma fits_test : forall ps j,
  p_ready ps && opt_eqb String.eqb (p_sample ps) (Some (pl_sample (j_payload j))) = true <->
  p_ready ps = true /\ p_sample ps = Some (pl_sample (j_payload j)).
Proof.
  intros ps j. rewrite andb_true_iff. split; intros [A B]; split; auto.
  - destruct (p_sample ps) as [x|]; cbn in B; [|discriminate]. apply String.eqb_eq in B. congruence.
  - rewrite B. cbn. apply String.eqb_refl.
Qed.

Lemma try_starts : forall env d j avail l n w tr r s,
  among env (forB (try_pip d j) avail l) n w = (tr, r, s) ->
  match r with
  | Ok (inl a) => starts tr = [] /\ a = avail /\ forall pn, In pn l -> ~ fits avail j pn
  | Ok (inr a) => exists pn, starts tr = [(j_id j, pn)] /\ In pn l /\ fits avail j pn /\ a = ddel avail pn
  | Err _ => starts tr = [] \/ exists pn, starts tr = [(j_id j, pn)] /\ In pn l /\ fits avail j pn
  end.
Proof.
  intros env d j avail l. induction l as [|pn l IH]; intros n w tr r s H.
  - cbn in H. injection H as <- <- <-. split; [reflexivity|]. split; [reflexivity|]. intros ? [].
  - cbn [forB] in H. rewrite among_bind in H. unfold try_pip at 1 in H.
    assert (SKIP : ~ fits avail j pn ->
      match among env (forB (try_pip d j) avail l) n w with (tr', r', s') => ([] ++ tr', r', s') end = (tr, r, s) ->
      match r with
      | Ok (inl a) => starts tr = [] /\ a = avail /\ forall pn0, In pn0 (pn :: l) -> ~ fits avail j pn0
      | Ok (inr a) => exists pn0, starts tr = [(j_id j, pn0)] /\ In pn0 (pn :: l) /\ fits avail j pn0 /\ a = ddel avail pn0
      | Err _ => starts tr = [] \/ exists pn0, starts tr = [(j_id j, pn0)] /\ In pn0 (pn :: l) /\ fits avail j pn0
      end).
    { intros NF E. destruct (among env (forB (try_pip d j) avail l) n w) as [[tr' r'] s'] eqn:E'.
      injection E as <- <- <-. specialize (IH _ _ _ _ _ E'). cbn [app]. destruct r' as [[a|a]|e].
      - destruct IH as (A & B & C). split; [exact A|]. split; [exact B|]. intros p [<-|P]; [exact NF|exact (C p P)].
      - destruct IH as (p & A & B & C). exists p. split; [exact A|]. split; [right; exact B|exact C].
      - destruct IH as [A|(p & A & B & C)]; [left; exact A|right; exists p; split; [exact A|split; [right; exact B|exact C]]]. }
    destruct (dget avail pn) as [ps|] eqn:G.
    2:{ cbn [among] in H. apply SKIP; [|exact H]. intros (ps & X & _). congruence. }
    destruct (p_ready ps && opt_eqb String.eqb (p_sample ps) (Some (pl_sample (j_payload j)))) eqn:T.
    2:{ cbn [among] in H. apply SKIP; [|exact H]. intros (ps' & X & Y). assert (ps' = ps) by congruence. subst ps'.
        apply fits_test in Y. congruence. }
    apply fits_test in T. assert (FT : fits avail j pn) by (exists ps; tauto).
    rewrite among_bind in H.
    destruct (among env (launch d j pn) n w) as [[t1 r1] [n1 w1]] eqn:E1.
    pose proof (launch_starts _ _ _ _ _ _ _ _ _ E1) as L.
    destruct r1 as [u|e].
    + cbn [among] in H. injection H as <- <- <-. destruct L as [L|[_ [e L]]]; [|discriminate].
      exists pn. rewrite !app_nil_r. split; [exact L|]. split; [left; reflexivity|]. split; [exact FT|reflexivity].
    + injection H as <- <- <-. destruct L as [L|[L _]]; [right|left; exact L].
      exists pn. split; [exact L|]. split; [left; reflexivity|exact FT].
Qed.

Lemma get_job_id : forall l i j, get_job l i = Some j -> j_id j = i.
Proof. intros l i j H. unfold get_job in H. apply find_some in H. apply Z.eqb_eq. apply H. Qed.

(** One job. *)
Lemma one_starts : forall env d avail i l n w tr r s,
  among env (action_one d avail (i, l)) n w = (tr, r, s) ->
  (exists tr', tr = (OJobGet i, env n w) :: tr') /\
  (starts tr = [] \/ exists pn, starts tr = [(i, pn)] /\ exists ps, dget avail pn = Some ps /\ p_ready ps = true) /\
  (forall a, r = Ok a -> exists j, get_job (w_jobs (env n w)) i = Some j /\
     ((starts tr = [] /\ a = avail /\ forall pn, In pn l -> ~ fits avail j pn) \/
      (exists pn, starts tr = [(i, pn)] /\ a = ddel avail pn))).
Proof.
  intros env d avail i l n w tr r s H. unfold action_one in H. cbn [fst snd] in H.
  rewrite among_bind, among_act in H. cbn [exec fst snd] in H.
  destruct (get_job (w_jobs (env n w)) i) as [j|] eqn:G; cbn [fst snd] in H.
  2:{ injection H as <- <- <-. split; [eexists; reflexivity|]. split; [left; reflexivity|]. discriminate. }
  rewrite among_bind in H.
  destruct (among env (forB (try_pip d j) avail l) (S n) (env n w)) as [[t1 r1] [n1 w1]] eqn:E1.
  pose proof (try_starts _ _ _ _ _ _ _ _ _ _ E1) as T. pose proof (get_job_id _ _ _ G) as I.
  destruct r1 as [[a|a]|e].
  - cbn [among] in H. injection H as <- <- <-. destruct T as (A & B & C).
    assert (S : starts ([(OJobGet i, env n w)] ++ t1 ++ []) = []) by (rewrite app_nil_r, starts_app; exact A).
    split; [eexists; reflexivity|]. split; [left; exact S|].
    intros a' X. injection X as <-. exists j. split; [reflexivity|]. left. auto.
  - cbn [among] in H. injection H as <- <- <-. destruct T as (pn & A & B & (ps & C1 & C2 & _) & D).
    assert (S : starts ([(OJobGet i, env n w)] ++ t1 ++ []) = [(i, pn)]) by (rewrite app_nil_r, starts_app, A, I; reflexivity).
    split; [eexists; reflexivity|]. split; [right; eauto|].
    intros a' X. injection X as <-. exists j. split; [reflexivity|]. right. eauto.
  - injection H as <- <- <-. split; [eexists; reflexivity|]. split; [|discriminate].
    destruct T as [A|(pn & A & B & (ps & C1 & C2 & _))]; [left; change (starts t1 = []); exact A|right].
    exists pn. split; [change (starts t1 = [(i, pn)]); rewrite A, I; reflexivity|eauto].
Qed.

(** The loop over the jobs. *)
Inductive part_of {A : Type} : list A -> list A -> Prop :=
| part_nil : forall l, part_of [] l
| part_skip : forall x a l, part_of a l -> part_of a (x :: l)
| part_take : forall x a l, part_of a l -> part_of (x :: a) (x :: l).

Lemma part_In : forall A (a l : list A), part_of a l -> forall x, In x a -> In x l.
Proof. intros A a l H. induction H; intros y Y; cbn in *; [contradiction|auto|destruct Y; auto]. Qed.
Lemma part_sorted : forall (a l : list Z), part_of a l -> StronglySorted Z.lt l -> StronglySorted Z.lt a.
Proof.
  intros a l H. induction H; intros S; [constructor| |]; inversion S; subst; auto.
  constructor; [auto|]. apply Forall_forall. intros y Y. rewrite Forall_forall in H3. apply H3.
  exact (part_In _ _ _ H y Y).
Qed.

Lemma loop_starts : forall env d L avail n w tr r s,
  NoDup (dkeys avail) -> StronglySorted Z.lt (map fst L) ->
  among env (forP (action_one d) avail L) n w = (tr, r, s) ->
  part_of (map fst (starts tr)) (map fst L) /\
  (forall k pn, In (k, pn) (starts tr) -> exists ps, dget avail pn = Some ps /\ p_ready ps = true) /\
  (forall i l k pn ps, In (i, l) L -> In pn l -> In (k, pn) (starts tr) -> i < k ->
     dget avail pn = Some ps -> (forall x, p_sample ps = Some x -> wants tr i x) -> p_sample ps <> None ->
     In i (map fst (starts tr))).
Proof.
  intros env d L. induction L as [|[i0 l0] L IH]; intros avail n w tr r s ND SS H.
  - cbn in H. injection H as <- <- <-. split; [constructor|]. split; [intros ? ? []|intros ? ? ? ? ? []].
  - cbn [forP] in H. rewrite among_bind in H. cbn [map fst] in SS |- *.
    apply StronglySorted_inv in SS as [SS SF].
    destruct (among env (action_one d avail (i0, l0)) n w) as [[t1 r1] [n1 w1]] eqn:E1.
    destruct (one_starts _ _ _ _ _ _ _ _ _ _ E1) as (T1 & S1 & O1).
    destruct r1 as [a|e].
    + destruct (among env (forP (action_one d) a L) n1 w1) as [[t2 r2] s2] eqn:E2. injection H as <- <- <-.
      specialize (O1 a eq_refl) as (j & G & O1).
      assert (NDa : NoDup (dkeys a) /\ forall pn ps, dget a pn = Some ps -> dget avail pn = Some ps).
      { destruct O1 as [(_ & -> & _)|(pn & _ & ->)]; [auto|]. split; [apply NoDup_ddel; exact ND|].
        intros q ps Q. rewrite dget_ddel in Q by exact ND. destruct (String.eqb q pn); congruence. }
      destruct NDa as [NDa SUB]. destruct (IH a n1 w1 t2 r2 s2 NDa SS E2) as (P2 & A2 & C2).
      rewrite starts_app, map_app.
      split.
      { destruct S1 as [->|(pn & -> & _)]; cbn [map fst app]; constructor; exact P2. }
      split.
      { intros k pn K. apply in_app_or in K as [K|K].
        - destruct S1 as [S1|(q & S1 & X)]; rewrite S1 in K; [destruct K|]. destruct K as [K|[]]. injection K as <- <-. exact X.
        - destruct (A2 k pn K) as (ps & X & Y). eauto. }
      intros i l k pn ps I P K LT D W NE.
      assert (K2 : In (k, pn) (starts t2)).
      { apply in_app_or in K as [K|K]; [|exact K]. exfalso.
        assert (k = i0) by (destruct S1 as [S1|(q & S1 & X)]; rewrite S1 in K; [destruct K|destruct K as [K|[]]; congruence]).
        subst k. destruct I as [I|I]; [injection I as <- <-; lia|].
        rewrite Forall_forall in SF. specialize (SF i (in_map fst _ _ I)). lia. }
      destruct (A2 k pn K2) as (ps' & X & Y). pose proof (SUB _ _ X) as X'. assert (ps' = ps) by congruence. subst ps'.
      apply in_or_app. destruct I as [I|I].
      * injection I as <- <-. left. destruct O1 as [(_ & _ & NF)|(q & -> & _)]; [exfalso|left; reflexivity].
        destruct (p_sample ps) as [x|] eqn:PS; [|congruence].
        apply (NF pn P). exists ps. split; [exact D|]. split; [exact Y|]. rewrite PS. f_equal. symmetry.
        apply (W x eq_refl (env n w) j); [|exact G]. apply in_or_app. left. destruct T1 as [t ->]. left. reflexivity.
      * right. apply (C2 i l k pn ps I P K2 LT X); [|exact NE].
        intros x PX w' j' J. apply (W x PX w' j'). apply in_or_app. right. exact J.
    + injection H as <- <- <-.
      split.
      { destruct S1 as [->|(pn & -> & _)]; cbn [map fst]; [apply part_nil|apply part_take, part_nil]. }
      split.
      { intros k pn K. destruct S1 as [S1|(q & S1 & X)]; rewrite S1 in K; [destruct K|].
        destruct K as [K|[]]. injection K as <- <-. exact X. }
      intros i l k pn ps I P K LT D W NE. exfalso.
      assert (k = i0) by (destruct S1 as [S1|(q & S1 & X)]; rewrite S1 in K; [destruct K|destruct K as [K|[]]; congruence]).
      subst k. destruct I as [I|I]; [injection I as <- <-; lia|].
      rewrite Forall_forall in SF. specialize (SF i (in_map fst _ _ I)). lia.
Qed.
