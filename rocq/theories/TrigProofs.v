(** * TrigProofs: start and stop triggers *)
From Coq Require Import List String ZArith Bool Lia.
From Verif Require Import Base BaseFacts Types Prog ProgFacts JobThreadModel SpecWorker SpecTrig
  JobThreadProofs JobThreadProofs2 JobThreadProofs3.
Import ListNotations.
Open Scope prog_scope.
Open Scope Z_scope.

(** ** Traces *)
Lemma jsteps_tsteps s s' : jsteps s s' <-> exists tr, tsteps s tr s'.
Proof.
  split.
  - intros H. induction H as [s|s1 s2 s3 H [tr IH] J]; [exists []; constructor|].
    destruct J as [l m i k o kont r E P A|l l' o kont r H1].
    + eexists. eapply ts_worker; eassumption.
    + eexists. eapply ts_main; eassumption.
  - intros [tr H]. induction H as [|tr l m i k o kont r H IH E P A|tr l l' o kont r H IH E].
    + apply js_refl.
    + eapply js_step; [exact IH | eapply step_worker; eassumption].
    + eapply js_step; [exact IH | constructor; exact E].
Qed.
Lemma tsteps_trans s tr1 s1 tr2 s2 : tsteps s tr1 s1 -> tsteps s1 tr2 s2 -> tsteps s (tr1 ++ tr2) s2.
Proof.
  intros H K. induction K as [|tr l m i k o kont r K IH E P A|tr l l' o kont r K IH E].
  - rewrite app_nil_r. exact H.
  - rewrite app_assoc. eapply ts_worker; eassumption.
  - rewrite app_assoc. eapply ts_main; eassumption.
Qed.
Lemma snoc_cut {A} (tr : list A) x a y b : (tr ++ [x] = a ++ y :: b)%list ->
  (b = [] /\ a = tr /\ y = x) \/ exists b', (b = b' ++ [x] /\ tr = a ++ y :: b')%list.
Proof.
  destruct b as [|z b] using rev_ind.
  - intros H. left. apply app_inj_tail in H as [-> ->]. auto.
  - intros H. right. exists b.
    change (a ++ y :: b ++ [z])%list with (a ++ (y :: b) ++ [z])%list in H. rewrite app_assoc in H.
    apply app_inj_tail in H as [-> ->]. auto.
Qed.
Lemma tsteps_cut s tr s' : tsteps s tr s' -> forall a x b, tr = (a ++ x :: b)%list ->
  exists s1 s2, tsteps s a s1 /\ tsteps s (a ++ [x]) s2 /\ tsteps s1 [x] s2.
Proof.
  induction 1 as [|tr l m i k o kont r H IH E P A|tr l l' o kont r H IH E]; intros a x b Eq.
  - destruct a; discriminate Eq.
  - destruct (snoc_cut _ _ _ _ _ Eq) as [(-> & -> & ->)|(b' & -> & ->)].
    + do 2 eexists. split; [exact H|]. split; [eapply ts_worker; eassumption|].
      change [OWork i (Ev o r)] with ([] ++ [OWork i (Ev o r)])%list. eapply ts_worker; [constructor| eassumption..].
    + eapply IH. reflexivity.
  - destruct (snoc_cut _ _ _ _ _ Eq) as [(-> & -> & ->)|(b' & -> & ->)].
    + do 2 eexists. split; [exact H|]. split; [eapply ts_main; eassumption|].
      change [OMain o r] with ([] ++ [OMain o r])%list. eapply ts_main; [constructor| eassumption].
    + eapply IH. reflexivity.
Qed.

(** ** What has been announced *)
Lemma busy_snoc j tr x : busy j (tr ++ [x]) = turn j x (busy j tr).
Proof. unfold busy. rewrite fold_left_app. reflexivity. Qed.
Lemma looked_snoc n tr x :
  looked n (tr ++ [x]) <-> looked n tr \/ exists j, looks_at x = Some j /\ named n (busy j tr).
Proof.
  split.
  - intros (a & y & b & j & E & L & N). destruct (snoc_cut _ _ _ _ _ E) as [(-> & -> & ->)|(b' & -> & ->)].
    + right. eauto.
    + left. exists a, y, b', j. auto.
  - intros [(a & y & b & j & -> & L & N)|(j & L & N)].
    + exists a, y, (b ++ [x])%list, j. split; [rewrite <- app_assoc; reflexivity | auto].
    + exists tr, x, [], j. auto.
Qed.
Lemma announced_snoc i n tr x :
  announced i n (tr ++ [x]) <-> announced i n tr \/ (tells x = Some i /\ looked n tr).
Proof.
  split.
  - intros (a & y & b & E & T & L). destruct (snoc_cut _ _ _ _ _ E) as [(-> & -> & ->)|(b' & -> & ->)].
    + right. auto.
    + left. exists a, y, b'. auto.
  - intros [(a & y & b & -> & T & L)|[T L]].
    + exists a, y, (b ++ [x])%list. split; [rewrite <- app_assoc; reflexivity | auto].
    + exists tr, x, []. auto.
Qed.
Lemma announced_more i n tr tr2 : announced i n tr -> announced i n (tr ++ tr2).
Proof.
  intros (a & y & b & -> & T & L). exists a, y, (b ++ tr2)%list.
  split; [rewrite <- app_assoc; reflexivity | auto].
Qed.
Lemma announced_looked i n tr : announced i n tr -> looked n tr.
Proof.
  intros (a & y & b & -> & T & (c & x & d & j & -> & L & N)).
  exists c, x, (d ++ y :: b)%list, j. split; [rewrite <- app_assoc; reflexivity | auto].
Qed.

(** ** The main thread tells what it has seen *)
Definition name_seen (o : mop) (r : res (mresp o)) : list string :=
  match o as o' return res (mresp o') -> list string with
  | MCurrent _ => fun r => match r with Ok (Some n) => [n] | _ => [] end
  | _ => fun _ => []
  end r.
Fixpoint mgood {A} (p : mpgm A) (Q : A -> list string -> Prop) (seen : list string) : Prop :=
  match p with
  | Ret a => Q a seen
  | Raise _ => True
  | Op o k => match o with MPush _ l => forall n, In n l <-> In n seen | _ => True end
              /\ forall r, mgood (k r) Q (seen ++ name_seen o r)
  end.
Lemma mgood_bind {A B} (p : mpgm A) (f : A -> mpgm B) Q : forall seen,
  mgood p (fun a s => mgood (f a) Q s) seen -> mgood (bind p f) Q seen.
Proof. induction p as [a|e|o k IH]; intros seen; cbn; auto. intros [H1 H2]. split; auto. Qed.
Lemma mgood_impl {A} (p : mpgm A) (Q Q' : A -> list string -> Prop) :
  (forall a s, Q a s -> Q' a s) -> forall seen, mgood p Q seen -> mgood p Q' seen.
Proof. intros W. induction p as [a|e|o k IH]; intros seen; cbn; auto. intros [H1 H2]. split; auto. Qed.

Definition same_names (l seen : list string) : Prop := forall n, In n l <-> In n seen.
Lemma mgood_look : forall ids names seen, same_names names seen ->
  mgood (forP (fun acc i => o <- mact (MCurrent i);;
                            Ret (match (o : option string) with
                                 | Some n => if mem n acc then acc else acc ++ [n]
                                 | None => acc
                                 end)) names ids) same_names seen.
Proof.
  induction ids as [|i ids IH]; intros names seen S; cbn; [exact S|].
  split; [exact I|]. intros [[n|]|e]; cbn.
  - apply IH. intros m. rewrite in_app_iff, <- (S m). cbn.
    destruct (mem n names) eqn:E.
    + apply mem_In in E. split; [auto|]. intros [K|[<-|[]]]; auto.
    + rewrite in_app_iff. cbn. tauto.
  - apply IH. rewrite app_nil_r. exact S.
  - exact I.
Qed.
Lemma mgood_tell names : forall ids seen, same_names names seen ->
  mgood (forP (fun _ i => mact (MPush i names)) tt ids) (fun _ s => same_names names s) seen.
Proof.
  induction ids as [|i ids IH]; intros seen S; cbn; [exact S|].
  split; [exact S|]. intros [[]|e]; cbn; [|exact I]. apply IH. rewrite app_nil_r. exact S.
Qed.
(** Operations that are neither looks nor tellings. *)
Definition aside (o : mop) : Prop := match o with MCurrent _ | MPush _ _ => False | _ => True end.
Lemma mgood_aside {A} (p : mpgm A) (C : list string -> Prop) : all_ops aside p -> forall seen, C seen ->
  mgood p (fun _ s => C s) seen.
Proof.
  induction p as [a|e|o k IH]; cbn; auto. intros [H1 H2] seen HC.
  split; [destruct o; try contradiction; exact I|]. intros r.
  apply IH; [apply H2|]. destruct o; try contradiction; cbn; rewrite app_nil_r; exact HC.
Qed.
Lemma mgood_main snap ids : forall fuel ts names seen, same_names names seen ->
  mgood (main_loop fuel snap ids ts names) (fun _ _ => True) seen.
Proof.
  induction fuel as [|f IH]; intros ts names seen S; [exact I|]. cbn [main_loop].
  apply mgood_bind. cbn [mact do mgood]. split; [exact I|]. intros [tn|e]; [|exact I]. cbn [name_seen lift mgood].
  rewrite app_nil_r.
  apply mgood_bind. eapply mgood_impl; [|apply (mgood_aside _ (same_names names)); [|exact S]].
  2:{ destruct snap as [iv|]; [|exact I]. destruct (iv <? tn - ts); [|exact I].
      cbn. split; [exact I|]. intros [[]|e]; exact I. }
  intros ts' s1 S1. cbn beta in S1.
  apply mgood_bind. eapply mgood_impl; [|apply mgood_look; exact S1]. intros names' s2 S2.
  apply mgood_bind. eapply mgood_impl; [|apply mgood_tell; exact S2]. intros u s3 S3.
  apply mgood_bind. eapply mgood_impl; [|apply (mgood_aside _ (same_names names')); [|exact S3]].
  2:{ apply all_ops_forP. intros acc i. cbn. split; [exact I|]. intros [b|e]; exact I. }
  intros cr s4 S4. apply mgood_bind.
  eapply mgood_impl; [|apply (mgood_aside _ (same_names names')); [|exact S4]].
  2:{ apply all_ops_forP. intros acc i. cbn. split; [exact I|].
      intros [[]|e]; cbn; [|exact I|exact I]. split; [exact I|]. intros [b|e]; exact I. }
  intros jo s5 S5. destruct (forallb (fun b => b) jo); [exact I|]. apply IH. exact S5.
Qed.

(** ** The names a worker knows are those announced to it *)
Record tinv (tr : list obs) (i : nat) (k : wkst) : Prop := {
  ti_cur : k_current k = busy i tr;
  ti_names : forall n, In n (k_names k) <-> announced i n tr;
  ti_seen : forall l n, In (VNames l) (views (k_events k)) -> In n l -> announced i n tr
}.
Record minv (tr : list obs) (s : jsys) : Prop := {
  mi_wk : forall i k, nth_error (s_wk s) i = Some k -> tinv tr i k;
  mi_main : exists seen, mgood (s_main s) (fun _ _ => True) seen /\ forall n, In n seen <-> looked n tr
}.
Lemma minv_start f snap ts ws : minv [] (job_start f snap ts ws).
Proof.
  split; cbn [job_start s_wk s_main].
  - intros i k E. rewrite nth_error_map in E. destruct (nth_error ws i) as [w|]; [|discriminate E].
    injection E as <-. split; cbn.
    + reflexivity.
    + intros n. split; [contradiction|]. intros (a & y & b & E & _). destruct a; discriminate E.
    + intros l n [].
  - exists []. split; [apply mgood_main; intros n; reflexivity|]. intros n. split; [contradiction|].
    intros (a & y & b & j & E & _). destruct a; discriminate E.
Qed.
Lemma nth_put i k k0 l j k' : nth_error l i = Some k0 -> nth_error (put_wk i k l) j = Some k' ->
  (i = j /\ k' = k) \/ (i <> j /\ nth_error l j = Some k').
Proof.
  intros E H. destruct (Nat.eq_dec i j) as [<-|N].
  - left. rewrite (nth_put_same k l i k0 E) in H. injection H as <-. auto.
  - right. rewrite nth_put_other in H by exact N. auto.
Qed.
Lemma minv_worker tr l m i k o kont r : minv tr (mkJsys l m) -> nth_error l i = Some k -> allowed k o r ->
  minv (tr ++ [OWork i (Ev o r)]) (mkJsys (put_wk i (wk_after k o r (kont r)) l) m).
Proof.
  intros [H1 (seen & G & S)] E A. cbn [s_wk s_main] in *.
  assert (AN : forall j n, announced j n (tr ++ [OWork i (Ev o r)]) <-> announced j n tr).
  { intros j n. rewrite announced_snoc. cbn. split; [intros [K|[K _]]; [exact K | discriminate K] | auto]. }
  split; cbn [s_wk s_main].
  - intros j k' Ej. destruct (nth_put _ _ _ _ _ _ E Ej) as [[<- ->]|[N Ej']].
    + destruct (H1 _ _ E) as [C NA SE]. split.
      * rewrite busy_snoc, <- C. unfold turn. rewrite Nat.eqb_refl. destruct o; reflexivity.
      * intros n. rewrite AN. exact (NA n).
      * intros ns n. cbn [wk_after k_events]. rewrite AN. rewrite views_app. cbn [views map].
        rewrite in_app_iff. intros [K|[K|[]]] Hn; [exact (SE _ _ K Hn)|].
        destruct o; cbn in A, K; try (subst r; cbn in K); try (destruct r; discriminate K); try discriminate K.
        injection K as <-. apply NA, Hn.
    + destruct (H1 _ _ Ej') as [C NA SE]. split.
      * rewrite busy_snoc, <- C. unfold turn. destruct (Nat.eqb i j) eqn:B; [apply Nat.eqb_eq in B; contradiction|].
        destruct o; reflexivity.
      * intros n. rewrite AN. exact (NA n).
      * intros ns n K Hn. rewrite AN. exact (SE _ _ K Hn).
  - exists seen. split; [exact G|]. intros n. rewrite looked_snoc, S. cbn.
    split; [auto|]. intros [K|(j & K & _)]; [exact K | discriminate K].
Qed.
Lemma busy_main j tr o r : busy j (tr ++ [OMain o r]) = busy j tr.
Proof. rewrite busy_snoc. reflexivity. Qed.
Lemma named_iff (c : option task) n :
  (match c with Some t => t_name t | None => None end) = Some n <-> named n c.
Proof.
  split.
  - destruct c as [t|]; [|discriminate]. intros H. exists t. auto.
  - intros (t & -> & H). exact H.
Qed.
Lemma minv_main tr l l' o kont r : minv tr (mkJsys l (Op o kont)) -> mexec l o r l' ->
  minv (tr ++ [OMain o r]) (mkJsys l' (kont r)).
Proof.
  intros [H1 (seen & G & S)] M. cbn [s_wk s_main] in *. cbn [mgood] in G. destruct G as [G1 G2].
  split; cbn [s_wk s_main].
  - assert (SAME : l' = l -> tells (OMain o r) = None -> forall i k, nth_error l' i = Some k -> tinv (tr ++ [OMain o r]) i k).
    { intros -> T i k E. destruct (H1 _ _ E) as [C NA SE].
      assert (AN : forall j n, announced j n (tr ++ [OMain o r]) <-> announced j n tr).
      { intros j n. rewrite announced_snoc, T. split; [intros [K|[K _]]; [exact K | discriminate K] | auto]. }
      split.
      - rewrite busy_main. exact C.
      - intros n. rewrite AN. apply NA.
      - intros ns n K Hn. rewrite AN. eauto. }
    destruct o; cbn in M; try (apply SAME; [exact (proj1 M) | reflexivity]).
    + clear SAME. destruct M as [-> (k & E & ->)]. intros j k' Ej.
      destruct (nth_put _ _ _ _ _ _ E Ej) as [[<- ->]|[N Ej']].
      * destruct (H1 _ _ E) as [C NA SE]. split; cbn [k_current k_names k_events].
        -- rewrite busy_main. exact C.
        -- intros n. rewrite announced_snoc, in_app_iff, filter_In, (NA n). cbn [tells].
           rewrite <- S, <- G1.
           assert (X : negb (mem n (k_names k)) = true <-> ~ announced i n tr).
           { rewrite negb_true_iff, mem_not_In, NA. reflexivity. }
           rewrite X. split.
           ++ intros [K|[K1 K2]]; auto.
           ++ intros [K|[K1 K2]]; [auto|]. destruct (mem n (k_names k)) eqn:B.
              ** left. apply NA, mem_In, B.
              ** right. split; [exact K2|]. rewrite <- NA. apply mem_not_In. exact B.
        -- intros ns n K Hn. apply announced_snoc. left. eauto.
      * destruct (H1 _ _ Ej') as [C NA SE]. split.
        -- rewrite busy_main. exact C.
        -- intros n. rewrite announced_snoc, (NA n). cbn [tells]. split; [auto|].
           intros [K|[K _]]; [exact K | injection K as K; contradiction].
        -- intros ns n K Hn. apply announced_snoc. left. eauto.
    + apply SAME; [exact M | reflexivity].
  - exists (seen ++ name_seen o r)%list. split; [apply G2|]. intros n.
    rewrite looked_snoc, in_app_iff, S.
    destruct o; cbn [name_seen looks_at]; try (split; [intros [K|[]]; auto | intros [K|(j & K & _)]; [auto | discriminate K]]).
    destruct M as [-> (k & E & ->)]. destruct (H1 _ _ E) as [C _ _].
    assert (X : In n match (match k_current k with Some t => t_name t | None => None end) with
                     | Some m => [m] | None => [] end <-> named n (busy i tr)).
    { rewrite <- C, <- named_iff. destruct (match k_current k with Some t => t_name t | None => None end) as [m|].
      - cbn. split; [intros [->|[]]; reflexivity | intros K; injection K as ->; auto].
      - split; [contradiction | discriminate]. }
    split.
    + intros [K|K]; [auto|]. right. exists i. split; [reflexivity | apply X, K].
    + intros [K|(j & K & N)]; [auto|]. injection K as <-. right. apply X, N.
Qed.
Lemma tsteps_minv f snap ts ws tr s' : tsteps (job_start f snap ts ws) tr s' -> minv tr s'.
Proof.
  induction 1 as [|tr l m i k o kont r H IH E P A|tr l l' o kont r H IH E].
  - apply minv_start.
  - eapply minv_worker; eassumption.
  - eapply minv_main; eassumption.
Qed.
