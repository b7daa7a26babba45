(** * SnapProofs3: exactly when a snapshot of a running job fails (C107) *)
From Coq Require Import List String Ascii ZArith Bool Lia.
From Verif Require Import Base BaseFacts PyStr Prog ProgFacts IoModel SnapModel SpecSnap SpecSnap2 IoProofs SnapProofs.
Import ListNotations.
Open Scope prog_scope.
Open Scope string_scope.

Lemma steps_trans a b c : csteps a b -> csteps b c -> csteps a c.
Proof. intros H K. induction K as [|x y z K IH S]; [exact H|]. exact (cs_more _ _ _ (IH H) S). Qed.
Lemma raise_stays e a b : csteps a b -> c_merge a = Raise e -> c_merge b = Raise e.
Proof.
  intros S H. induction S as [|x y z S IH S1]; [exact H|]. specialize (IH H).
  destruct S1 as [s m ws m' s' F|s m l1 w l2 w' s' F]; cbn in *; [|exact IH]. subst m. discriminate F.
Qed.

Definition fail_next (p : fpgm unit) : fpgm unit := match p with Op o k => k (Err EOFError) | _ => p end.

Section Job.
  Variable ws : list (string * list (list nat)).
  Variable held : string -> option (list nat).
  Variable out : string.
  Hypothesis Wdup : NoDup (map fst ws).
  Hypothesis Wslash : Forall (fun rb => has_char "/" (fst rb) = false) ws.
  Notation INV := (Inv ws held out).

  Lemma broken_worker lo s l r : files ws held lo s l -> dget (f_folder s) (role_file r) = Some PBroken ->
    exists w v k, In w l /\ w = Op (FDump (role_file r) v) k.
  Proof.
    intros [K W R] B. destruct (in_dec string_dec r (map fst ws)) as [I|I].
    - apply in_map_iff in I as (rb & <- & I). clear R K Wdup Wslash.
      induction W as [|a w l1 l2 P W IH]; [destruct I|]. destruct I as [->|I].
      + destruct P as [done todo _ _ F _|done d todo p _ _ _ F _|done d todo _ _ F _|done d todo _ _ F Ew].
        * rewrite B in F. destruct (with_stores _ _); discriminate F.
        * rewrite B in F. discriminate F.
        * rewrite B in F. destruct (with_stores _ _); discriminate F.
        * exists w. unfold dumping in Ew. cbn [fact do bind] in Ew. eexists. eexists. split; [left; reflexivity|exact Ew].
      + destruct (IH I) as (x & v & k & Hx & E). exists x, v, k. split; [right; exact Hx|exact E].
    - destruct (R r I) as [F _]. rewrite B in F. destruct (held r); discriminate F.
  Qed.

  Lemma raise_caught lo b c : INV lo b -> cstep b c -> forall e, c_merge c = Raise e -> (exists e', c_merge b = Raise e') \/ caught b c.
  Proof.
    intros [F M] S e E. destruct S as [s m l m' s' H|s m l1 w l2 w' s' H]; cbn [c_fs c_workers c_merge] in *; [|left; eauto].
    right. subst m'. destruct M as [Q|acc done names Q G N K L|g Q G1 G2|Q]; subst m; try discriminate H.
    - unfold merge in H. cbn [fact do bind fstep fexec] in H. injection H as H _.
      destruct (filter is_pkl (dkeys (f_folder s))); cbn in H; discriminate H.
    - destruct names as [|n names].
      + unfold reading in H. cbn [forP bind] in H. rewrite app_nil_r in N, L.
        destruct (groups_good ws held lo acc done N G L) as (g & Gg & GG). rewrite Gg in H. cbn in H. discriminate H.
      + inversion K as [|? ? [[r ->] Kn] K']; subst.
        assert (B : dget (f_folder s) (role_file r) = Some PBroken).
        { destruct (files_point _ _ Wdup _ _ _ r F) as [B|(d & t & Eb & A & B)]; [exact B|exfalso].
          unfold reading in H. cbn [forP fact do bind fstep fexec] in H. rewrite B in H.
          destruct (with_stores (held r) d) as [p|] eqn:W; cbn [file_of option_map] in H.
          - injection H as H _. cbn in H. destruct names as [|n2 names].
            + cbn in H.
              assert (X : exists g, groups [] (acc ++ [mkDs (Some r) p])%list = Ok g).
              { clear - G. assert (Y : Forall (fun ds => ds_role ds <> None) (acc ++ [mkDs (Some r) p])%list).
                { apply Forall_app. split; [|repeat constructor; discriminate]. clear - G.
                  induction G as [|? ? ? ? (r2 & p2 & _ & -> & _) G IH]; constructor; [discriminate|exact IH]. }
                revert Y. generalize (acc ++ [mkDs (Some r) p])%list. generalize (@nil (string * list nat)).
                intros a l. revert a. induction l as [|x l IH]; intros a Y; cbn; [eauto|].
                inversion Y; subst. destruct (ds_role x) as [q|]; [|congruence]. apply IH. assumption. }
              destruct X as [g X]. rewrite X in H. discriminate H.
            + cbn in H. discriminate H.
          - apply dget_Some_key in Kn as [v V]. rewrite B in V. discriminate V. }
        destruct (broken_worker _ _ _ _ F B) as (w & v & k & Iw & Ew).
        unfold reading in H. cbn [forP fact do bind fstep fexec] in H. rewrite B in H. injection H as H <-.
        unfold caught. cbn [c_fs c_workers c_merge]. unfold reading. cbn [forP fact do bind].
        eexists. eexists. exists w, v, k. split; [reflexivity|]. split; [exact Iw|]. split; [exact Ew|]. split; [exact B|].
        rewrite <- H. reflexivity.
  Qed.

  Lemma caught_raise lo a b : INV lo a -> caught a b -> c_merge b = Raise EOFError.
  Proof.
    intros [_ M] (n & k & w & v & k' & Em & _ & _ & _ & ->). cbn [c_merge].
    destruct M as [Q|acc done names Q G N K L|g Q G1 G2|Q]; rewrite Q in Em; try discriminate Em.
    unfold reading in Em. destruct names as [|n' names].
    - cbn [forP bind] in Em. destruct (groups [] acc); cbn in Em; discriminate Em.
    - apply (f_equal fail_next) in Em. cbn in Em. symmetry. exact Em.
  Qed.

  Lemma exact_lemma s c1 c2 : holds held s -> csteps (c_start s out ws) c1 -> c_merge c1 = merge out -> csteps c1 c2 ->
    ((exists e, c_merge c2 = Raise e) <-> was_caught c1 c2).
  Proof.
    intros H S1 E S2. pose proof (Inv_steps _ _ _ Wdup Wslash _ _ _ S1 (Inv_start _ _ _ s H)) as I1. split.
    - induction S2 as [c1|c1 b c2 S2 IH S]; [intros [e X]; rewrite E in X; discriminate X|].
      intros [e X]. pose proof (Inv_steps _ _ _ Wdup Wslash _ _ _ S2 I1) as I2.
      destruct (raise_caught _ _ _ I2 S e X) as [Y|Y].
      + destruct (IH S1 E I1 Y) as (x & y & A1 & A2 & A3 & A4). exists x, y. split; [exact A1|]. split; [exact A2|].
        split; [exact (cs_more _ _ _ A3 S)|exact A4].
      + exists b, c2. split; [exact S2|]. split; [exact S|]. split; [apply cs_refl|exact Y].
    - intros (a & b & A1 & A2 & A3 & A4). pose proof (Inv_steps _ _ _ Wdup Wslash _ _ _ A1 I1) as I2.
      exists EOFError. apply (raise_stays _ _ _ A3). exact (caught_raise _ _ _ I2 A4).
  Qed.

  Lemma ended_lemma s c1 c2 : holds held s -> csteps (c_start s out ws) c1 -> c_merge c1 = merge out -> csteps c1 c2 ->
    merged c2 -> (c_merge c2 = Ret tt <-> ~ was_caught c1 c2).
  Proof.
    intros H S1 E S2 D. rewrite <- (exact_lemma s c1 c2 H S1 E S2).
    unfold merged in D. destruct (c_merge c2) as [[]|e|o k]; cbn in D.
    - split; [intros _ [e X]; discriminate X|reflexivity].
    - split; [discriminate|]. intros X. exfalso. apply X. eauto.
    - destruct (fexec o (c_fs c2)); discriminate D.
  Qed.
End Job.
