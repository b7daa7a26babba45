(** * CliProofs5: why a command line is refused (C81) *)
From Coq Require Import List String Ascii ZArith Bool Lia.
From Verif Require Import Base BaseFacts PyStr CliModel SpecCli SpecCli2 SpecCli3 CliProofs CliProofs2 CliProofs4.
Import ListNotations.
Open Scope string_scope.
Open Scope Z_scope.

Lemma pbind_exit {A B} (p : parse A) (f : A -> parse B) c :
  pbind p f = PExit c -> p = PExit c \/ exists a, p = PDone a /\ f a = PExit c.
Proof. destruct p; cbn; intros H; try discriminate; eauto. left. congruence. Qed.
Lemma pbind_un {A B} (p : parse A) (f : A -> parse B) :
  pbind p f = PUnmodelled -> p = PUnmodelled \/ exists a, p = PDone a /\ f a = PUnmodelled.
Proof. destruct p; cbn; intros H; try discriminate; eauto. Qed.

Lemma part_read_app opts acts ps mid qs left :
  part_read opts acts ps mid -> part_read opts mid qs left -> part_read opts acts (ps ++ qs) left.
Proof.
  induction 1; intros Q; cbn [app]; auto.
  - apply pr_flag; auto.
  - eapply pr_value; eauto.
  - apply pr_one; auto.
  - apply pr_many; auto.
  - apply pr_unknown; auto.
  - apply pr_surplus; auto.
Qed.

Lemma convert_exit int ch t c : convert int ch t = PExit c ->
  c = 2 /\ (if int then int_of t = None else ~ match ch with Some l => In t l | None => True end).
Proof.
  unfold convert. destruct int.
  - destruct (int_of t); [discriminate|]. intros [= <-]. auto.
  - destruct ch as [l|]; [|discriminate]. destruct (existsb (String.eqb t) l) eqn:E; [discriminate|].
    intros [= <-]. split; [reflexivity|]. intros X. apply not_true_iff_false in E. apply E, existsb_exists.
    exists t. split; [exact X|apply String.eqb_refl].
Qed.
Lemma convert_all_exit int : forall l c, convert_all int l = PExit c ->
  c = 2 /\ int = true /\ exists t, In t l /\ int_of t = None.
Proof.
  induction l as [|t r IH]; cbn [convert_all]; intros c H; [discriminate|].
  apply pbind_exit in H as [H|(v & Hv & H)].
  - apply convert_exit in H as [-> H]. destruct int; [|elim H; exact I]. split; [reflexivity|]. split; [reflexivity|].
    exists t. split; [now left|exact H].
  - apply pbind_exit in H as [H|(w & _ & H)]; [|discriminate]. apply IH in H as (-> & -> & u & Hu & E).
    split; [reflexivity|]. split; [reflexivity|]. exists u. split; [now right|exact E].
Qed.
Lemma convert_un int ch t : convert int ch t <> PUnmodelled.
Proof. unfold convert. destruct int; [destruct (int_of t)|destruct ch as [l|]; [destruct (existsb _ l)|]]; discriminate. Qed.
Lemma convert_all_un int : forall l, convert_all int l <> PUnmodelled.
Proof.
  induction l as [|t r IH]; cbn [convert_all]; [discriminate|]. intros H.
  apply pbind_un in H as [H|(v & _ & H)]; [exact (convert_un _ _ _ H)|].
  apply pbind_un in H as [H|(w & _ & H)]; [exact (IH H)|discriminate].
Qed.

Lemma classify_dashed opts t : (exists o, classify opts t = TOpt o) \/ classify opts t = TUnknown -> dashed t.
Proof.
  unfold classify. intros H. destruct t as [|x r]; [destruct H as [[o H]|H]; discriminate H|].
  destruct (Ascii.eqb_spec x "-") as [->|N]; [exists r; reflexivity|]. exfalso.
  destruct x as [[] [] [] [] [] [] [] []]; try (destruct H as [[o H]|H]; discriminate H). apply N; reflexivity.
Qed.

Lemma some_name_in opts f : some_name opts f = true -> exists o n, In o opts /\ In n (oa_names o) /\ f n = true.
Proof.
  unfold some_name. intros H. apply existsb_exists in H as (o & Ho & H). apply existsb_exists in H as (n & Hn & H). eauto 6.
Qed.
Lemma classify_odd opts t : classify opts t = TOdd -> unusual opts t.
Proof.
  unfold classify. intros H. destruct t as [|x r]; [discriminate|].
  destruct (Ascii.eqb_spec x "-") as [->|N].
  2: { exfalso. destruct x as [[] [] [] [] [] [] [] []]; try discriminate H. apply N; reflexivity. }
  destruct (find_opt opts (String "-" r)) as [o|] eqn:F; [discriminate|].
  destruct r as [|c r]; [discriminate|].
  destruct (String.eqb_spec (String "-" (String c r)) "--") as [E|N1]; [left; exact E|].
  destruct (has_char "=" (String "-" (String c r))) eqn:Q; [right; left; split; [eexists; reflexivity|exact Q]|].
  destruct (Ascii.eqb_spec c "-") as [->|N2].
  - destruct (some_name opts _) eqn:S; [|destruct (has_char " " _); discriminate H].
    apply some_name_in in S as (o & n & Ho & Hn & E). right; right; left. exists r, o, n. auto.
  - destruct (some_name opts _) eqn:S.
    + apply some_name_in in S as (o & n & Ho & Hn & E). apply String.eqb_eq in E. subst n.
      right; right; right; left. exists c, r, o. split; [reflexivity|]. split; [exact Ho|]. split; [exact Hn|].
      intros ->. unfold find_opt in F. apply (find_none _ _ F) in Ho. apply not_true_iff_false in Ho. apply Ho.
      apply existsb_exists. eexists. split; [exact Hn|apply String.eqb_refl].
    + destruct (int_of _) eqn:I; [discriminate|]. destruct (digit_or_dot c) eqn:D; [|destruct (has_char " " _); discriminate H].
      right; right; right; right. exists c, r. split; [reflexivity|]. split; [exact I|].
      unfold digit_or_dot in D. apply orb_prop in D as [D|D]; [left; apply Ascii.eqb_eq; exact D|right].
      apply andb_prop in D as [D1 D2]. apply Nat.leb_le in D1. apply Nat.leb_le in D2. auto.
Qed.

Section Known.
Variable opts : list optarg.
Hypothesis no_count : forall o, In o opts -> oa_kind o <> OCount.

Lemma consume_part acts : forall chunk n acts' l n', consume acts chunk n = PDone (acts', l, n') ->
  exists ps, chunk = flat_map words ps /\ part_read opts acts ps acts'.
Proof.
  induction acts as [|a r IH]; intros chunk n acts' l n' H; cbn [consume] in H.
  - injection H as <- <- <-. exists (map PIgnored chunk). rewrite words_ignored. split; [reflexivity|].
    clear. induction chunk as [|t l IH]; cbn; [constructor|]. apply pr_surplus, IH.
  - destruct chunk as [|t ts]; [injection H as <- <- <-; exists []; split; [reflexivity|constructor]|].
    destruct (pa_arity a) eqn:Ea.
    1, 2: apply pbind_done in H as (v & Hv & H); apply IH in H as (ps & E & R);
      destruct (convert_reads _ _ _ _ Hv) as [Rv Al]; exists (PArg a [t] v :: ps);
      (split; [cbn; rewrite E; reflexivity|]); apply pr_one; [rewrite Ea; auto|exact Rv|exact Al|exact R].
    1, 2: apply pbind_done in H as (vs & Hv & H); injection H as <- <- <-; exists [PArg a (t :: ts) (CList vs)];
      (split; [cbn; rewrite app_nil_r; reflexivity|]); apply pr_many; [rewrite Ea; auto|apply convert_all_reads, Hv|constructor].
Qed.
Lemma consume_exit acts : forall chunk n c, consume acts chunk n = PExit c ->
  c = 2 /\ exists ps left l, chunk = (flat_map words ps ++ l)%list /\ part_read opts acts ps left /\
    forall rest, fault opts left (l ++ rest).
Proof.
  induction acts as [|a r IH]; intros chunk n c H; cbn [consume] in H; [discriminate|].
  destruct chunk as [|t ts]; [discriminate|]. destruct (pa_arity a) eqn:Ea.
  1, 2: apply pbind_exit in H as [H|(v & Hv & H)];
    [ apply convert_exit in H as [-> H]; split; [reflexivity|]; exists [], (a :: r), (t :: ts);
      split; [reflexivity|]; split; [constructor|]; intros rest; cbn [app]; eapply f_word; [reflexivity|rewrite Ea; auto|];
      destruct (pa_int a); exact H
    | apply IH in H as (-> & ps & left & l & E & R & F); split; [reflexivity|];
      destruct (convert_reads _ _ _ _ Hv) as [Rv Al]; exists (PArg a [t] v :: ps), left, l;
      split; [cbn; rewrite E; reflexivity|]; split; [|exact F]; apply pr_one; [rewrite Ea; auto|exact Rv|exact Al|exact R] ].
  1, 2: apply pbind_exit in H as [H|(vs & _ & H)]; [|discriminate];
    apply convert_all_exit in H as (-> & Ei & u & Hu & E); split; [reflexivity|]; exists [], (a :: r), (t :: ts);
    (split; [reflexivity|]); (split; [constructor|]); intros rest; eapply f_words; [reflexivity|rewrite Ea; auto|exact Ei|exact Hu|exact E].
Qed.
Lemma consume_un acts : forall chunk n, consume acts chunk n <> PUnmodelled.
Proof.
  induction acts as [|a r IH]; intros chunk n H; cbn [consume] in H; [discriminate|].
  destruct chunk as [|t ts]; [discriminate|]. destruct (pa_arity a).
  1, 2: apply pbind_un in H as [H|(v & _ & H)]; [exact (convert_un _ _ _ H)|exact (IH _ _ H)].
  1, 2: apply pbind_un in H as [H|(v & _ & H)]; [exact (convert_all_un _ _ H)|discriminate].
Qed.
Lemma flush_part acts chunk ex n acts' ex' n' : flush acts chunk ex n = PDone (acts', ex', n') ->
  exists ps, chunk = flat_map words ps /\ part_read opts acts ps acts'.
Proof.
  unfold flush. intros H. apply pbind_done in H as ([[a l] m] & H & E). cbn [fst snd] in E. injection E as <- <- <-.
  eapply consume_part; eauto.
Qed.
Lemma flush_exit acts chunk ex n c : flush acts chunk ex n = PExit c ->
  c = 2 /\ exists ps left l, chunk = (flat_map words ps ++ l)%list /\ part_read opts acts ps left /\
    forall rest, fault opts left (l ++ rest).
Proof.
  unfold flush. intros H. apply pbind_exit in H as [H|(x & _ & H)]; [|discriminate]. eapply consume_exit; eauto.
Qed.
Lemma flush_un acts chunk ex n : flush acts chunk ex n <> PUnmodelled.
Proof.
  unfold flush. intros H. apply pbind_un in H as [H|(x & _ & H)]; [|discriminate]. exact (consume_un _ _ _ H).
Qed.

Lemma known_exit : forall toks acts chunk ex n c,
  known opts acts toks chunk ex n = PExit c ->
  (c = 0 /\ exists o t, In o opts /\ oa_kind o = OExit /\ In t (oa_names o) /\ In t toks) \/
  (c = 2 /\ exists ps left l, (chunk ++ toks)%list = (flat_map words ps ++ l)%list /\
     part_read opts acts ps left /\ fault opts left l).
Proof.
  intros toks. remember (List.length toks) as k eqn:K. assert (Hk : (List.length toks <= k)%nat) by lia. clear K.
  revert toks Hk. induction k as [|k IH]; intros toks Hk acts chunk ex n c H.
  all: destruct toks as [|t rest].
  1, 3: cbn [known] in H; right; apply pbind_exit in H as [H|([[a e] m] & H & E)];
    [ apply flush_exit in H as (-> & ps & left & l & E & R & F); split; [reflexivity|]; exists ps, left, l;
      rewrite app_nil_r; split; [exact E|]; split; [exact R|]; specialize (F []); rewrite app_nil_r in F; exact F |];
    cbn [fst snd] in E; match type of E with (if ?b then _ else _) = _ => destruct b eqn:B; [|discriminate E] end;
    injection E as <-; destruct (flush_part _ _ _ _ _ _ _ H) as (ps & W & R); split; [reflexivity|];
    exists ps, a, []; rewrite !app_nil_r; split; [exact W|]; split; [exact R|];
    apply existsb_exists in B as (x & Hx & B); apply (f_missing opts a x Hx); intros [Y|Y]; rewrite Y in B; discriminate.
  - cbn in Hk; lia.
  - cbn [known] in H. cbn [List.length] in Hk.
    assert (Fx : forall cc, flush acts chunk ex n = PExit cc ->
      cc = 2 /\ exists ps left l, (chunk ++ t :: rest)%list = (flat_map words ps ++ l)%list /\
        part_read opts acts ps left /\ fault opts left l).
    { intros cc Hf. apply flush_exit in Hf as (-> & ps & left & l & E & R & F). split; [reflexivity|].
      exists ps, left, (l ++ t :: rest)%list. split; [rewrite E, <- app_assoc; reflexivity|]. split; [exact R|apply F]. }
    destruct (classify opts t) as [|o| |] eqn:Ct.
    + apply IH in H; [|lia]. destruct H as [(-> & o & u & H1 & H2 & H3 & H4)|(-> & ps & left & l & E & R & F)].
      * left. split; [reflexivity|]. exists o, u. repeat split; auto. now right.
      * right. split; [reflexivity|]. exists ps, left, l. rewrite <- app_assoc in E. auto.
    + destruct (classify_opt _ _ _ Ct) as [Ho Hn]. apply existsb_exists in Hn as (u & Hu & E). apply String.eqb_eq in E. subst u.
      apply pbind_exit in H as [Hf|([[a e] m] & Hf & H)]; [right; apply Fx; exact Hf|]. cbn [fst snd] in H.
      destruct (flush_part _ _ _ _ _ _ _ Hf) as (ps & W & R).
      destruct (oa_kind o) as [|int df| |] eqn:Ek.
      * apply IH in H; [|lia]. destruct H as [(-> & o2 & u & H1 & H2 & H3 & H4)|(-> & qs & left & l & E & R2 & F)].
        { left. split; [reflexivity|]. exists o2, u. repeat split; auto. now right. }
        right. split; [reflexivity|]. exists (ps ++ POption o t None (CBool true) :: qs)%list, left, l.
        rewrite flat_map_app. cbn [flat_map words app]. cbn [app] in E. rewrite E, W, <- app_assoc. cbn [app].
        split; [reflexivity|]. split; [|exact F]. eapply part_read_app; [exact R|]. apply pr_flag; auto.
      * destruct rest as [|w rest].
        { injection H as <-. right. split; [reflexivity|]. exists ps, a, [t]. rewrite W. split; [reflexivity|]. split; [exact R|].
          eapply f_no_value; eauto. }
        assert (Dv : (PExit 2 : parse (list string * ns)) = PExit c -> dashed w ->
          (c = 2 /\ exists ps left l, (chunk ++ t :: w :: rest)%list = (flat_map words ps ++ l)%list /\
             part_read opts acts ps left /\ fault opts left l)).
        { intros E Dw. injection E as <-. split; [reflexivity|]. exists ps, a, (t :: w :: rest). rewrite W. split; [reflexivity|].
          split; [exact R|]. eapply f_no_value; eauto. }
        destruct (classify opts w) as [|o2| |] eqn:Cw.
        { apply pbind_exit in H as [H|(v & Hv & H)].
          - apply convert_exit in H as [-> H]. destruct int; [|elim H; exact I]. right. split; [reflexivity|].
            exists ps, a, (t :: w :: rest). rewrite W. split; [reflexivity|]. split; [exact R|]. eapply f_value; eauto.
          - apply IH in H; [|cbn in Hk; lia]. destruct H as [(-> & o2 & u & H1 & H2 & H3 & H4)|(-> & qs & left & l & E & R2 & F)].
            { left. split; [reflexivity|]. exists o2, u. repeat split; auto. now right; right. }
            right. split; [reflexivity|]. exists (ps ++ POption o t (Some w) v :: qs)%list, left, l.
            rewrite flat_map_app. cbn [flat_map words app]. cbn [app] in E. rewrite E, W, <- app_assoc. cbn [app].
            split; [reflexivity|]. split; [|exact F]. eapply part_read_app; [exact R|].
            eapply pr_value; eauto. apply (convert_reads _ _ _ _ Hv). }
        { right. apply Dv; [exact H|]. apply (classify_dashed opts). eauto. }
        { right. apply Dv; [exact H|]. apply (classify_dashed opts). eauto. }
        discriminate H.
      * elim (no_count o Ho Ek).
      * injection H as <-. left. split; [reflexivity|]. exists o, t. repeat split; auto. now left.
    + apply pbind_exit in H as [Hf|([[a e] m] & Hf & H)]; [right; apply Fx; exact Hf|]. cbn [fst snd] in H.
      destruct (flush_part _ _ _ _ _ _ _ Hf) as (ps & W & R).
      apply IH in H; [|lia]. destruct H as [(-> & o2 & u & H1 & H2 & H3 & H4)|(-> & qs & left & l & E & R2 & F)].
      { left. split; [reflexivity|]. exists o2, u. repeat split; auto. now right. }
      right. split; [reflexivity|]. exists (ps ++ PIgnored t :: qs)%list, left, l.
      rewrite flat_map_app. cbn [flat_map words app]. cbn [app] in E. rewrite E, W, <- app_assoc. cbn [app].
      split; [reflexivity|]. split; [|exact F]. eapply part_read_app; [exact R|].
      destruct (classify_unknown opts _ Ct) as [U1 U2]. apply pr_unknown; auto.
    + discriminate H.
Qed.
End Known.

Lemma known_un opts : forall toks acts chunk ex n,
  known opts acts toks chunk ex n = PUnmodelled -> exists t, In t toks /\ unusual opts t.
Proof.
  intros toks. remember (List.length toks) as k eqn:K. assert (Hk : (List.length toks <= k)%nat) by lia. clear K.
  revert toks Hk. induction k as [|k IH]; intros toks Hk acts chunk ex n H.
  all: destruct toks as [|t rest].
  1, 3: cbn [known] in H; apply pbind_un in H as [H|(x & _ & H)]; [elim (flush_un _ _ _ _ H)|];
    match type of H with (if ?b then _ else _) = _ => destruct b; discriminate H end.
  - cbn in Hk; lia.
  - cbn [known] in H. cbn [List.length] in Hk.
    assert (N : forall r a ch e m, (List.length r <= k)%nat -> (forall u, In u r -> In u (t :: rest)) ->
      known opts a r ch e m = PUnmodelled -> exists u, In u (t :: rest) /\ unusual opts u).
    { intros r a ch e m L S Hr. apply IH in Hr as (u & Hu & U); [|exact L]. eauto. }
    destruct (classify opts t) as [|o| |] eqn:Ct.
    + eapply N; [| |exact H]; [lia|now right].
    + apply pbind_un in H as [H|(x & _ & H)]; [elim (flush_un _ _ _ _ H)|]. cbv zeta in H.
      destruct (oa_kind o); try discriminate H.
      1, 3: eapply N; [| |exact H]; [lia|now right].
      destruct rest as [|w rest]; [discriminate|]. destruct (classify opts w) eqn:Cw; try discriminate H.
      * apply pbind_un in H as [H|(v & _ & H)]; [elim (convert_un _ _ _ H)|].
        eapply N; [| |exact H]; [cbn in Hk; lia|]. intros u Hu. now right; right.
      * exists w. split; [now right; left|apply classify_odd; exact Cw].
    + apply pbind_un in H as [H|(x & _ & H)]; [elim (flush_un _ _ _ _ H)|]. eapply N; [| |exact H]; [lia|now right].
    + exists t. split; [now left|apply classify_odd; exact Ct].
Qed.

Lemma counts_no_exit : forall toks chunk ex n c, known o_counts [] toks chunk ex n <> PExit c.
Proof.
  induction toks as [|t r IH]; intros chunk ex n c H; cbn [known flush consume pbind fst snd] in H.
  - unfold flush in H. cbn in H. discriminate H.
  - destruct (classify o_counts t) as [|o| |] eqn:Ct.
    + exact (IH _ _ _ _ H).
    + destruct (counts_opt t o Ct) as [_ Ek]. rewrite Ek in H. unfold flush in H. cbn in H. exact (IH _ _ _ _ H).
    + unfold flush in H. cbn in H. exact (IH _ _ _ _ H).
    + discriminate H.
Qed.

Lemma to_sub_exit opts : forall toks ex n c, to_sub opts toks ex n = PExit c ->
  (c = 0 /\ exists o t, In o opts /\ oa_kind o <> OCount /\ In t (oa_names o) /\ In t toks) \/
  (c = 2 /\ Forall dashed toks).
Proof.
  induction toks as [|t r IH]; intros ex n c H; cbn [to_sub] in H.
  - injection H as <-. right. auto.
  - destruct (classify opts t) as [|o| |] eqn:Ct; try discriminate.
    + destruct (classify_opt _ _ _ Ct) as [Ho Hn]. apply existsb_exists in Hn as (u & Hu & E). apply String.eqb_eq in E. subst u.
      destruct (oa_kind o) eqn:Ek.
      3: { apply IH in H as [(-> & o2 & u & H1 & H2 & H3 & H4)|[-> F]].
           - left. split; [reflexivity|]. exists o2, u. repeat split; auto. now right.
           - right. split; [reflexivity|]. constructor; [|exact F]. apply (classify_dashed opts). eauto. }
      all: injection H as <-; left; split; [reflexivity|]; exists o, t; rewrite Ek; repeat split; auto; try discriminate; now left.
    + apply IH in H as [(-> & o2 & u & H1 & H2 & H3 & H4)|[-> F]].
      * left. split; [reflexivity|]. exists o2, u. repeat split; auto. now right.
      * right. split; [reflexivity|]. constructor; [|exact F]. apply (classify_dashed opts). eauto.
Qed.
Lemma to_sub_un opts : forall toks ex n, to_sub opts toks ex n = PUnmodelled -> exists t, In t toks /\ unusual opts t.
Proof.
  induction toks as [|t r IH]; intros ex n H; cbn [to_sub] in H; [discriminate|].
  destruct (classify opts t) as [|o| |] eqn:Ct; try discriminate.
  - destruct (oa_kind o); try discriminate. apply IH in H as (u & Hu & U). exists u. split; [now right|exact U].
  - apply IH in H as (u & Hu & U). exists u. split; [now right|exact U].
  - exists t. split; [now left|apply classify_odd; exact Ct].
Qed.

Lemma in_below subs s name q : In s subs -> sc_path s = name :: q ->
  In (mkSub q (sc_func s) (sc_pos s) (sc_opts s)) (below subs name).
Proof.
  intros Hs P. unfold below. apply in_flat_map. exists s. split; [exact Hs|]. rewrite P, String.eqb_refl. now left.
Qed.
(** A name is a subcommand, or the first word of at least two. *)
Lemma groups subs name : In subs programs ->
  match below subs name with
  | [] => True
  | [s] => sc_path s = []
  | ss => forall s, In s ss -> sc_path s <> []
  end.
Proof.
  intros Hp.
  assert (X : forallb (fun subs => forallb (fun s => match sc_path s with
      | n :: _ => match below subs n with
                  | [] => false
                  | [s'] => match sc_path s' with [] => true | _ => false end
                  | ss => forallb (fun s' => match sc_path s' with [] => false | _ => true end) ss
                  end
      | [] => false end) subs) programs = true) by (vm_compute; reflexivity).
  rewrite forallb_forall in X. specialize (X subs Hp). rewrite forallb_forall in X.
  destruct (below subs name) as [|s0 ss] eqn:B; [exact I|].
  destruct (below_in subs name s0) as (s & Hs & _ & P); [rewrite B; now left|].
  specialize (X s Hs). rewrite P, B in X. destruct ss as [|s1 ss].
  - destruct (sc_path s0); [reflexivity|discriminate].
  - rewrite forallb_forall in X. intros u Hu E. specialize (X u Hu). rewrite E in X. discriminate.
Qed.
Lemma no_exit_name subs s o t : In subs programs -> In s subs -> In o (sc_opts s) -> oa_kind o = OExit -> In t (oa_names o) -> asks t.
Proof.
  intros Hp Hs Ho Ek Ht.
  pose proof (over_subs (fun s => forallb (fun o => match oa_kind o with
     | OExit => forallb (fun t => existsb (String.eqb t) ["-h"; "--help"; "--version"]) (oa_names o)
     | _ => true end) (sc_opts s)) eq_refl subs s Hp Hs) as X. cbv beta in X. rewrite forallb_forall in X.
  specialize (X o Ho). rewrite Ek, forallb_forall in X. specialize (X t Ht). apply existsb_exists in X as (u & Hu & E).
  apply String.eqb_eq in E. subst u. exact Hu.
Qed.
Lemma nonempty subs : In subs programs -> exists s q, In s subs /\ sc_path s = ([] ++ q)%list /\ q <> [].
Proof.
  intros [<-|[<-|[<-|[]]]]; eexists; eexists; (split; [left; reflexivity|]); split; try reflexivity; discriminate.
Qed.
Lemma no_counts subs s o : In subs programs -> In s subs -> In o (sc_opts s) -> oa_kind o <> OCount.
Proof.
  intros Hp Hs. pose proof (over_subs (fun s => forallb (fun o => match oa_kind o with OCount => false | _ => true end) (sc_opts s))
        eq_refl subs s Hp Hs) as X. cbv beta in X. rewrite forallb_forall in X. intros Ho E. specialize (X o Ho). rewrite E in X. discriminate.
Qed.

Lemma run_sub_exit subs s s' rest extras n c : In subs programs -> In s subs -> body s = body s' ->
  run_sub s' rest extras n = PExit c ->
  (c = 0 /\ exists t, In t rest /\ asks t) \/
  (c = 2 /\ exists ps left l, rest = (flat_map words ps ++ l)%list /\
     part_read (sc_opts s) (sc_pos s) ps left /\ fault (sc_opts s) left l).
Proof.
  intros Hp Hs B R. unfold run_sub in R.
  assert (B' : sc_func s' = sc_func s /\ sc_pos s' = sc_pos s /\ sc_opts s' = sc_opts s)
    by (unfold body in B; injection B as -> -> ->; auto).
  destruct B' as (B1 & B2 & B3). rewrite B1, B2, B3 in R.
  apply pbind_exit in R as [K|([e m] & K & R)].
  - apply (known_exit _ (fun o => no_counts subs s o Hp Hs)) in K as [(-> & o & t & H1 & H2 & H3 & H4)|(-> & ps & left & l & E & P & F)].
    + left. split; [reflexivity|]. exists t. split; [exact H4|]. eapply no_exit_name; eauto.
    + right. split; [reflexivity|]. exists ps, left, l. auto.
  - unfold finish_line in R. apply pbind_exit in R as [K2|(x & _ & R)]; [|discriminate]. elim (counts_no_exit _ _ _ _ _ K2).
Qed.

Lemma C81_refused_lemma subs toks c : In subs programs -> command_line subs toks = PExit c ->
  (c = 0 /\ exists t, In t toks /\ asks t) \/
  (c = 2 /\ lost subs toks) \/
  (c = 2 /\ exists s fronts ps left l, In s subs /\
    List.length fronts = List.length (sc_path s) /\ Forall (Forall dashed) fronts /\
    toks = (fronted fronts (sc_path s) ++ flat_map words ps ++ l)%list /\
    part_read (sc_opts s) (sc_pos s) ps left /\ fault (sc_opts s) left l).
Proof.
  intros Hp H. unfold command_line in H.
  apply pbind_exit in H as [T|([[[name rest] extras] n] & T & H)].
  { apply to_sub_exit in T as [(-> & o & t & H1 & H2 & H3 & H4)|[-> F]].
    - left. split; [reflexivity|]. exists t. split; [exact H4|].
      cbn in H1. destruct H1 as [<-|[<-|[<-|[]]]]; try (elim H2; reflexivity). destruct H3 as [<-|[]]. cbn. auto.
    - right; left. split; [reflexivity|]. exists [], [], toks. split; [reflexivity|]. split; [constructor|]. split; [reflexivity|].
      split; [apply nonempty; exact Hp|]. left. exact F. }
  destruct (to_sub_words _ _ _ _ _ _ _ _ T) as (f & -> & Ff & _).
  pose proof (groups subs name Hp) as G.
  destruct (below subs name) as [|s0 ss] eqn:Bl.
  { injection H as <-. right; left. split; [reflexivity|]. exists [], [], (f ++ name :: rest)%list.
    split; [reflexivity|]. split; [constructor|]. split; [reflexivity|].
    split; [apply nonempty; exact Hp|]. right. exists f, name, rest. split; [reflexivity|]. split; [exact Ff|].
    intros s q Hs P. pose proof (in_below _ _ _ _ Hs P) as X. rewrite Bl in X. destruct X. }
  assert (L2 : forall s, In s subs -> (List.length (sc_path s) <= 2)%nat).
  { intros s Hs. apply Nat.leb_le. exact (over_subs (fun s => Nat.leb (List.length (sc_path s)) 2) eq_refl subs s Hp Hs). }
  destruct ss as [|s1 ss].
  - rewrite G in H. destruct (below_in subs name s0) as (s & Hs & B & P); [rewrite Bl; now left|]. rewrite G in P.
    apply (run_sub_exit subs s s0 rest extras n c Hp Hs B) in H as [(-> & t & Ht & A)|(-> & ps & left & l & E & R & F)].
    + left. split; [reflexivity|]. exists t. split; [|exact A]. apply in_or_app. now right; right.
    + right; right. split; [reflexivity|]. exists s, [f], ps, left, l. rewrite P. cbn [List.length fronted].
      split; [exact Hs|]. split; [reflexivity|]. split; [repeat constructor; exact Ff|].
      split; [rewrite E, <- app_assoc; reflexivity|]. auto.
  - cbv iota beta in H.
    assert (Gr : exists s q, In s subs /\ sc_path s = ([name] ++ q)%list /\ q <> []).
    { destruct (below_in subs name s0) as (s & Hs & B & P); [rewrite Bl; now left|].
      exists s, (sc_path s0). split; [exact Hs|]. split; [exact P|]. apply G. now left. }
    apply pbind_exit in H as [T2|([[[name2 rest2] extras2] n2] & T2 & H)].
    { apply to_sub_exit in T2 as [(-> & o & t & H1 & H2 & H3 & H4)|[-> F]].
      - left. split; [reflexivity|]. exists t. split; [apply in_or_app; now right; right|].
        destruct H1 as [<-|[]]. destruct H3 as [<-|[<-|[]]]; cbn; auto.
      - right; left. split; [reflexivity|]. exists [name], [f], rest. split; [reflexivity|].
        split; [repeat constructor; exact Ff|]. split; [cbn; rewrite <- app_assoc; reflexivity|].
        split; [exact Gr|]. left. exact F. }
    destruct (to_sub_words _ _ _ _ _ _ _ _ T2) as (g & -> & Fg & _).
    destruct (below (s0 :: s1 :: ss) name2) as [|s2 r2] eqn:Bl2.
    { injection H as <-. right; left. split; [reflexivity|]. exists [name], [f], (g ++ name2 :: rest2)%list. split; [reflexivity|].
      split; [repeat constructor; exact Ff|]. split; [cbn; rewrite <- app_assoc; reflexivity|]. split; [exact Gr|].
      right. exists g, name2, rest2. split; [reflexivity|]. split; [exact Fg|].
      intros s q Hs P. cbn [app] in P. pose proof (in_below _ _ _ _ Hs P) as X. rewrite Bl in X.
      pose proof (in_below _ _ name2 q X eq_refl) as Y. rewrite Bl2 in Y. destruct Y. }
    destruct (below_in (s0 :: s1 :: ss) name2 s2) as (s3 & H3 & B3 & P3); [rewrite Bl2; now left|].
    destruct (below_in subs name s3) as (s & Hs & B & P); [rewrite Bl; exact H3|].
    assert (P2 : sc_path s2 = []).
    { specialize (L2 s Hs). rewrite P, P3 in L2. destruct (sc_path s2); [reflexivity|cbn in L2; lia]. }
    rewrite P3, P2 in P.
    apply (run_sub_exit subs s s2 rest2 _ n c Hp Hs (eq_trans B B3)) in H as [(-> & t & Ht & A)|(-> & ps & left & l & E & R & F)].
    + left. split; [reflexivity|]. exists t. split; [|exact A]. apply in_or_app. right; right. apply in_or_app. now right; right.
    + right; right. split; [reflexivity|]. exists s, [f; g], ps, left, l. rewrite P. cbn [List.length fronted].
      split; [exact Hs|]. split; [reflexivity|]. split; [repeat constructor; assumption|].
      split; [rewrite E, <- !app_assoc; cbn [app]; rewrite <- app_assoc; reflexivity|]. auto.
Qed.

Lemma ignored_words t ps : In t (flat_map ignored ps) -> In t (flat_map words ps).
Proof.
  rewrite !in_flat_map. intros (p & Hp & H). exists p. split; [exact Hp|]. destruct p; cbn in *; auto; contradiction.
Qed.
Lemma run_sub_un subs s s' rest extras n : In subs programs -> In s subs -> body s = body s' ->
  run_sub s' rest extras n = PUnmodelled ->
  exists t, (In t rest \/ In t extras) /\ exists opts, In opts (parsers subs) /\ unusual opts t.
Proof.
  intros Hp Hs B R. unfold run_sub in R.
  assert (B' : sc_func s' = sc_func s /\ sc_pos s' = sc_pos s /\ sc_opts s' = sc_opts s)
    by (unfold body in B; injection B as -> -> ->; auto).
  destruct B' as (B1 & B2 & B3). rewrite B1, B2, B3 in R.
  apply pbind_un in R as [K|([e m] & K & R)].
  - apply known_un in K as (t & Ht & U). exists t. split; [now left|]. exists (sc_opts s). split; [|exact U].
    right; right; right. apply in_map. exact Hs.
  - unfold finish_line in R. apply pbind_un in R as [K2|(x & _ & R)]; [|discriminate]. cbn [fst snd] in K2.
    apply known_un in K2 as (t & Ht & U). exists t. split.
    + apply in_app_or in Ht as [Ht|Ht]; [now right|left].
      destruct (known_pieces _ (fun o => no_counts subs s o Hp Hs) _ _ _ _ _ _ _ K) as (ps & W & _ & I & _).
      cbn [app] in W, I. rewrite W. apply ignored_words. rewrite <- I. exact Ht.
    + exists o_counts. split; [now right; right; left|exact U].
Qed.
Lemma to_sub_extras opts : forall toks ex n name rest ex' n', to_sub opts toks ex n = PDone (name, rest, ex', n') ->
  forall t, In t ex' -> In t ex \/ In t toks.
Proof.
  induction toks as [|t r IH]; intros ex n name rest ex' n' H u Hu; cbn [to_sub] in H; [discriminate|].
  destruct (classify opts t) as [|o| |] eqn:Ct; try discriminate.
  - injection H as <- <- <- _. auto.
  - destruct (oa_kind o); try discriminate. destruct (IH _ _ _ _ _ _ H u Hu); [auto|right; now right].
  - destruct (IH _ _ _ _ _ _ H u Hu) as [X|X]; [|right; now right]. apply in_app_or in X as [X|[<-|[]]]; [auto|right; now left].
Qed.

Lemma C81_unread_lemma subs toks : In subs programs -> command_line subs toks = PUnmodelled ->
  exists t opts, In t toks /\ In opts (parsers subs) /\ unusual opts t.
Proof.
  intros Hp H. unfold command_line in H.
  apply pbind_un in H as [T|([[[name rest] extras] n] & T & H)].
  { apply to_sub_un in T as (t & Ht & U). exists t, o_main. split; [exact Ht|]. split; [now left|exact U]. }
  pose proof (to_sub_extras _ _ _ _ _ _ _ _ T) as X.
  destruct (to_sub_words _ _ _ _ _ _ _ _ T) as (f & E & Ff & _).
  assert (Rs : forall t, In t rest -> In t toks) by (intros t Ht; rewrite E; apply in_or_app; now right; right).
  pose proof (groups subs name Hp) as G.
  destruct (below subs name) as [|s0 ss] eqn:Bl; [discriminate|].
  destruct ss as [|s1 ss].
  - rewrite G in H. destruct (below_in subs name s0) as (s & Hs & B & P); [rewrite Bl; now left|].
    destruct (run_sub_un subs s s0 rest extras n Hp Hs B H) as (t & Ht & opts & Ho & U).
    exists t, opts. split; [|auto]. destruct Ht as [Ht|Ht]; [auto|]. destruct (X t Ht) as [[]|Y]; exact Y.
  - cbv iota beta in H.
    apply pbind_un in H as [T2|([[[name2 rest2] extras2] n2] & T2 & H)].
    { apply to_sub_un in T2 as (t & Ht & U). exists t, [o_help]. split; [auto|]. split; [now right; left|exact U]. }
    pose proof (to_sub_extras _ _ _ _ _ _ _ _ T2) as X2.
    destruct (to_sub_words _ _ _ _ _ _ _ _ T2) as (g & E2 & Fg & _).
    destruct (below (s0 :: s1 :: ss) name2) as [|s2 r2] eqn:Bl2; [discriminate|].
    destruct (below_in (s0 :: s1 :: ss) name2 s2) as (s3 & H3 & B3 & P3); [rewrite Bl2; now left|].
    destruct (below_in subs name s3) as (s & Hs & B & P); [rewrite Bl; exact H3|].
    destruct (run_sub_un subs s s2 rest2 _ n Hp Hs (eq_trans B B3) H) as (t & Ht & opts & Ho & U).
    exists t, opts. split; [|auto]. destruct Ht as [Ht|Ht].
    + apply Rs. rewrite E2. apply in_or_app. now right; right.
    + apply in_app_or in Ht as [Ht|Ht].
      * destruct (X t Ht) as [[]|Y]; exact Y.
      * destruct (X2 t Ht) as [[]|Y]; auto.
Qed.
