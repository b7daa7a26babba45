(** * CliProofs: facts about the command lines *)
From Coq Require Import List String Ascii ZArith Bool Lia DecimalString DecimalZ DecimalPos.
From Verif Require Import Base BaseFacts PyStr CliModel SpecCli.
Import ListNotations.
Open Scope string_scope.
Open Scope Z_scope.

Lemma pbind_done {A B} (p : parse A) (f : A -> parse B) b :
  pbind p f = PDone b -> exists a, p = PDone a /\ f a = PDone b.
Proof. destruct p; cbn; intros H; try discriminate; eauto. Qed.

Lemma occ_nil sw : occ sw [] = 0.
Proof. reflexivity. Qed.
Lemma occ_app sw a b : occ sw (a ++ b)%list = occ sw a + occ sw b.
Proof. unfold occ. rewrite filter_app, app_length. lia. Qed.
Lemma occ_cons sw t l : occ sw (t :: l) = (if existsb (String.eqb t) sw then 1 else 0) + occ sw l.
Proof. unfold occ. cbn [filter]. destruct (existsb _ _); cbn [List.length]; lia. Qed.
Lemma occ_pos sw l : 0 <= occ sw l.
Proof. unfold occ. lia. Qed.
Lemma occ_zero sw l : (forall t, In t l -> existsb (String.eqb t) sw = false) -> occ sw l = 0.
Proof.
  induction l as [|t r IH]; intros H; [reflexivity|].
  rewrite occ_cons, (H t (or_introl eq_refl)), IH; [lia|]. intros u Hu. apply H. now right.
Qed.

(** ** Switches are conserved *)
Section Switch.
Variables (sw : list string) (d : string).

Definition fair_opt (o : optarg) : bool :=
  if String.eqb (oa_dest o) d
  then forallb (fun n => existsb (String.eqb n) sw) (oa_names o) && match oa_kind o with OCount => true | _ => false end
  else forallb (fun n => negb (existsb (String.eqb n) sw)) (oa_names o).
Definition fair (opts : list optarg) (acts : list posarg) : bool :=
  forallb fair_opt opts && forallb (fun a => negb (String.eqb (pa_dest a) d)) acts &&
  forallb (fun t => match classify opts t with TPos => false | _ => true end) sw.

Lemma fair_pos opts acts t : fair opts acts = true -> classify opts t = TPos -> existsb (String.eqb t) sw = false.
Proof.
  unfold fair. rewrite !andb_true_iff. intros [_ H] C. destruct (existsb _ _) eqn:E; [|reflexivity].
  apply existsb_exists in E as (u & Hu & E). apply String.eqb_eq in E. subst u.
  rewrite forallb_forall in H. specialize (H t Hu). rewrite C in H. discriminate.
Qed.

Lemma classify_opt opts t o : classify opts t = TOpt o -> In o opts /\ existsb (String.eqb t) (oa_names o) = true.
Proof.
  unfold classify. intros H.
  assert (F : find_opt opts t = Some o).
  { repeat match type of H with context [match ?x with _ => _ end] => destruct x eqn:?; try discriminate H end;
      inversion H; subst; reflexivity. }
  unfold find_opt in F. apply find_some in F. tauto.
Qed.

Lemma count_other n k v : k <> d -> count (dset n k v) d = count n d.
Proof. intros H. unfold count. rewrite dget_dset_other by congruence. reflexivity. Qed.
Lemma count_incr n : count (incr n d) d = count n d + 1.
Proof.
  unfold count, incr. rewrite dget_dset_same. destruct (dget n d) as [[]|]; lia.
Qed.

Lemma consume_count acts : forall chunk n acts' l n',
  forallb (fun a => negb (String.eqb (pa_dest a) d)) acts = true ->
  consume acts chunk n = PDone (acts', l, n') ->
  count n' d = count n d /\ (forall t, In t l -> In t chunk) /\
  forallb (fun a => negb (String.eqb (pa_dest a) d)) acts' = true.
Proof.
  induction acts as [|a r IH]; intros chunk n acts' l n' F H; cbn in H.
  - inversion H; subst. auto.
  - cbn in F. apply andb_true_iff in F as [Fa F]. apply negb_true_iff, String.eqb_neq in Fa.
    destruct chunk as [|t ts].
    + inversion H; subst. repeat split; auto. cbn. rewrite F. apply String.eqb_neq in Fa. now rewrite Fa.
    + destruct (pa_arity a).
      1, 2: apply pbind_done in H as (v & _ & H); apply IH in H as (H1 & H2 & H3); [|exact F];
          rewrite H1, count_other by exact Fa; repeat split; auto; intros u Hu; right; auto.
      all: apply pbind_done in H as (vs & _ & H); inversion H; subst; rewrite count_other by exact Fa;
          repeat split; auto; intros u [].
Qed.

Lemma flush_count acts chunk ex n acts' ex' n' :
  forallb (fun a => negb (String.eqb (pa_dest a) d)) acts = true ->
  (forall t, In t chunk -> existsb (String.eqb t) sw = false) ->
  flush acts chunk ex n = PDone (acts', ex', n') ->
  count n' d = count n d /\ occ sw ex' = occ sw ex /\
  forallb (fun a => negb (String.eqb (pa_dest a) d)) acts' = true.
Proof.
  unfold flush. intros F C H. apply pbind_done in H as ([[a l] m] & H & E). inversion E; subst; clear E.
  apply consume_count in H as (H1 & H2 & H3); [|exact F]. repeat split; auto.
  rewrite occ_app, (occ_zero sw l); [lia|]. intros t Ht. auto.
Qed.

Lemma fair_acts opts acts acts' :
  fair opts acts = true -> forallb (fun a => negb (String.eqb (pa_dest a) d)) acts' = true -> fair opts acts' = true.
Proof. unfold fair. rewrite !andb_true_iff. tauto. Qed.

Lemma known_count opts : forall toks acts chunk ex n ex' n',
  fair opts acts = true ->
  (forall t, In t chunk -> existsb (String.eqb t) sw = false) ->
  known opts acts toks chunk ex n = PDone (ex', n') ->
  count n' d + occ sw ex' = count n d + occ sw ex + occ sw toks.
Proof.
  intros toks. remember (List.length toks) as k eqn:K. assert (Hk : (List.length toks <= k)%nat) by lia. clear K.
  revert toks Hk. induction k as [|k IH]; intros toks Hk acts chunk ex n ex' n' F C H.
  - destruct toks; [|cbn in Hk; lia]. cbn [known] in H. apply pbind_done in H as ([[a e] m] & H & E).
    apply flush_count in H as (H1 & H2 & _); [|unfold fair in F; rewrite !andb_true_iff in F; tauto|exact C].
    cbn [fst snd] in E. destruct (existsb _ _); inversion E; subst. cbn. lia.
  - destruct toks as [|t rest].
    { cbn [known] in H. apply pbind_done in H as ([[a e] m] & H & E).
      apply flush_count in H as (H1 & H2 & _); [|unfold fair in F; rewrite !andb_true_iff in F; tauto|exact C].
      cbn [fst snd] in E. destruct (existsb _ _); inversion E; subst. cbn. lia. }
    cbn in Hk. cbn [known] in H. rewrite occ_cons.
    assert (Fo : forallb fair_opt opts = true /\ forallb (fun a => negb (String.eqb (pa_dest a) d)) acts = true)
      by (unfold fair in F; rewrite !andb_true_iff in F; tauto).
    destruct (classify opts t) as [|o| |] eqn:Ct; try discriminate.
    + pose proof (fair_pos _ _ _ F Ct) as Ht. rewrite Ht.
      apply IH in H; [lia|lia|exact F|]. intros u Hu. apply in_app_or in Hu as [Hu|[<-|[]]]; auto.
    + apply pbind_done in H as ([[a e] m] & Hf & H). cbn [fst snd] in H.
      apply flush_count in Hf as (H1 & H2 & H3); [|tauto|exact C].
      pose proof (fair_acts _ _ _ F H3) as F'.
      destruct (classify_opt _ _ _ Ct) as [Ho Hn].
      destruct Fo as [Fo _]. rewrite forallb_forall in Fo. specialize (Fo o Ho). unfold fair_opt in Fo.
      apply existsb_exists in Hn as (u & Hu & E). apply String.eqb_eq in E. subst u.
      destruct (String.eqb_spec (oa_dest o) d) as [Ed|Ed].
      * apply andb_true_iff in Fo as [Fn Fk]. rewrite forallb_forall in Fn. rewrite (Fn t Hu).
        destruct (oa_kind o); try discriminate.
        apply IH in H; [|lia|exact F'|intros u []]. rewrite Ed, count_incr in H. lia.
      * rewrite forallb_forall in Fo. specialize (Fo t Hu). apply negb_true_iff in Fo. rewrite Fo.
        destruct (oa_kind o) as [|int df| |]; try discriminate.
        -- apply IH in H; [|lia|exact F'|intros u []]. rewrite count_other in H by exact Ed. lia.
        -- destruct rest as [|v rest']; [discriminate|]. destruct (classify opts v) eqn:Cv; try discriminate.
           apply pbind_done in H as (c & _ & H). rewrite occ_cons, (fair_pos _ _ _ F Cv).
           apply IH in H; [|cbn in Hk; lia|exact F'|intros u []]. rewrite count_other in H by exact Ed. lia.
        -- apply IH in H; [|lia|exact F'|intros u []]. unfold incr in H. rewrite count_other in H by exact Ed. lia.
    + apply pbind_done in H as ([[a e] m] & Hf & H). cbn [fst snd] in H.
      apply flush_count in Hf as (H1 & H2 & H3); [|tauto|exact C].
      apply IH in H; [|lia|exact (fair_acts _ _ _ F H3)|intros u []].
      rewrite occ_app, occ_cons, occ_nil in H. destruct (existsb _ _); lia.
Qed.

(** When the parser knows the switch, none is left over. *)
Lemma known_none opts : forall toks acts chunk ex n ex' n',
  fair opts acts = true ->
  (forall t, In t sw -> find_opt opts t <> None /\ exists r, t = String "-" r) ->
  (forall t, In t chunk -> existsb (String.eqb t) sw = false) ->
  known opts acts toks chunk ex n = PDone (ex', n') -> occ sw ex' = occ sw ex.
Proof.
  intros toks. remember (List.length toks) as k eqn:K. assert (Hk : (List.length toks <= k)%nat) by lia. clear K.
  revert toks Hk. induction k as [|k IH]; intros toks Hk acts chunk ex n ex' n' F S C H.
  - destruct toks; [|cbn in Hk; lia]. cbn [known] in H. apply pbind_done in H as ([[a e] m] & H & E).
    apply flush_count in H as (H1 & H2 & _); [|unfold fair in F; rewrite !andb_true_iff in F; tauto|exact C].
    cbn [fst snd] in E. destruct (existsb _ _); inversion E; subst. exact H2.
  - destruct toks as [|t rest].
    { cbn [known] in H. apply pbind_done in H as ([[a e] m] & H & E).
      apply flush_count in H as (H1 & H2 & _); [|unfold fair in F; rewrite !andb_true_iff in F; tauto|exact C].
      cbn [fst snd] in E. destruct (existsb _ _); inversion E; subst. exact H2. }
    cbn in Hk. cbn [known] in H.
    assert (Fo : forallb fair_opt opts = true /\ forallb (fun a => negb (String.eqb (pa_dest a) d)) acts = true)
      by (unfold fair in F; rewrite !andb_true_iff in F; tauto).
    destruct (classify opts t) as [|o| |] eqn:Ct; try discriminate.
    + pose proof (fair_pos _ _ _ F Ct) as Ht.
      apply IH in H; [exact H|lia|exact F|exact S|]. intros u Hu. apply in_app_or in Hu as [Hu|[<-|[]]]; auto.
    + apply pbind_done in H as ([[a e] m] & Hf & H). cbn [fst snd] in H.
      apply flush_count in Hf as (H1 & H2 & H3); [|tauto|exact C].
      pose proof (fair_acts _ _ _ F H3) as F'.
      destruct (oa_kind o) as [|int df| |]; try discriminate.
      * apply IH in H; [|lia|exact F'|exact S|intros u []]. lia.
      * destruct rest as [|v rest']; [discriminate|]. destruct (classify opts v) eqn:Cv; try discriminate.
        apply pbind_done in H as (c & _ & H).
        apply IH in H; [|cbn in Hk; lia|exact F'|exact S|intros u []]. lia.
      * apply IH in H; [|lia|exact F'|exact S|intros u []]. lia.
    + apply pbind_done in H as ([[a e] m] & Hf & H). cbn [fst snd] in H.
      apply flush_count in Hf as (H1 & H2 & H3); [|tauto|exact C].
      apply IH in H; [|lia|exact (fair_acts _ _ _ F H3)|exact S|intros u []].
      rewrite occ_app, occ_cons, occ_nil in H.
      replace (existsb (String.eqb t) sw) with false in H; [lia|]. symmetry.
      destruct (existsb _ _) eqn:E; [|reflexivity]. exfalso.
      apply existsb_exists in E as (u & Hu & E). apply String.eqb_eq in E. subst u.
      destruct (S t Hu) as (S1 & r & ->). unfold classify in Ct. destruct (find_opt opts (String "-" r)); [discriminate|].
      now apply S1.
Qed.

Lemma to_sub_count opts : forall toks ex n name rest ex' n',
  fair opts [] = true ->
  to_sub opts toks ex n = PDone (name, rest, ex', n') ->
  count n' d + occ sw ex' + occ sw rest = count n d + occ sw ex + occ sw toks.
Proof.
  induction toks as [|t r IH]; intros ex n name rest ex' n' F H; cbn [to_sub] in H; [discriminate|].
  rewrite occ_cons. destruct (classify opts t) as [|o| |] eqn:Ct; try discriminate.
  - inversion H; subst. rewrite (fair_pos _ _ _ F Ct). lia.
  - destruct (classify_opt _ _ _ Ct) as [Ho Hn].
    assert (Fo : forallb fair_opt opts = true) by (unfold fair in F; rewrite !andb_true_iff in F; tauto).
    rewrite forallb_forall in Fo. specialize (Fo o Ho). unfold fair_opt in Fo.
    apply existsb_exists in Hn as (u & Hu & E). apply String.eqb_eq in E. subst u.
    destruct (oa_kind o); try discriminate. apply IH in H; [|exact F].
    destruct (String.eqb_spec (oa_dest o) d) as [Ed|Ed].
    + apply andb_true_iff in Fo as [Fn _]. rewrite forallb_forall in Fn. rewrite (Fn t Hu).
      rewrite Ed, count_incr in H. lia.
    + rewrite forallb_forall in Fo. specialize (Fo t Hu). apply negb_true_iff in Fo. rewrite Fo.
      unfold incr in H. rewrite count_other in H by exact Ed. lia.
  - apply IH in H; [|exact F]. rewrite occ_app, occ_cons, occ_nil in H. destruct (existsb _ _); lia.
Qed.
End Switch.

(** ** Keys of the namespace *)
Lemma dget_app {V} (a b : dict V) k : dget (a ++ b)%list k = match dget a k with Some v => Some v | None => dget b k end.
Proof. induction a as [|[x v] a IH]; cbn; [reflexivity|]. destruct (String.eqb k x); auto. Qed.
Lemma dset_app_in {V} (a b : dict V) k v : dget a k <> None -> dset (a ++ b)%list k v = (dset a k v ++ b)%list.
Proof.
  induction a as [|[x u] a IH]; cbn; intros H; [contradiction|].
  destruct (String.eqb k x); [reflexivity|]. cbn. now rewrite IH.
Qed.

Definition has_switches (n : ns) : Prop := dget n "verbose" <> None /\ dget n "quiet" <> None.
Lemma to_sub_switches toks : forall ex n name rest ex' n',
  has_switches n -> to_sub o_main toks ex n = PDone (name, rest, ex', n') -> has_switches n'.
Proof.
  induction toks as [|t r IH]; intros ex n name rest ex' n' S H; cbn [to_sub] in H; [discriminate|].
  destruct (classify o_main t) as [|o| |] eqn:Ct; try discriminate.
  - inversion H; subst. exact S.
  - destruct (oa_kind o); try discriminate. eapply IH; [|exact H]. unfold has_switches, incr in *.
    split; rewrite dget_dset; destruct (String.eqb _ _); try discriminate; tauto.
  - eapply IH; eauto.
Qed.
Lemma to_sub_help toks : forall ex name rest ex' n',
  to_sub [o_help] toks ex [] = PDone (name, rest, ex', n') -> n' = [].
Proof.
  induction toks as [|t r IH]; intros ex name rest ex' n' H; cbn [to_sub] in H; [discriminate|].
  destruct (classify [o_help] t) as [|o| |] eqn:Ct; try discriminate.
  - inversion H; subst. reflexivity.
  - destruct (classify_opt _ _ _ Ct) as [[<-|[]] _]. discriminate.
  - eapply IH; eauto.
Qed.

(** ** A run command: its subcommand and how the line was split *)
(** The parser part of a subcommand. *)
Definition body (s : subcmd) : string * list posarg * list optarg := (sc_func s, sc_pos s, sc_opts s).

Lemma below_in subs name s : In s (below subs name) ->
  exists s', In s' subs /\ body s' = body s /\ sc_path s' = name :: sc_path s.
Proof.
  unfold below. rewrite in_flat_map. intros (s' & H & H'). destruct (sc_path s') as [|p r] eqn:E; [destruct H'|].
  destruct (String.eqb_spec p name) as [->|]; [|destruct H']. destruct H' as [<-|[]]. exists s'. auto.
Qed.

Lemma line_split subs toks c :
  In subs programs -> command_line subs toks = PDone c ->
  exists s name rest extras n, In s subs /\
    to_sub o_main toks [] main_defaults = PDone (name, rest, extras, n) /\
    ((exists x, known (sc_opts s) (sc_pos s) rest [] [] (defaults (sc_opts s) (sc_pos s)) = PDone x /\
        finish_line (sc_func s) (extras ++ fst x)%list (n ++ snd x)%list = PDone c) \/
     (exists name2 rest2 extras2 x, to_sub [o_help] rest [] [] = PDone (name2, rest2, extras2, []) /\
        known (sc_opts s) (sc_pos s) rest2 [] [] (defaults (sc_opts s) (sc_pos s)) = PDone x /\
        finish_line (sc_func s) ((extras ++ extras2) ++ fst x)%list (n ++ snd x)%list = PDone c)).
Proof.
  intros Hp H. unfold command_line in H. apply pbind_done in H as ([[[name rest] extras] n] & Ht & H).
  assert (B : forall s ss, below subs name = s :: ss -> In s (below subs name)) by (intros s ss ->; now left).
  destruct (below subs name) as [|s ss] eqn:Eb; [discriminate|]. specialize (B s ss eq_refl).
  destruct ss as [|s2 ss].
  - destruct (sc_path s) eqn:Ep; [|discriminate].
    rewrite <- Eb in B. apply below_in in B as (s' & Hs & Eq & _). unfold body in Eq. inversion Eq as [[E1 E2 E3]].
    unfold run_sub in H. apply pbind_done in H as (x & Hk & H).
    exists s', name, rest, extras, n. split; [exact Hs|]. split; [exact Ht|]. left. exists x. now rewrite E1, E2, E3.
  - apply pbind_done in H as ([[[name2 rest2] extras2] n2] & Ht2 & H).
    pose proof (to_sub_help _ _ _ _ _ _ Ht2) as ->.
    destruct (below (s :: s2 :: ss) name2) as [|u us] eqn:Eb2; [discriminate|].
    assert (Bu : In u (below (s :: s2 :: ss) name2)) by (rewrite Eb2; now left).
    apply below_in in Bu as (u' & Hu & Eq & _). unfold body in Eq. inversion Eq as [[E1 E2 E3]].
    rewrite <- Eb in Hu. apply below_in in Hu as (v & Hv & Eqv & _). unfold body in Eqv. inversion Eqv as [[E4 E5 E6]].
    unfold run_sub in H. apply pbind_done in H as (x & Hk & H).
    exists v, name, rest, extras, n. split; [exact Hv|]. split; [exact Ht|]. right. exists name2, rest2, extras2, x.
    split; [exact Ht2|]. now rewrite E4, E1, E5, E2, E6, E3.
Qed.

(** Boolean checks over all subcommands. *)
Lemma over_subs (f : subcmd -> bool) :
  forallb f (List.concat programs) = true -> forall subs s, In subs programs -> In s subs -> f s = true.
Proof.
  intros H subs s H1 H2. rewrite forallb_forall in H. apply H. apply in_concat. eauto.
Qed.

Lemma known_dget_none opts d : forall toks acts chunk ex n ex' n',
  forallb (fun o => negb (String.eqb (oa_dest o) d)) opts = true ->
  forallb (fun a => negb (String.eqb (pa_dest a) d)) acts = true ->
  known opts acts toks chunk ex n = PDone (ex', n') -> dget n' d = dget n d.
Proof.
  assert (Cs : forall acts chunk n acts' l n',
      forallb (fun a => negb (String.eqb (pa_dest a) d)) acts = true ->
      consume acts chunk n = PDone (acts', l, n') ->
      dget n' d = dget n d /\ forallb (fun a => negb (String.eqb (pa_dest a) d)) acts' = true).
  { induction acts as [|a r IH]; intros chunk n acts' l n' F H; cbn in H.
    - inversion H; subst. auto.
    - cbn in F. apply andb_true_iff in F as [Fa F]. pose proof Fa as Fa'. apply negb_true_iff, String.eqb_neq in Fa.
      destruct chunk as [|t ts].
      + inversion H; subst. split; auto. cbn. rewrite F, Fa'. reflexivity.
      + destruct (pa_arity a).
        1, 2: apply pbind_done in H as (v & _ & H); apply IH in H as (H1 & H2); [|exact F];
          rewrite H1, dget_dset_other by congruence; auto.
        all: apply pbind_done in H as (vs & _ & H); inversion H; subst; rewrite dget_dset_other by congruence; auto. }
  intros toks. remember (List.length toks) as k eqn:K. assert (Hk : (List.length toks <= k)%nat) by lia. clear K.
  revert toks Hk. induction k as [|k IH]; intros toks Hk acts chunk ex n ex' n' Fo Fa H.
  - destruct toks; [|cbn in Hk; lia]. cbn [known] in H. apply pbind_done in H as ([[a e] m] & H & E).
    unfold flush in H. apply pbind_done in H as ([[a0 l0] m0] & H & E0). inversion E0; subst.
    apply Cs in H as [H _]; [|exact Fa]. cbn [fst snd] in E. destruct (existsb _ _); inversion E; subst. exact H.
  - destruct toks as [|t rest].
    { cbn [known] in H. apply pbind_done in H as ([[a e] m] & H & E).
      unfold flush in H. apply pbind_done in H as ([[a0 l0] m0] & H & E0). inversion E0; subst.
      apply Cs in H as [H _]; [|exact Fa]. cbn [fst snd] in E. destruct (existsb _ _); inversion E; subst. exact H. }
    cbn in Hk. cbn [known] in H. destruct (classify opts t) as [|o| |] eqn:Ct; try discriminate.
    + eapply IH; [|exact Fo|exact Fa|exact H]. lia.
    + apply pbind_done in H as ([[a e] m] & Hf & H). cbn [fst snd] in H.
      unfold flush in Hf. apply pbind_done in Hf as ([[a0 l0] m0] & Hf & E0). inversion E0; subst.
      apply Cs in Hf as [H1 H2]; [|exact Fa]. cbn [fst snd] in *.
      destruct (classify_opt _ _ _ Ct) as [Ho _].
      assert (Ne : oa_dest o <> d).
      { rewrite forallb_forall in Fo. specialize (Fo o Ho). now apply negb_true_iff, String.eqb_neq in Fo. }
      destruct (oa_kind o) as [|int df| |]; try discriminate.
      * apply IH in H; [|lia|exact Fo|exact H2]. rewrite H, dget_dset_other by congruence. exact H1.
      * destruct rest as [|v rest']; [discriminate|]. destruct (classify opts v) eqn:Cv; try discriminate.
        apply pbind_done in H as (c & _ & H).
        apply IH in H; [|cbn in Hk; lia|exact Fo|exact H2]. rewrite H, dget_dset_other by congruence. exact H1.
      * apply IH in H; [|lia|exact Fo|exact H2]. unfold incr in H. rewrite H, dget_dset_other by congruence. exact H1.
    + apply pbind_done in H as ([[a e] m] & Hf & H). cbn [fst snd] in H.
      unfold flush in Hf. apply pbind_done in Hf as ([[a0 l0] m0] & Hf & E0). inversion E0; subst.
      apply Cs in Hf as [H1 H2]; [|exact Fa]. cbn [fst snd] in *.
      apply IH in H; [|lia|exact Fo|exact H2]. now rewrite H.
Qed.

Lemma count_app_in n m d : dget n d <> None -> count (n ++ m)%list d = count n d.
Proof. intros H. unfold count. rewrite dget_app. destruct (dget n d); [reflexivity|contradiction]. Qed.

Lemma switch_count sw d :
  (sw = verbose_words /\ d = "verbose") \/ (sw = quiet_words /\ d = "quiet") ->
  forall subs toks c, In subs programs -> command_line subs toks = PDone c -> count (ca_args c) d = occ sw toks.
Proof.
  intros Hsd subs toks c Hp H. apply line_split in H as (s & name & rest & extras & n & Hs & Ht & H); [|exact Hp].
  assert (F1 : fair sw d o_main [] = true /\ fair sw d o_counts [] = true /\ fair sw d [o_help] [] = true /\
               count main_defaults d = 0)
    by (destruct Hsd as [[-> ->]|[-> ->]]; vm_compute; auto).
  destruct F1 as (F1 & F2 & F3 & F4).
  assert (Fs : fair sw d (sc_opts s) (sc_pos s) = true).
  { destruct Hsd as [[-> ->]|[-> ->]].
    - exact (over_subs (fun s => fair verbose_words "verbose" (sc_opts s) (sc_pos s)) eq_refl subs s Hp Hs).
    - exact (over_subs (fun s => fair quiet_words "quiet" (sc_opts s) (sc_pos s)) eq_refl subs s Hp Hs). }
  assert (Sk : forall t, In t sw -> find_opt o_counts t <> None /\ exists r, t = String "-" r).
  { destruct Hsd as [[-> ->]|[-> ->]]; intros t [<-|[<-|[]]]; split; try discriminate; eexists; reflexivity. }
  assert (Dn : dget (defaults (sc_opts s) (sc_pos s)) d = None /\
          forallb (fun o => negb (String.eqb (oa_dest o) d)) (sc_opts s) = true /\
          forallb (fun a => negb (String.eqb (pa_dest a) d)) (sc_pos s) = true).
  { pose (f := fun d s => (match dget (defaults (sc_opts s) (sc_pos s)) d with None => true | _ => false end &&
               forallb (fun o => negb (String.eqb (oa_dest o) d)) (sc_opts s) &&
               forallb (fun a => negb (String.eqb (pa_dest a) d)) (sc_pos s))%bool).
    assert (f d s = true) as E.
    { destruct Hsd as [[-> ->]|[-> ->]];
        [exact (over_subs (f "verbose") eq_refl subs s Hp Hs)|exact (over_subs (f "quiet") eq_refl subs s Hp Hs)]. }
    unfold f in E. rewrite !andb_true_iff in E. destruct E as [[E1 E2] E3]. repeat split; auto.
    destruct (dget _ d); [discriminate|reflexivity]. }
  destruct Dn as (Dn & Do & Da).
  pose proof (to_sub_count sw d _ _ _ _ _ _ _ _ F1 Ht) as T1. rewrite F4 in T1.
  assert (Sw : dget n d <> None).
  { assert (S0 : has_switches main_defaults) by (split; discriminate).
    pose proof (to_sub_switches _ _ _ _ _ _ _ S0 Ht) as [S1 S2]. destruct Hsd as [[-> ->]|[-> ->]]; assumption. }
  assert (End : forall ex x rest' c0, known (sc_opts s) (sc_pos s) rest' [] [] (defaults (sc_opts s) (sc_pos s)) = PDone x ->
    finish_line (sc_func s) (ex ++ fst x)%list (n ++ snd x)%list = PDone c0 ->
    count (ca_args c0) d = count n d + occ sw ex + occ sw rest').
  { intros ex [e m] rest' c0 Hk Hf. cbn [fst snd] in *.
    pose proof (known_count sw d _ _ _ _ _ _ _ _ Fs (fun t (h : In t []) => match h with end) Hk) as K1.
    pose proof (known_dget_none _ d _ _ _ _ _ _ _ Do Da Hk) as K2. rewrite Dn in K2.
    assert (K3 : count m d = 0) by (unfold count; now rewrite K2).
    assert (K4 : count (defaults (sc_opts s) (sc_pos s)) d = 0) by (unfold count; now rewrite Dn).
    unfold finish_line in Hf. apply pbind_done in Hf as ([e' m'] & Hk2 & E). inversion E; subst. cbn [ca_args fst snd].
    pose proof (known_count sw d _ _ _ _ _ _ _ _ F2 (fun t (h : In t []) => match h with end) Hk2) as K5.
    pose proof (known_none sw d _ _ _ _ _ _ _ _ F2 Sk (fun t (h : In t []) => match h with end) Hk2) as K6.
    rewrite count_app_in in K5 by exact Sw. rewrite occ_app in K5. rewrite occ_nil in *. lia. }
  destruct H as [(x & Hk & Hf)|(name2 & rest2 & extras2 & x & Ht2 & Hk & Hf)].
  - rewrite (End _ _ _ _ Hk Hf). rewrite occ_nil in T1. lia.
  - rewrite (End _ _ _ _ Hk Hf). rewrite occ_nil in T1. rewrite occ_app.
    pose proof (to_sub_count sw d _ _ _ _ _ _ _ _ F3 Ht2) as T2. rewrite occ_nil in T2. cbn in T2. lia.
Qed.

Lemma ca_level_args subs toks c : command_line subs toks = PDone c -> ca_level c = level (ca_args c).
Proof.
  assert (R : forall s t e n c, run_sub s t e n = PDone c -> ca_level c = level (ca_args c)).
  { intros s t e n c0 H. unfold run_sub in H. apply pbind_done in H as (x & _ & H). unfold finish_line in H.
    apply pbind_done in H as (y & _ & H). inversion H. reflexivity. }
  intros H. unfold command_line in H. apply pbind_done in H as ([[[name rest] extras] n] & _ & H).
  destruct (below subs name) as [|s [|s2 ss]]; [discriminate| |].
  - destruct (sc_path s); [|discriminate]. eapply R; eauto.
  - apply pbind_done in H as ([[[name2 rest2] extras2] n2] & _ & H).
    destruct (below _ name2); [discriminate|]. eapply R; eauto.
Qed.

Lemma C80_lemma subs toks c :
  In subs programs -> command_line subs toks = PDone c ->
  ca_level c = log_level (occ quiet_words toks) (occ verbose_words toks).
Proof.
  intros Hp H. rewrite (ca_level_args _ _ _ H). unfold level.
  rewrite (switch_count verbose_words "verbose" (or_introl (conj eq_refl eq_refl)) _ _ _ Hp H).
  rewrite (switch_count quiet_words "quiet" (or_intror (conj eq_refl eq_refl)) _ _ _ Hp H).
  unfold log_level. destruct (Z.leb_spec (occ quiet_words toks - occ verbose_words toks) (-1));
    [lia|]. destruct (Z.leb_spec 3 (occ quiet_words toks - occ verbose_words toks)); lia.
Qed.
