(** * CliProofs2: the arguments of the functions behind the subcommands *)
From Coq Require Import List String Ascii ZArith Bool Lia.
From Verif Require Import Base BaseFacts PyStr CliModel SpecCli CliProofs.
Import ListNotations.
Open Scope string_scope.
Open Scope Z_scope.

Definition needed (a : posarg) : bool := match pa_arity a with AOne | APlus => true | _ => false end.

Section Inv.
Variables (opts : list optarg) (I : list posarg -> ns -> Prop).
Hypothesis I_one : forall a r n t v, I (a :: r) n -> pa_arity a = AOne \/ pa_arity a = AOpt ->
  convert (pa_int a) (pa_choices a) t = PDone v -> I r (dset n (pa_dest a) v).
Hypothesis I_many : forall a r n l vs, I (a :: r) n -> pa_arity a = APlus \/ pa_arity a = AStar ->
  convert_all (pa_int a) l = PDone vs -> I r (dset n (pa_dest a) (CList vs)).
Hypothesis I_flag : forall acts n o, In o opts -> oa_kind o = OFlag -> I acts n -> I acts (dset n (oa_dest o) (CBool true)).
Hypothesis I_count : forall acts n o, In o opts -> oa_kind o = OCount -> I acts n -> I acts (incr n (oa_dest o)).
Hypothesis I_value : forall acts n o int df t c, In o opts -> oa_kind o = OValue int df -> convert int None t = PDone c ->
  I acts n -> I acts (dset n (oa_dest o) c).

Lemma consume_inv acts : forall chunk n acts' l n',
  consume acts chunk n = PDone (acts', l, n') -> I acts n -> I acts' n'.
Proof.
  induction acts as [|a r IH]; intros chunk n acts' l n' H HI; cbn [consume] in H.
  - inversion H; subst. auto.
  - destruct chunk as [|t ts]; [inversion H; subst; auto|].
    destruct (pa_arity a) eqn:Ea.
    1, 2: apply pbind_done in H as (v & Hv & H); apply IH in H; [exact H|]; eapply I_one; eauto.
    all: apply pbind_done in H as (vs & Hv & H); inversion H; subst; eapply I_many; eauto.
Qed.

Lemma known_inv : forall toks acts chunk ex n ex' n',
  known opts acts toks chunk ex n = PDone (ex', n') -> I acts n ->
  exists acts', I acts' n' /\ existsb needed acts' = false.
Proof.
  intros toks. remember (List.length toks) as k eqn:K. assert (Hk : (List.length toks <= k)%nat) by lia. clear K.
  revert toks Hk. induction k as [|k IH]; intros toks Hk acts chunk ex n ex' n' H HI.
  - destruct toks; [|cbn in Hk; lia]. cbn [known] in H. apply pbind_done in H as ([[a e] m] & H & E).
    unfold flush in H. apply pbind_done in H as ([[a0 l0] m0] & H & E0). inversion E0; subst.
    apply consume_inv in H; [|exact HI]. cbn [fst snd] in *. change (fun a => match pa_arity a with AOne | APlus => true | _ => false end) with needed in E.
    destruct (existsb _ _) eqn:En; inversion E; subst. eauto.
  - destruct toks as [|t rest].
    { cbn [known] in H. apply pbind_done in H as ([[a e] m] & H & E).
      unfold flush in H. apply pbind_done in H as ([[a0 l0] m0] & H & E0). inversion E0; subst.
      apply consume_inv in H; [|exact HI]. cbn [fst snd] in *. change (fun a => match pa_arity a with AOne | APlus => true | _ => false end) with needed in E.
      destruct (existsb _ _) eqn:En; inversion E; subst. eauto. }
    cbn in Hk. cbn [known] in H. destruct (classify opts t) as [|o| |] eqn:Ct; try discriminate.
    + eapply IH; [|exact H|exact HI]. lia.
    + apply pbind_done in H as ([[a e] m] & Hf & H). cbn [fst snd] in H.
      unfold flush in Hf. apply pbind_done in Hf as ([[a0 l0] m0] & Hf & E0). inversion E0; subst.
      apply consume_inv in Hf; [|exact HI]. cbn [fst snd] in *.
      destruct (classify_opt _ _ _ Ct) as [Ho _].
      destruct (oa_kind o) as [|int df| |] eqn:Ek; try discriminate.
      * eapply IH; [|exact H|]; [lia|]. eauto.
      * destruct rest as [|v rest']; [discriminate|]. destruct (classify opts v) eqn:Cv; try discriminate.
        apply pbind_done in H as (c & Hc & H). eapply IH; [|exact H|]; [cbn in Hk; lia|]. eauto.
      * eapply IH; [|exact H|]; [lia|]. eauto.
    + apply pbind_done in H as ([[a e] m] & Hf & H). cbn [fst snd] in H.
      unfold flush in Hf. apply pbind_done in Hf as ([[a0 l0] m0] & Hf & E0). inversion E0; subst.
      apply consume_inv in Hf; [|exact HI]. cbn [fst snd] in *. eapply IH; [|exact H|]; [lia|]. exact Hf.
Qed.
End Inv.

Definition opt_makes (k : ckind) (o : optarg) : bool :=
  match oa_kind o, k with
  | OFlag, KBool | OValue true _, KInt | OValue false _, (KText | KMaybe) => true
  | _, _ => false
  end.
Definition pos_makes (k : ckind) (a : posarg) : bool :=
  match pa_arity a, pa_int a, k with
  | (AOne | AOpt), true, KInt | (AOne | AOpt), false, (KText | KMaybe)
  | (AStar | APlus), true, KInts | (AStar | APlus), false, KTexts => true
  | _, _, _ => false
  end.
Definition supplies (s : subcmd) : bool :=
  forallb (fun dk =>
    forallb (fun o => negb (String.eqb (oa_dest o) (fst dk)) || opt_makes (snd dk) o) (sc_opts s) &&
    forallb (fun a => negb (String.eqb (pa_dest a) (fst dk)) || pos_makes (snd dk) a) (sc_pos s) &&
    (match dget (defaults (sc_opts s) (sc_pos s)) (fst dk) with Some v => of_kind (snd dk) v | None => false end ||
     existsb (fun a => String.eqb (pa_dest a) (fst dk) && needed a) (sc_pos s)) &&
    negb (String.eqb (fst dk) "verbose") && negb (String.eqb (fst dk) "quiet"))%bool
    (expects (sc_func s)).
Lemma all_supply : forallb supplies (List.concat programs) = true.
Proof. vm_compute. reflexivity. Qed.

Lemma convert_kind int ch t v : convert int ch t = PDone v -> if int then is_int v = true else is_text v = true.
Proof.
  unfold convert. destruct int.
  - destruct (int_of t); intros H; inversion H; reflexivity.
  - destruct (match ch with Some l => _ | None => _ end); intros H; inversion H; reflexivity.
Qed.
Lemma convert_all_kind int : forall l vs, convert_all int l = PDone vs -> forallb (if int then is_int else is_text) vs = true.
Proof.
  induction l as [|t r IH]; cbn; intros vs H; [inversion H; reflexivity|].
  apply pbind_done in H as (v & Hv & H). apply pbind_done in H as (ws & Hw & H). inversion H; subst. cbn.
  apply convert_kind in Hv. apply IH in Hw. destruct int; rewrite Hv; exact Hw.
Qed.

Definition typed (f : string) (acts : list posarg) (n : ns) : Prop :=
  forall d k, In (d, k) (expects f) ->
    (exists v, dget n d = Some v /\ of_kind k v = true) \/ (exists a, In a acts /\ pa_dest a = d /\ needed a = true).

Lemma known_typed s toks e n :
  supplies s = true ->
  known (sc_opts s) (sc_pos s) toks [] [] (defaults (sc_opts s) (sc_pos s)) = PDone (e, n) ->
  typed (sc_func s) [] n.
Proof.
  intros Sp H.
  pose (I := fun acts m => typed (sc_func s) acts m /\ incl acts (sc_pos s)).
  assert (Sp' : forall d k, In (d, k) (expects (sc_func s)) ->
      (forall o, In o (sc_opts s) -> oa_dest o = d -> opt_makes k o = true) /\
      (forall a, In a (sc_pos s) -> pa_dest a = d -> pos_makes k a = true) /\
      ((exists v, dget (defaults (sc_opts s) (sc_pos s)) d = Some v /\ of_kind k v = true) \/
       (exists a, In a (sc_pos s) /\ pa_dest a = d /\ needed a = true))).
  { intros d k Hd. unfold supplies in Sp. rewrite forallb_forall in Sp. specialize (Sp _ Hd). cbn [fst snd] in Sp.
    rewrite !andb_true_iff in Sp. destruct Sp as [[[[S1 S2] S3] _] _]. rewrite forallb_forall in S1, S2. split; [|split].
    - intros o Ho <-. specialize (S1 o Ho). rewrite String.eqb_refl in S1. exact S1.
    - intros a Ha <-. specialize (S2 a Ha). rewrite String.eqb_refl in S2. exact S2.
    - apply orb_true_iff in S3 as [S3|S3].
      + left. destruct (dget _ d) as [v|]; [|discriminate]. eauto.
      + right. apply existsb_exists in S3 as (a & Ha & E). apply andb_true_iff in E as [E1 E2].
        apply String.eqb_eq in E1. eauto. }
  apply (known_inv (sc_opts s) I) in H.
  - destruct H as (acts' & [Ht _] & Hn). intros d k Hd. destruct (Ht d k Hd) as [L|(a & Ha & _ & Na)]; [now left|].
    exfalso. assert (existsb needed acts' = true) by (apply existsb_exists; eauto). congruence.
  - intros a r m t v [Ht Hi] Ar Hv. split; [|intros x Hx; apply Hi; now right].
    intros d k Hd. rewrite dget_dset. destruct (String.eqb_spec d (pa_dest a)) as [E|E].
    + left. exists v. split; [reflexivity|]. destruct (Sp' d k Hd) as (_ & P & _).
      specialize (P a (Hi a (or_introl eq_refl)) (eq_sym E)). apply convert_kind in Hv. unfold pos_makes in P.
      destruct Ar as [Ar|Ar]; rewrite Ar in P; destruct (pa_int a), k; try discriminate; destruct v; try discriminate; reflexivity.
    + destruct (Ht d k Hd) as [L|(b & [Hb|Hb] & Eb & Nb)]; [now left| |right; eauto]. subst b. congruence.
  - intros a r m l vs [Ht Hi] Ar Hv. split; [|intros x Hx; apply Hi; now right].
    intros d k Hd. rewrite dget_dset. destruct (String.eqb_spec d (pa_dest a)) as [E|E].
    + left. exists (CList vs). split; [reflexivity|]. destruct (Sp' d k Hd) as (_ & P & _).
      specialize (P a (Hi a (or_introl eq_refl)) (eq_sym E)). apply convert_all_kind in Hv. unfold pos_makes in P.
      destruct Ar as [Ar|Ar]; rewrite Ar in P; destruct (pa_int a), k; try discriminate; exact Hv.
    + destruct (Ht d k Hd) as [L|(b & [Hb|Hb] & Eb & Nb)]; [now left| |right; eauto]. subst b. congruence.
  - intros acts m o Ho Ko [Ht Hi]. split; [|exact Hi].
    intros d k Hd. rewrite dget_dset. destruct (String.eqb_spec d (oa_dest o)) as [E|E].
    + left. exists (CBool true). split; [reflexivity|]. destruct (Sp' d k Hd) as (P & _ & _).
      specialize (P o Ho (eq_sym E)). unfold opt_makes in P. rewrite Ko in P. destruct k; try discriminate. reflexivity.
    + exact (Ht d k Hd).
  - intros acts m o Ho Ko [Ht Hi]. split; [|exact Hi].
    intros d k Hd. unfold incr. rewrite dget_dset. destruct (String.eqb_spec d (oa_dest o)) as [E|E].
    + destruct (Sp' d k Hd) as (P & _ & _). specialize (P o Ho (eq_sym E)). unfold opt_makes in P. rewrite Ko in P. discriminate.
    + exact (Ht d k Hd).
  - intros acts m o int df t c Ho Ko Hc [Ht Hi]. split; [|exact Hi].
    intros d k Hd. rewrite dget_dset. destruct (String.eqb_spec d (oa_dest o)) as [E|E].
    + left. exists c. split; [reflexivity|]. destruct (Sp' d k Hd) as (P & _ & _).
      specialize (P o Ho (eq_sym E)). unfold opt_makes in P. rewrite Ko in P. apply convert_kind in Hc.
      destruct int, k; try discriminate; destruct c; try discriminate; reflexivity.
    + exact (Ht d k Hd).
  - split; [|apply incl_refl]. intros d k Hd. destruct (Sp' d k Hd) as (_ & _ & P). exact P.
Qed.

(** The main parser only sets the switches. *)
Lemma to_sub_other d toks : d <> "verbose" -> d <> "quiet" -> forall ex n name rest ex' n',
  to_sub o_main toks ex n = PDone (name, rest, ex', n') -> dget n' d = dget n d.
Proof.
  intros Nv Nq. induction toks as [|t r IH]; intros ex n name rest ex' n' H; cbn [to_sub] in H; [discriminate|].
  destruct (classify o_main t) as [|o| |] eqn:Ct; try discriminate.
  - inversion H; subst. reflexivity.
  - destruct (classify_opt _ _ _ Ct) as [Ho _].
    destruct (oa_kind o) eqn:Ek; try discriminate. apply IH in H. rewrite H. unfold incr.
    apply dget_dset_other. destruct Ho as [<-|[<-|[<-|[]]]]; cbn in *; congruence.
  - apply IH in H. exact H.
Qed.

Lemma C82_lemma subs toks c :
  In subs programs -> command_line subs toks = PDone c ->
  (exists s, In s subs /\ ca_func c = sc_func s) /\
  forall d k, In (d, k) (expects (ca_func c)) -> exists v, dget (ca_args c) d = Some v /\ of_kind k v = true.
Proof.
  intros Hp H. apply line_split in H as (s & name & rest & extras & n & Hs & Ht & H); [|exact Hp].
  pose proof (over_subs supplies all_supply subs s Hp Hs) as Sp.
  assert (End : forall ex x rest', known (sc_opts s) (sc_pos s) rest' [] [] (defaults (sc_opts s) (sc_pos s)) = PDone x ->
    finish_line (sc_func s) (ex ++ fst x)%list (n ++ snd x)%list = PDone c ->
    ca_func c = sc_func s /\
    forall d k, In (d, k) (expects (sc_func s)) -> exists v, dget (ca_args c) d = Some v /\ of_kind k v = true).
  { intros ex [e m] rest' Hk Hf. cbn [fst snd] in *. unfold finish_line in Hf.
    apply pbind_done in Hf as ([e' m'] & Hk2 & E). inversion E; subst; clear E. cbn [ca_func ca_args fst snd].
    split; [reflexivity|]. intros d k Hd.
    assert (Nd : d <> "verbose" /\ d <> "quiet").
    { unfold supplies in Sp. rewrite forallb_forall in Sp. specialize (Sp _ Hd). cbn [fst snd] in Sp.
      rewrite !andb_true_iff in Sp. destruct Sp as [[_ S1] S2]. apply negb_true_iff, String.eqb_neq in S1, S2. auto. }
    destruct Nd as [Nv Nq].
    assert (Eo : forallb (fun o => negb (String.eqb (oa_dest o) d)) o_counts = true).
    { unfold o_counts. cbn [forallb oa_dest]. apply not_eq_sym, String.eqb_neq in Nv. apply not_eq_sym, String.eqb_neq in Nq.
      rewrite Nv, Nq. reflexivity. }
    rewrite (known_dget_none o_counts d _ [] _ _ _ _ _ Eo eq_refl Hk2).
    rewrite dget_app, (to_sub_other d _ Nv Nq _ _ _ _ _ _ Ht).
    replace (dget main_defaults d) with (@None cval);
      [|unfold main_defaults; cbn [dget]; apply String.eqb_neq in Nv; apply String.eqb_neq in Nq; rewrite Nv, Nq; reflexivity].
    destruct (known_typed s _ _ _ Sp Hk d k Hd) as [L|(a & [] & _)]. exact L. }
  assert (R : ca_func c = sc_func s /\
    forall d k, In (d, k) (expects (sc_func s)) -> exists v, dget (ca_args c) d = Some v /\ of_kind k v = true).
  { destruct H as [(x & Hk & Hf)|(name2 & rest2 & extras2 & x & Ht2 & Hk & Hf)]; eapply End; eauto. }
  destruct R as [R1 R2]. split; [exists s; auto|]. rewrite R1. exact R2.
Qed.
