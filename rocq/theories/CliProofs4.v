(** * CliProofs4: every word of a command line is accounted for (C81) *)
From Coq Require Import List String Ascii ZArith Bool Lia.
From Verif Require Import Base BaseFacts PyStr CliModel SpecCli SpecCli2 CliProofs CliProofs2.
Import ListNotations.
Open Scope string_scope.
Open Scope Z_scope.

Lemma last_set_app d ps : forall qs x, last_set d (ps ++ qs)%list x = last_set d qs (last_set d ps x).
Proof. induction ps as [|p ps IH]; intros qs x; cbn; [reflexivity|]. apply IH. Qed.
Lemma last_set_ignored d l : forall x, last_set d (map PIgnored l) x = x.
Proof. induction l as [|t l IH]; intros x; cbn; [reflexivity|]. apply IH. Qed.
Lemma words_ignored l : flat_map words (map PIgnored l) = l.
Proof. induction l as [|t l IH]; cbn; [reflexivity|]. now rewrite IH. Qed.
Lemma ignored_ignored l : flat_map ignored (map PIgnored l) = l.
Proof. induction l as [|t l IH]; cbn; [reflexivity|]. now rewrite IH. Qed.

Lemma convert_reads int ch t v : convert int ch t = PDone v ->
  reads int t v /\ (int = false -> match ch with Some l => In t l | None => True end).
Proof.
  unfold convert, reads. destruct int.
  - destruct (int_of t) as [z|]; [|discriminate]. intros [= <-]. split; [eauto|discriminate].
  - destruct ch as [l|].
    + destruct (existsb (String.eqb t) l) eqn:E; [|discriminate]. intros [= <-]. split; [reflexivity|]. intros _.
      apply existsb_exists in E as (u & Hu & E). apply String.eqb_eq in E. now subst.
    + intros [= <-]. auto.
Qed.
Lemma convert_all_reads int : forall l vs, convert_all int l = PDone vs -> Forall2 (reads int) l vs.
Proof.
  induction l as [|t r IH]; cbn; intros vs H; [inversion H; constructor|].
  apply pbind_done in H as (v & Hv & H). apply pbind_done in H as (ws & Hw & H). inversion H; subst.
  constructor; [apply (convert_reads _ _ _ _ Hv)|apply IH, Hw].
Qed.

Section Known.
Variable opts : list optarg.
Hypothesis no_count : forall o, In o opts -> oa_kind o <> OCount.

Lemma consume_pieces acts : forall chunk n acts' l n', consume acts chunk n = PDone (acts', l, n') ->
  exists ps, chunk = (flat_map words ps ++ l)%list /\ flat_map ignored ps = [] /\ (l <> [] -> acts' = []) /\
    (forall qs, reading opts acts' qs -> reading opts acts (ps ++ qs)) /\
    forall d, dget n' d = last_set d ps (dget n d).
Proof.
  induction acts as [|a r IH]; intros chunk n acts' l n' H; cbn [consume] in H.
  - injection H as <- <- <-. exists []. repeat split; auto.
  - destruct chunk as [|t ts]; [injection H as <- <- <-; exists []; repeat split; auto; contradiction|].
    destruct (pa_arity a) eqn:Ea.
    1, 2: apply pbind_done in H as (v & Hv & H); apply IH in H as (ps & E & G & L & R & D);
      destruct (convert_reads _ _ _ _ Hv) as [Rv Al]; exists (PArg a [t] v :: ps); cbn [flat_map words ignored app];
      (split; [rewrite E; reflexivity|]); (split; [exact G|]); (split; [exact L|]);
      (split; [intros qs Q; cbn [app]; apply rd_one; [rewrite Ea; auto|exact Rv|exact Al|apply R, Q]|]);
      intros d; cbn [last_set]; rewrite D, dget_dset; reflexivity.
    1, 2: apply pbind_done in H as (vs & Hv & H); injection H as <- <- <-; exists [PArg a (t :: ts) (CList vs)];
      cbn [flat_map words ignored app]; rewrite app_nil_r, ?app_nil_r; repeat split; auto; try contradiction;
      [intros qs Q; apply rd_many; [rewrite Ea; auto|apply convert_all_reads, Hv|exact Q]|intros d; cbn [last_set]; apply dget_dset].
Qed.

Lemma flush_pieces acts chunk ex n acts' ex' n' : flush acts chunk ex n = PDone (acts', ex', n') ->
  exists ps, chunk = flat_map words ps /\ ex' = (ex ++ flat_map ignored ps)%list /\
    (forall qs, reading opts acts' qs -> reading opts acts (ps ++ qs)) /\
    forall d, dget n' d = last_set d ps (dget n d).
Proof.
  unfold flush. intros H. apply pbind_done in H as ([[a l] m] & H & E). cbn [fst snd] in E. injection E as <- <- <-.
  destruct (consume_pieces _ _ _ _ _ _ H) as (ps & E & G & L & R & D).
  exists (ps ++ map PIgnored l)%list. rewrite !flat_map_app, words_ignored, ignored_ignored, G. cbn [app].
  split; [exact E|]. split; [reflexivity|]. split.
  - intros qs Q. rewrite <- app_assoc. apply R.
    destruct l as [|t l]; [exact Q|]. rewrite (L ltac:(discriminate)) in *.
    clear - Q. induction (t :: l) as [|u r IH]; [exact Q|]. apply rd_surplus, IH.
  - intros d. rewrite last_set_app, last_set_ignored. apply D.
Qed.

Lemma classify_unknown t : classify opts t = TUnknown -> dashed t /\ forall o, In o opts -> ~ In t (oa_names o).
Proof.
  unfold classify. intros H.
  assert (X : dashed t /\ find_opt opts t = None).
  { repeat match type of H with context [match ?x with _ => _ end] => destruct x eqn:?; try discriminate H end;
      (split; [eexists; reflexivity|reflexivity]). }
  destruct X as [D F]. split; [exact D|]. intros o Ho Hn. unfold find_opt in F.
  apply (find_none _ _ F) in Ho. rewrite <- not_true_iff_false in Ho. apply Ho.
  apply existsb_exists. exists t. split; [exact Hn|apply String.eqb_refl].
Qed.

Lemma known_pieces : forall toks acts chunk ex n ex' n',
  known opts acts toks chunk ex n = PDone (ex', n') ->
  exists ps, (chunk ++ toks)%list = flat_map words ps /\ reading opts acts ps /\
    ex' = (ex ++ flat_map ignored ps)%list /\ forall d, dget n' d = last_set d ps (dget n d).
Proof.
  intros toks. remember (List.length toks) as k eqn:K. assert (Hk : (List.length toks <= k)%nat) by lia. clear K.
  revert toks Hk. induction k as [|k IH]; intros toks Hk acts chunk ex n ex' n' H.
  all: destruct toks as [|t rest].
  1, 3: cbn [known] in H; apply pbind_done in H as ([[a e] m] & H & E); cbn [fst snd] in E;
    match type of E with (if ?b then _ else _) = _ => destruct b eqn:B; [discriminate E|] end; injection E as <- <-;
    destruct (flush_pieces _ _ _ _ _ _ _ H) as (ps & W & I & R & D); exists ps; rewrite app_nil_r;
    (split; [exact W|]); (split; [|split; [exact I|exact D]]); specialize (R []); rewrite app_nil_r in R; apply R, rd_end;
    rewrite Forall_forall; intros x Hx; unfold may_miss; clear - B Hx;
    (assert (N : match pa_arity x with AOne | APlus => true | _ => false end = false)
      by (apply not_true_iff_false; intros Y; apply not_true_iff_false in B; apply B, existsb_exists; eauto));
    destruct (pa_arity x); auto; discriminate N.
  - cbn in Hk; lia.
  - cbn [known] in H. cbn [List.length] in Hk. destruct (classify opts t) as [|o| |] eqn:Ct.
    + apply IH in H as (ps & W & R); [|lia]. exists ps. rewrite <- app_assoc in W. auto.
    + destruct (classify_opt _ _ _ Ct) as [Ho Hn]. apply existsb_exists in Hn as (u & Hu & E). apply String.eqb_eq in E. subst u.
      apply pbind_done in H as ([[a e] m] & Hf & H). cbn [fst snd] in H.
      destruct (flush_pieces _ _ _ _ _ _ _ Hf) as (ps & W & I & R & D).
      destruct (oa_kind o) as [|int df| |] eqn:Ek.
      * apply IH in H as (qs & W2 & R2 & I2 & D2); [|lia]. exists (ps ++ POption o t None (CBool true) :: qs)%list.
        rewrite !flat_map_app. cbn [flat_map words ignored app].
        split; [rewrite <- W; cbn [app] in W2; rewrite W2; reflexivity|].
        split; [apply R, rd_flag; auto|]. split; [rewrite I2, I, <- app_assoc; reflexivity|].
        intros d. rewrite D2, last_set_app. cbn [last_set]. rewrite dget_dset, D. reflexivity.
      * destruct rest as [|w rest]; [discriminate H|]. destruct (classify opts w); try discriminate H.
        apply pbind_done in H as (v & Hv & H). apply IH in H as (qs & W2 & R2 & I2 & D2); [|cbn in Hk; lia].
        exists (ps ++ POption o t (Some w) v :: qs)%list.
        rewrite !flat_map_app. cbn [flat_map words ignored app].
        split; [rewrite <- W; cbn [app] in W2; rewrite W2; reflexivity|].
        split; [apply R; eapply rd_value; eauto; apply (convert_reads _ _ _ _ Hv)|]. split; [rewrite I2, I, <- app_assoc; reflexivity|].
        intros d. rewrite D2, last_set_app. cbn [last_set]. rewrite dget_dset, D. reflexivity.
      * elim (no_count o Ho Ek).
      * discriminate H.
    + apply pbind_done in H as ([[a e] m] & Hf & H). cbn [fst snd] in H.
      destruct (flush_pieces _ _ _ _ _ _ _ Hf) as (ps & W & I & R & D).
      apply IH in H as (qs & W2 & R2 & I2 & D2); [|lia]. exists (ps ++ PIgnored t :: qs)%list.
      rewrite !flat_map_app. cbn [flat_map words ignored app].
      split; [rewrite <- W; cbn [app] in W2; rewrite W2; reflexivity|].
      destruct (classify_unknown _ Ct) as [U1 U2].
      split; [apply R, rd_unknown; auto|]. split; [rewrite I2, I, <- !app_assoc; reflexivity|].
      intros d. rewrite D2, last_set_app. cbn [last_set]. rewrite D. reflexivity.
    + discriminate H.
Qed.
End Known.

(** The second parser takes the switches out. *)
Lemma counts_pos t : classify o_counts t = TPos \/ classify o_counts t = TUnknown -> switch t = false.
Proof.
  intros H. apply not_true_iff_false. intros S. unfold switch in S. apply existsb_exists in S as (u & Hu & E).
  apply String.eqb_eq in E. subst u. cbn in Hu. destruct Hu as [<-|[<-|[<-|[<-|[]]]]]; cbn in H; destruct H; discriminate.
Qed.
Lemma counts_opt t o : classify o_counts t = TOpt o -> switch t = true /\ oa_kind o = OCount.
Proof.
  intros H. destruct (classify_opt _ _ _ H) as [Ho Hn]. apply existsb_exists in Hn as (u & Hu & E). apply String.eqb_eq in E. subst u.
  cbn in Ho. destruct Ho as [<-|[<-|[]]]; cbn in Hu; destruct Hu as [<-|[<-|[]]]; split; reflexivity.
Qed.
Lemma known_counts : forall toks chunk ex n ex' n',
  (forall t, In t chunk -> switch t = false) ->
  known o_counts [] toks chunk ex n = PDone (ex', n') ->
  ex' = (ex ++ chunk ++ filter (fun t => negb (switch t)) toks)%list.
Proof.
  induction toks as [|t r IH]; intros chunk ex n ex' n' C H; cbn [known flush consume pbind fst snd] in H.
  - unfold flush in H. cbn in H. injection H as <- _. cbn. now rewrite app_nil_r.
  - destruct (classify o_counts t) as [|o| |] eqn:Ct.
    + pose proof (counts_pos t (or_introl Ct)) as S. apply IH in H.
      * rewrite H. cbn [filter]. rewrite S. cbn [negb]. now rewrite <- app_assoc.
      * intros u Hu. apply in_app_or in Hu as [Hu|[<-|[]]]; auto.
    + destruct (counts_opt t o Ct) as [S Ek]. rewrite Ek in H. unfold flush in H. cbn in H.
      apply IH in H; [|contradiction]. rewrite H. cbn [filter]. rewrite S. cbn [negb app]. now rewrite <- app_assoc.
    + pose proof (counts_pos t (or_intror Ct)) as S. unfold flush in H. cbn in H. apply IH in H; [|contradiction].
      rewrite H. cbn [filter]. rewrite S. cbn [negb app]. now rewrite <- !app_assoc.
    + discriminate H.
Qed.

(** The words before a (sub)subcommand. *)
Lemma to_sub_words opts : forall toks ex n name rest ex' n',
  to_sub opts toks ex n = PDone (name, rest, ex', n') ->
  exists f, toks = (f ++ name :: rest)%list /\ Forall dashed f /\
    exists u, ex' = (ex ++ u)%list /\
      ((forall o, In o opts -> oa_kind o = OCount -> forall t, In t (oa_names o) -> switch t = true) ->
       filter (fun t => negb (switch t)) u = filter (fun t => negb (switch t)) f).
Proof.
  induction toks as [|t r IH]; intros ex n name rest ex' n' H; cbn [to_sub] in H; [discriminate|].
  destruct (classify opts t) as [|o| |] eqn:Ct; try discriminate.
  - injection H as <- <- <- _. exists []. split; [reflexivity|]. split; [constructor|]. exists []. rewrite app_nil_r. auto.
  - destruct (oa_kind o) eqn:Ek; try discriminate.
    destruct (classify_opt _ _ _ Ct) as [Ho Hn]. apply existsb_exists in Hn as (u & Hu & E). apply String.eqb_eq in E. subst u.
    apply IH in H as (f & -> & F & u & -> & G). exists (t :: f). split; [reflexivity|]. split.
    + constructor; [|exact F]. clear - Ct. unfold classify in Ct.
      repeat match type of Ct with context [match ?x with _ => _ end] => destruct x eqn:?; try discriminate Ct end; eexists; reflexivity.
    + exists u. split; [reflexivity|]. intros S. cbn [filter]. rewrite (S o Ho Ek t Hu). cbn [negb]. apply G, S.
  - apply IH in H as (f & -> & F & u & -> & G). exists (t :: f). split; [reflexivity|].
    destruct (classify_unknown opts t Ct) as [D _]. split; [constructor; assumption|].
    exists (t :: u). rewrite <- app_assoc. split; [reflexivity|]. intros S. cbn [filter]. rewrite (G S). reflexivity.
Qed.

Lemma C81_accounted_lemma subs toks c : In subs programs -> command_line subs toks = PDone c ->
  exists s fronts ps, In s subs /\ ca_func c = sc_func s /\
    List.length fronts = List.length (sc_path s) /\ Forall (Forall dashed) fronts /\
    toks = (fronted fronts (sc_path s) ++ flat_map words ps)%list /\
    reading (sc_opts s) (sc_pos s) ps /\
    ca_ignored c = filter (fun t => negb (switch t)) (List.concat fronts ++ flat_map ignored ps) /\
    forall d, d <> "verbose" -> d <> "quiet" ->
      dget (ca_args c) d = last_set d ps (dget (defaults (sc_opts s) (sc_pos s)) d).
Proof.
  intros Hp H.
  assert (RS : forall s s' rest extras n, In s subs -> body s = body s' -> run_sub s' rest extras n = PDone c ->
    (forall d, d <> "verbose" -> d <> "quiet" -> dget n d = None) ->
    exists ps, ca_func c = sc_func s /\ rest = flat_map words ps /\ reading (sc_opts s) (sc_pos s) ps /\
      ca_ignored c = filter (fun t => negb (switch t)) (extras ++ flat_map ignored ps) /\
      forall d, d <> "verbose" -> d <> "quiet" ->
        dget (ca_args c) d = last_set d ps (dget (defaults (sc_opts s) (sc_pos s)) d)).
  { intros s s' rest extras n Hs B R N. unfold run_sub in R.
    assert (B' : sc_func s' = sc_func s /\ sc_pos s' = sc_pos s /\ sc_opts s' = sc_opts s)
      by (unfold body in B; injection B as -> -> ->; auto).
    destruct B' as (B1 & B2 & B3). rewrite B1, B2, B3 in R.
    apply pbind_done in R as ([e m] & K & R). cbn [fst snd] in R.
    assert (NC : forall o, In o (sc_opts s) -> oa_kind o <> OCount).
    { pose proof (over_subs (fun s => forallb (fun o => match oa_kind o with OCount => false | _ => true end) (sc_opts s))
        eq_refl subs s Hp Hs) as X. cbv beta in X. rewrite forallb_forall in X. intros o Ho E. specialize (X o Ho). rewrite E in X. discriminate. }
    destruct (known_pieces (sc_opts s) NC _ _ _ _ _ _ _ K) as (ps & W & RD & I & D). cbn [app] in W, I.
    unfold finish_line in R. apply pbind_done in R as ([e2 m2] & K2 & R). cbn [fst snd] in R. injection R as <-.
    exists ps. cbn [ca_func ca_ignored ca_args]. split; [reflexivity|]. split; [exact W|]. split; [exact RD|].
    split; [rewrite (known_counts _ _ _ _ _ _ (fun t (X : In t []) => match X with end) K2), I; reflexivity|].
    intros d Nv Nq. assert (Eo : forallb (fun o => negb (String.eqb (oa_dest o) d)) o_counts = true).
    { cbn. apply not_eq_sym in Nv, Nq. apply String.eqb_neq in Nv, Nq. cbn in Nv, Nq. rewrite Nv, Nq. reflexivity. }
    rewrite (known_dget_none o_counts d _ [] _ _ _ _ _ Eo eq_refl K2), dget_app, (N d Nv Nq). apply D. }
  unfold command_line in H. apply pbind_done in H as ([[[name rest] extras] n] & T & H). cbn [fst snd] in H.
  assert (N : forall d, d <> "verbose" -> d <> "quiet" -> dget n d = None).
  { intros d Nv Nq. rewrite (to_sub_other d _ Nv Nq _ _ _ _ _ _ T). cbn.
    apply String.eqb_neq in Nv, Nq. rewrite Nv, Nq. reflexivity. }
  destruct (to_sub_words _ _ _ _ _ _ _ _ T) as (f & -> & Ff & u & EX & G). cbn [app] in EX. subst u.
  assert (G' : filter (fun t => negb (switch t)) extras = filter (fun t => negb (switch t)) f).
  { apply G. intros o Ho Ek t Ht. cbn in Ho. destruct Ho as [<-|[<-|[<-|[]]]]; try discriminate Ek; cbn in Ht;
      destruct Ht as [<-|[<-|[]]]; reflexivity. }
  destruct (below subs name) as [|s0 ss] eqn:Bl; [discriminate|].
  assert (L2 : forall s, In s subs -> (List.length (sc_path s) <= 2)%nat).
  { intros s Hs. apply Nat.leb_le. exact (over_subs (fun s => Nat.leb (List.length (sc_path s)) 2) eq_refl subs s Hp Hs). }
  destruct ss as [|s1 ss].
  - destruct (sc_path s0) eqn:P0; [|discriminate].
    destruct (below_in subs name s0) as (s & Hs & B & P); [rewrite Bl; now left|]. rewrite P0 in P.
    destruct (RS s s0 rest extras n Hs B H N) as (ps & A1 & A2 & A3 & A4 & A5).
    exists s, [f], ps. rewrite P. cbn [List.length fronted List.concat]. rewrite app_nil_r, <- app_assoc. cbn [app].
    split; [exact Hs|]. split; [exact A1|]. split; [reflexivity|]. split; [repeat constructor; exact Ff|].
    split; [rewrite A2; reflexivity|]. split; [exact A3|]. split; [|exact A5].
    rewrite A4, !filter_app, G'. reflexivity.
  - cbv iota beta in H. apply pbind_done in H as ([[[name2 rest2] extras2] n2] & T2 & H).
    destruct (below (s0 :: s1 :: ss) name2) as [|s2 r2] eqn:Bl2; [discriminate|].
    destruct (below_in (s0 :: s1 :: ss) name2 s2) as (s3 & H3 & B3 & P3); [rewrite Bl2; now left|].
    destruct (below_in subs name s3) as (s & Hs & B & P); [rewrite Bl; exact H3|].
    assert (P2 : sc_path s2 = []).
    { specialize (L2 s Hs). rewrite P, P3 in L2. destruct (sc_path s2); [reflexivity|cbn in L2; lia]. }
    rewrite P3, P2 in P.
    destruct (RS s s2 rest2 (extras ++ extras2)%list n Hs (eq_trans B B3) H N) as (ps & A1 & A2 & A3 & A4 & A5).
    destruct (to_sub_words _ _ _ _ _ _ _ _ T2) as (g & -> & Fg & u & EX & G2). cbn [app] in EX. subst u.
    assert (G2' : filter (fun t => negb (switch t)) extras2 = filter (fun t => negb (switch t)) g).
    { apply G2. intros o [<-|[]] Ek; discriminate Ek. }
    exists s, [f; g], ps. rewrite P. cbn [List.length fronted List.concat]. rewrite app_nil_r.
    split; [exact Hs|]. split; [exact A1|]. split; [reflexivity|]. split; [repeat constructor; assumption|].
    split; [rewrite A2, <- !app_assoc; cbn [app]; rewrite <- app_assoc; reflexivity|]. split; [exact A3|]. split; [|exact A5].
    rewrite A4, !filter_app, G', G2'. reflexivity.
Qed.
