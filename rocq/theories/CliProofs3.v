(** * CliProofs3: lines with all positional arguments together are understood completely *)
From Coq Require Import List String Ascii ZArith Bool Lia DecimalString DecimalZ DecimalPos.
From Verif Require Import Base BaseFacts PyStr CliModel SpecCli CliProofs CliProofs2.
Import ListNotations.
Open Scope string_scope.
Open Scope Z_scope.

Lemma classify_plain opts t : plain t -> classify opts t = TPos.
Proof.
  destruct t as [|c r]; [reflexivity|].
  destruct c as [[] [] [] [] [] [] [] []]; intros H; try reflexivity. destruct H.
Qed.

Lemma int_of_str z : int_of (str_of_Z z) = Some z.
Proof.
  unfold int_of, str_of_Z. rewrite NilZero.isi.
  - cbn. now rewrite DecimalZ.of_to.
  - destruct z; cbn; try discriminate. intros H. inversion H as [E].
    exact (DecimalPos.Unsigned.to_uint_nonnil p E).
  - destruct z; cbn; try discriminate. intros H. inversion H as [E].
    exact (DecimalPos.Unsigned.to_uint_nonnil p E).
Qed.

Lemma convert_stands int ch t v :
  stands_for int t v -> match ch with Some l => In t l | None => True end -> convert int ch t = PDone v.
Proof.
  intros [_ H] Hc. unfold convert. destruct int.
  - destruct H as (z & _ & -> & ->). now rewrite int_of_str.
  - subst v. destruct ch as [l|]; [|reflexivity].
    replace (existsb (String.eqb t) l) with true; [reflexivity|]. symmetry. apply existsb_exists. exists t.
    split; [exact Hc|apply String.eqb_refl].
Qed.
Lemma convert_all_stands int : forall ts vs, Forall2 (stands_for int) ts vs -> convert_all int ts = PDone vs.
Proof.
  intros ts vs H. induction H as [|t v ts vs H1 H2 IH]; [reflexivity|].
  cbn [convert_all]. rewrite (convert_stands int None t v H1 I). cbn [pbind]. rewrite IH. reflexivity.
Qed.

Lemma fits_plain acts ts vals : fits acts ts vals -> Forall plain ts.
Proof.
  induction 1 as [|a r t ts v l _ [Hp _] _ _ IH|a _|a t ts v vs _ H].
  - constructor.
  - constructor; auto.
  - constructor.
  - clear -H. remember (t :: ts) as x eqn:E1. remember (v :: vs) as y eqn:E2. clear E1 E2.
    induction H as [|? ? ? ? [Hp _] _ IH]; constructor; auto.
Qed.

Lemma fits_dest acts ts vals : fits acts ts vals -> forall d v, In (d, v) vals -> In d (map pa_dest acts).
Proof.
  induction 1 as [|a r t ts w l _ _ _ _ IH|a _|a t ts w ws _ _]; cbn; intros d v Hi.
  - destruct Hi.
  - destruct Hi as [E|Hi]; [inversion E; auto|right; eauto].
  - destruct Hi as [E|[]]; inversion E; auto.
  - destruct Hi as [E|[]]; inversion E; auto.
Qed.

Lemma consume_nil acts n : consume acts [] n = PDone (acts, [], n).
Proof. destruct acts; reflexivity. Qed.

Lemma consume_fits acts ts vals :
  fits acts ts vals -> NoDup (map pa_dest acts) -> forall n,
  (forall a, In a acts -> needed a = false -> dget n (pa_dest a) = Some (pa_default a)) ->
  exists acts' n', consume acts ts n = PDone (acts', [], n') /\ existsb needed acts' = false /\
    (forall d v, In (d, v) vals -> dget n' d = Some v) /\
    (forall d, ~ In d (map pa_dest acts) -> dget n' d = dget n d).
Proof.
  induction 1 as [|a r t ts v l Ar Hs Al Hf IH|a Ar|a t ts v vs Ar H]; intros Nd n Hd.
  - exists [], n. cbn. repeat split; auto. intros d v [].
  - cbn [map] in Nd. inversion Nd as [|? ? Na Nr]; subst.
    destruct (IH Nr (dset n (pa_dest a) v)) as (acts' & n' & C & Ne & V & O).
    { intros b Hb Nb. rewrite dget_dset_other; [apply Hd; [now right|exact Nb]|].
      intros E. apply Na. rewrite <- E. now apply in_map. }
    exists acts', n'. split; [|split; [exact Ne|split]].
    + cbn [consume]. rewrite (convert_stands _ _ _ _ Hs Al). destruct Ar as [-> | ->]; exact C.
    + intros d w [E|Hi]; [|now apply V]. inversion E; subst. rewrite O by exact Na. apply dget_dset_same.
    + intros d Hn. rewrite O; [|intros Hx; apply Hn; now right]. apply dget_dset_other. intros ->. apply Hn. now left.
  - exists [a], n. cbn [consume]. assert (needed a = false) as Nb by (unfold needed; destruct Ar as [-> | ->]; reflexivity).
    split; [reflexivity|]. split; [cbn; now rewrite Nb|]. split; [|auto].
    intros d w [E|[]]. inversion E; subst. apply Hd; [now left|exact Nb].
  - exists [], (dset n (pa_dest a) (CList (v :: vs))). split; [|split; [reflexivity|split]].
    + cbn [consume]. rewrite (convert_all_stands _ _ _ H). destruct Ar as [-> | ->]; reflexivity.
    + intros d w [E|[]]. inversion E; subst. apply dget_dset_same.
    + intros d Hn. apply dget_dset_other. intros ->. apply Hn. now left.
Qed.

(** ** Facts about the subcommands *)
Definition leaf (s : subcmd) : subcmd := mkSub [] (sc_func s) (sc_pos s) (sc_opts s).
Definition route_ok (subs : list subcmd) (s : subcmd) : Prop :=
  match sc_path s with
  | [p] => plain p /\ below subs p = [leaf s]
  | [p; q] => plain p /\ plain q /\ below (below subs p) q = [leaf s] /\
              match below subs p with _ :: _ :: _ => True | _ => False end
  | _ => False
  end.
Lemma routes : Forall (fun subs => Forall (route_ok subs) subs) programs.
Proof.
  repeat apply Forall_cons; try apply Forall_nil; vm_compute; repeat (split; try exact I).
Qed.

Definition names_ok (s : subcmd) : Prop :=
  Forall (fun o => Forall (fun n => classify (sc_opts s) n = TOpt o) (oa_names o)) (sc_opts s) /\
  Forall (fun t => classify (sc_opts s) t = TUnknown) (verbose_words ++ quiet_words)%list.
Lemma all_names : Forall names_ok (List.concat programs).
Proof.
  let l := eval vm_compute in (List.concat programs) in change (Forall names_ok l).
  repeat apply Forall_cons; try apply Forall_nil; split; cbn [sc_opts oa_names app verbose_words quiet_words];
    repeat apply Forall_cons; try apply Forall_nil; cbn [oa_names]; repeat apply Forall_cons; try apply Forall_nil;
    vm_compute; reflexivity.
Qed.

Fixpoint distinct (l : list string) : bool :=
  match l with [] => true | x :: r => negb (existsb (String.eqb x) r) && distinct r end.
Lemma distinct_NoDup l : distinct l = true -> NoDup l.
Proof.
  induction l as [|x r IH]; cbn; intros H; constructor; apply andb_true_iff in H as [H1 H2]; auto.
  intros Hx. apply negb_true_iff in H1. assert (existsb (String.eqb x) r = true) by
    (apply existsb_exists; exists x; split; [exact Hx|apply String.eqb_refl]). congruence.
Qed.
Definition shape_ok (s : subcmd) : bool :=
  distinct (map pa_dest (sc_pos s) ++ map oa_dest (sc_opts s) ++ ["verbose"; "quiet"])%list &&
  forallb (fun o => match oa_kind o with OCount => false | _ => true end) (sc_opts s).
Lemma all_shapes : forallb shape_ok (List.concat programs) = true.
Proof. vm_compute. reflexivity. Qed.

Lemma defaults_opt opts acts o :
  NoDup (map pa_dest acts ++ map oa_dest opts)%list -> In o opts -> takes_value o ->
  dget (defaults opts acts) (oa_dest o) = Some (default_of o).
Proof.
  intros Nd Ho Tv. unfold defaults. rewrite dget_app.
  assert (Np : ~ In (oa_dest o) (map pa_dest acts)).
  { intros Hx. assert (In (oa_dest o) (map oa_dest opts)) as Hy by now apply in_map.
    clear -Nd Hx Hy. induction (map pa_dest acts) as [|x r IH]; [destruct Hx|].
    cbn in Nd. inversion Nd as [|? ? N1 N2]; subst. destruct Hx as [->|Hx]; [|auto].
    apply N1. apply in_or_app. now right. }
  assert (D1 : dget (map (fun a => (pa_dest a, pa_default a))
      (filter (fun a => match pa_arity a with AOpt | AStar => true | _ => false end) acts)) (oa_dest o) = None).
  { clear -Np. induction acts as [|a r IH]; [reflexivity|]. cbn [filter].
    assert (IH' := IH (fun h => Np (or_intror h))).
    assert (Ne : String.eqb (oa_dest o) (pa_dest a) = false).
    { apply String.eqb_neq. intros E. apply Np. left. congruence. }
    destruct (pa_arity a); cbn [map dget]; rewrite ?Ne; exact IH'. }
  rewrite D1.
  assert (No : NoDup (map oa_dest opts)).
  { clear -Nd. induction (map pa_dest acts); [exact Nd|]. cbn in Nd. inversion Nd; subst. auto. }
  clear -No Ho Tv. induction opts as [|b r IH]; [destruct Ho|].
  cbn [map] in No. inversion No as [|? ? N1 N2]; subst. cbn [flat_map]. rewrite dget_app. destruct Ho as [->|Ho].
  - unfold opt_default, default_of, takes_value in *. destruct (oa_kind o); try destruct Tv; cbn [dget]; now rewrite String.eqb_refl.
  - assert (Ne : String.eqb (oa_dest o) (oa_dest b) = false).
    { apply String.eqb_neq. intros E. apply N1. rewrite <- E. now apply in_map. }
    replace (dget (opt_default b) (oa_dest o)) with (@None cval);
      [|unfold opt_default; destruct (oa_kind b); cbn [dget]; rewrite ?Ne; reflexivity].
    apply IH; auto.
Qed.

Lemma defaults_pos opts acts a :
  NoDup (map pa_dest acts) -> In a acts -> needed a = false -> dget (defaults opts acts) (pa_dest a) = Some (pa_default a).
Proof.
  intros Nd Ha Nn. unfold defaults. rewrite dget_app.
  enough (dget (map (fun a => (pa_dest a, pa_default a))
      (filter (fun a => match pa_arity a with AOpt | AStar => true | _ => false end) acts)) (pa_dest a) = Some (pa_default a)) as -> by reflexivity.
  induction acts as [|b r IH]; [destruct Ha|]. cbn [map] in Nd. inversion Nd as [|? ? N1 N2]; subst. destruct Ha as [->|Ha].
  - cbn [filter]. unfold needed in Nn. destruct (pa_arity a); try discriminate; cbn [map dget]; now rewrite String.eqb_refl.
  - assert (Ne : String.eqb (pa_dest a) (pa_dest b) = false).
    { apply String.eqb_neq. intros E. apply N1. rewrite <- E. now apply in_map. }
    cbn [filter]. destruct (pa_arity b); cbn [map dget]; rewrite ?Ne; auto.
Qed.

(** ** Reading options *)
Definition sws (gs : list given) : list string :=
  flat_map (fun g => match oa_kind (g_opt g) with OCount => [g_name g] | _ => [] end) gs.
Definition setg (n : ns) (g : given) : ns :=
  match oa_kind (g_opt g) with OCount => n | _ => dset n (oa_dest (g_opt g)) (g_value g) end.
Lemma setg_set n g : oa_kind (g_opt g) <> OCount -> setg n g = dset n (oa_dest (g_opt g)) (g_value g).
Proof. unfold setg. destruct (oa_kind (g_opt g)); congruence. Qed.
Definition writes (gs : list given) : list string := flat_map written gs.

Lemma flush_nil acts ex n : flush acts [] ex n = PDone (acts, ex, n).
Proof. unfold flush. rewrite consume_nil. cbn. now rewrite app_nil_r. Qed.

Section Sub.
Variable s : subcmd.
Hypotheses (Hn : names_ok s) (Hsh : shape_ok s = true).

Lemma count_in o : In o (sc_opts s) -> oa_kind o <> OCount.
Proof.
  intros Ho E. unfold shape_ok in Hsh. apply andb_true_iff in Hsh as [_ H]. rewrite forallb_forall in H.
  specialize (H o Ho). now rewrite E in H.
Qed.

Lemma well_given_cases g : well_given s g ->
  (In (g_opt g) (sc_opts s) /\ classify (sc_opts s) (g_name g) = TOpt (g_opt g) /\ oa_kind (g_opt g) <> OCount) \/
  (In (g_opt g) o_counts /\ classify (sc_opts s) (g_name g) = TUnknown /\ oa_kind (g_opt g) = OCount).
Proof.
  intros (Hi & Hm & _). destruct Hn as [N1 N2]. rewrite Forall_forall in N1, N2. apply in_app_or in Hi as [Hi|Hi].
  - left. split; [exact Hi|]. specialize (N1 _ Hi). rewrite Forall_forall in N1. split; [auto|now apply count_in].
  - right. split; [exact Hi|]. split.
    + apply N2. apply in_or_app. destruct Hi as [E|[E|[]]]; rewrite <- E in Hm; [left|right]; exact Hm.
    + destruct Hi as [E|[E|[]]]; rewrite <- E; reflexivity.
Qed.

Lemma known_given g acts toks ex n : well_given s g ->
  known (sc_opts s) acts (written g ++ toks)%list [] ex n =
  known (sc_opts s) acts toks [] (ex ++ sws [g])%list (setg n g).
Proof.
  intros W. unfold sws, setg. cbn [flat_map]. rewrite app_nil_r. unfold written.
  destruct (well_given_cases g W) as [(Hi & Hc & Hk)|(Hi & Hc & Hk)]; destruct W as (_ & Hm & W).
  - destruct (oa_kind (g_opt g)) as [|int df| |] eqn:Ek; try contradiction.
    + destruct W as [-> ->]. cbn [app known]. rewrite Hc, flush_nil, Ek. cbn [pbind fst snd]. now rewrite app_nil_r.
    + destruct W as (t & -> & St). cbn [app known]. rewrite Hc, flush_nil, Ek. cbn [pbind fst snd].
      rewrite (classify_plain _ t (proj1 St)), (convert_stands int None t _ St I). cbn [pbind]. now rewrite app_nil_r.
  - rewrite Hk in *. rewrite W. cbn [app known]. rewrite Hc, flush_nil. reflexivity.
Qed.

Lemma known_writes : forall gs acts toks ex n, Forall (well_given s) gs ->
  known (sc_opts s) acts (writes gs ++ toks)%list [] ex n =
  known (sc_opts s) acts toks [] (ex ++ sws gs)%list (fold_left setg gs n).
Proof.
  induction gs as [|g r IH]; intros acts toks ex n H.
  - cbn. now rewrite app_nil_r.
  - inversion H; subst. unfold writes. cbn [flat_map]. rewrite <- app_assoc, known_given by assumption.
    fold (writes r). rewrite IH by assumption. cbn [fold_left]. f_equal. rewrite <- app_assoc. f_equal.
    unfold sws. cbn [flat_map]. now rewrite app_nil_r.
Qed.

Lemma known_plain : forall ts acts toks chunk ex n, Forall plain ts ->
  known (sc_opts s) acts (ts ++ toks)%list chunk ex n = known (sc_opts s) acts toks (chunk ++ ts)%list ex n.
Proof.
  induction ts as [|t r IH]; intros acts toks chunk ex n H.
  - cbn. now rewrite app_nil_r.
  - inversion H; subst. cbn [app known]. rewrite classify_plain by assumption. rewrite IH by assumption.
    now rewrite <- app_assoc.
Qed.

Lemma known_flush gs acts chunk ex n : Forall (well_given s) gs ->
  known (sc_opts s) acts (writes gs) chunk ex n =
  pbind (flush acts chunk ex n) (fun x => known (sc_opts s) (fst (fst x)) (writes gs) [] (snd (fst x)) (snd x)).
Proof.
  intros H. destruct gs as [|g r].
  - cbn [writes flat_map known]. destruct (flush acts chunk ex n) as [[[a e] m]| |]; cbn [pbind fst snd]; [|reflexivity|reflexivity].
    rewrite (flush_nil a e m); cbn [pbind fst snd]. reflexivity.
  - inversion H as [|? ? W _]; subst. unfold writes. cbn [flat_map]. unfold written.
    destruct (well_given_cases g W) as [(Hi & Hc & Hk)|(Hi & Hc & Hk)]; destruct W as (_ & Hm & W).
    + destruct (g_word g); cbn [app known]; rewrite Hc;
        destruct (flush acts chunk ex n) as [[[a e] m]| |]; cbn [pbind fst snd]; try reflexivity; rewrite (flush_nil a e m); cbn [pbind fst snd]; reflexivity.
    + rewrite Hk in W. rewrite W. cbn [app known]. rewrite Hc.
      destruct (flush acts chunk ex n) as [[[a e] m]| |]; cbn [pbind fst snd]; try reflexivity. rewrite (flush_nil a e m); cbn [pbind fst snd]; reflexivity.
Qed.

Lemma setl_last d : d <> "verbose" -> d <> "quiet" -> forall gs n v, Forall (well_given s) gs ->
  dget n d = Some v -> dget (fold_left setg gs n) d = Some (last_given d gs v).
Proof.
  intros Nv Nq. induction gs as [|g r IH]; intros n v H E; [exact E|].
  inversion H as [|? ? W Hr]; subst. cbn [fold_left last_given]. apply IH; [exact Hr|].
  destruct (well_given_cases g W) as [(Hi & Hc & Hk)|(Hi & Hc & Hk)]; unfold setg.
  - fold (setg n g). rewrite (setg_set n g Hk).
    rewrite dget_dset. destruct (String.eqb_spec d (oa_dest (g_opt g))) as [->|Ne].
    + now rewrite String.eqb_refl.
    + apply not_eq_sym, String.eqb_neq in Ne. now rewrite Ne.
  - rewrite Hk. replace (String.eqb (oa_dest (g_opt g)) d) with false; [exact E|]. symmetry. apply String.eqb_neq.
    destruct Hi as [<-|[<-|[]]]; cbn; congruence.
Qed.

Lemma setl_other d : ~ In d (map oa_dest (sc_opts s)) -> forall gs n, Forall (well_given s) gs ->
  dget (fold_left setg gs n) d = dget n d.
Proof.
  intros Nd. induction gs as [|g r IH]; intros n H; [reflexivity|].
  inversion H as [|? ? W Hr]; subst. cbn [fold_left]. rewrite IH by exact Hr.
  destruct (well_given_cases g W) as [(Hi & Hc & Hk)|(Hi & Hc & Hk)]; unfold setg.
  - assert (oa_dest (g_opt g) <> d) by (intros <-; apply Nd; now apply in_map).
    destruct (oa_kind (g_opt g)); try contradiction; now rewrite dget_dset_other by congruence.
  - now rewrite Hk.
Qed.

Lemma shape_NoDup : NoDup (map pa_dest (sc_pos s) ++ map oa_dest (sc_opts s) ++ ["verbose"; "quiet"])%list.
Proof. unfold shape_ok in Hsh. apply andb_true_iff in Hsh as [H _]. now apply distinct_NoDup. Qed.

Lemma NoDup_split {A} (a b : list A) : NoDup (a ++ b)%list -> NoDup a /\ NoDup b /\ (forall x, In x a -> ~ In x b).
Proof.
  induction a as [|x r IH]; cbn; intros H; [repeat split; auto; constructor|].
  inversion H as [|? ? H1 H2]; subst. destruct (IH H2) as (I1 & I2 & I3). split; [|split; [exact I2|]].
  - constructor; [|exact I1]. intros Hx. apply H1. apply in_or_app. now left.
  - intros y [->|Hy]; [|auto]. intros Hb. apply H1. apply in_or_app. now right.
Qed.

Lemma known_line gs1 pos gs2 vals :
  Forall (well_given s) gs1 -> Forall (well_given s) gs2 -> fits (sc_pos s) pos vals ->
  exists m, known (sc_opts s) (sc_pos s) (writes gs1 ++ pos ++ writes gs2)%list [] [] (defaults (sc_opts s) (sc_pos s))
              = PDone (sws (gs1 ++ gs2), m) /\
    (forall d v, In (d, v) vals -> dget m d = Some v) /\
    (forall o, In o (sc_opts s) -> takes_value o -> dget m (oa_dest o) = Some (last_given (oa_dest o) (gs1 ++ gs2) (default_of o))).
Proof.
  intros W1 W2 Hf. rewrite known_writes by exact W1. rewrite (known_plain pos) by exact (fits_plain _ _ _ Hf).
  cbn [app]. rewrite known_flush by exact W2.
  pose proof shape_NoDup as Nd. destruct (NoDup_split _ _ Nd) as (Np & No' & Dis).
  destruct (NoDup_split _ _ No') as (No & _ & Dis2).
  destruct (consume_fits _ _ _ Hf Np (fold_left setg gs1 (defaults (sc_opts s) (sc_pos s)))) as (acts' & n' & C & Ne & V & O).
  { intros a Ha Na. rewrite setl_other; [now apply defaults_pos| |exact W1].
    intros Hx. apply (Dis (pa_dest a)); [now apply in_map|]. apply in_or_app. now left. }
  unfold flush. rewrite C. cbn [pbind fst snd]. rewrite app_nil_r.
  assert (Wn : writes gs2 = (writes gs2 ++ [])%list) by now rewrite app_nil_r. rewrite Wn.
  rewrite known_writes by exact W2. cbn [known]. rewrite flush_nil. cbn [pbind fst snd].
  change (fun a : posarg => match pa_arity a with AOne | APlus => true | _ => false end) with needed. rewrite Ne.
  eexists. split; [|split].
  - f_equal. f_equal. unfold sws. now rewrite flat_map_app.
  - intros d v Hi.
    pose proof (fits_dest _ _ _ Hf d v Hi) as Hd.
    rewrite setl_other; [now apply V| |exact W2]. intros Hx. apply (Dis d Hd). apply in_or_app. now left.
  - intros o Ho Tv.
    assert (Hd : In (oa_dest o) (map oa_dest (sc_opts s))) by now apply in_map.
    assert (Nv : oa_dest o <> "verbose" /\ oa_dest o <> "quiet").
    { split; intros E; apply (Dis2 _ Hd); rewrite E; cbn; auto. }
    assert (Dapp : forall a b v, last_given (oa_dest o) (a ++ b) v = last_given (oa_dest o) b (last_given (oa_dest o) a v)).
    { induction a as [|g r IH]; intros b v; cbn; auto. }
    rewrite Dapp. apply setl_last; try tauto. rewrite O.
    + apply setl_last; try tauto. apply defaults_opt; auto.
      rewrite app_assoc in Nd. now apply NoDup_split in Nd.
    + intros Hx. apply (Dis _ Hx). apply in_or_app. now left.
Qed.
End Sub.

Lemma counts_all : forall l n, Forall (fun t => In t (verbose_words ++ quiet_words)%list) l ->
  exists n', known o_counts [] l [] [] n = PDone ([], n').
Proof.
  induction l as [|t r IH]; intros n H.
  - eexists. reflexivity.
  - inversion H as [|? ? Ht Hr]; subst.
    destruct Ht as [<-|[<-|[<-|[<-|[]]]]]; cbn [known];
      match goal with |- context [classify o_counts ?t] =>
        let c := eval vm_compute in (classify o_counts t) in change (classify o_counts t) with c end;
      rewrite flush_nil; cbn [pbind fst snd oa_kind oa_dest]; apply IH; exact Hr.
Qed.

Lemma to_sub_pre : forall pre name rest n, Forall (fun t => In t (verbose_words ++ quiet_words)%list) pre -> plain name ->
  exists n', to_sub o_main (pre ++ name :: rest)%list [] n = PDone (name, rest, [], n').
Proof.
  induction pre as [|t r IH]; intros name rest n H P.
  - cbn [app to_sub]. rewrite classify_plain by exact P. eauto.
  - inversion H as [|? ? Ht Hr]; subst.
    destruct Ht as [<-|[<-|[<-|[<-|[]]]]]; cbn [app to_sub];
      match goal with |- context [classify o_main ?t] =>
        let c := eval vm_compute in (classify o_main t) in change (classify o_main t) with c end;
      cbn [oa_kind oa_dest]; apply IH; auto.
Qed.

Lemma C81_lemma subs s pre gs1 pos gs2 vals :
  In subs programs -> In s subs ->
  Forall (fun t => In t (verbose_words ++ quiet_words)%list) pre ->
  Forall (well_given s) gs1 -> Forall (well_given s) gs2 -> fits (sc_pos s) pos vals ->
  exists c, command_line subs (pre ++ sc_path s ++ writes gs1 ++ pos ++ writes gs2)%list = PDone c /\
    ca_func c = sc_func s /\ ca_ignored c = [] /\
    (forall d v, In (d, v) vals -> dget (ca_args c) d = Some v) /\
    (forall o, In o (sc_opts s) -> takes_value o ->
       dget (ca_args c) (oa_dest o) = Some (last_given (oa_dest o) (gs1 ++ gs2) (default_of o))).
Proof.
  intros Hp Hs Hpre W1 W2 Hf.
  assert (Hin : In s (List.concat programs)) by (apply in_concat; eauto).
  assert (Hn : names_ok s) by (pose proof all_names as H; rewrite Forall_forall in H; auto).
  assert (Hsh : shape_ok s = true) by (pose proof all_shapes as H; rewrite forallb_forall in H; auto).
  assert (Hr : route_ok subs s).
  { pose proof routes as H. rewrite Forall_forall in H. specialize (H subs Hp). rewrite Forall_forall in H. auto. }
  set (toks := (writes gs1 ++ pos ++ writes gs2)%list).
  destruct (known_line s Hn Hsh gs1 pos gs2 vals W1 W2 Hf) as (m & Hk & Hv & Ho). fold toks in Hk.
  assert (Run : exists n, command_line subs (pre ++ sc_path s ++ toks)%list = run_sub (leaf s) toks [] n /\
    forall d, d <> "verbose" -> d <> "quiet" -> dget n d = None).
  { assert (Dm : forall d, d <> "verbose" -> d <> "quiet" -> dget main_defaults d = None).
    { intros d Nv Nq. unfold main_defaults. cbn [dget]. apply String.eqb_neq in Nv. apply String.eqb_neq in Nq. now rewrite Nv, Nq. }
    unfold route_ok in Hr. destruct (sc_path s) as [|p [|q [|]]]; try contradiction.
    - destruct Hr as [P B]. destruct (to_sub_pre pre p toks main_defaults Hpre P) as (n & T).
      exists n. split.
      + unfold command_line. cbn [app]. rewrite T. cbn [pbind]. rewrite B. reflexivity.
      + intros d Nv Nq. rewrite (to_sub_other d _ Nv Nq _ _ _ _ _ _ T). auto.
    - destruct Hr as (P & Q & B & B2). destruct (to_sub_pre pre p (q :: toks) main_defaults Hpre P) as (n & T).
      exists n. split.
      + unfold command_line. cbn [app]. rewrite T. cbn [pbind].
        destruct (below subs p) as [|x [|y z]]; try contradiction.
        cbn [to_sub]. rewrite classify_plain by exact Q. cbn [pbind]. rewrite B. reflexivity.
      + intros d Nv Nq. rewrite (to_sub_other d _ Nv Nq _ _ _ _ _ _ T). auto. }
  destruct Run as (n & Run & Dn). rewrite Run. unfold run_sub, leaf. cbn [sc_opts sc_pos sc_func]. rewrite Hk.
  cbn [pbind fst snd app]. unfold finish_line.
  destruct (counts_all (sws (gs1 ++ gs2)) (n ++ m)%list) as (n2 & K2).
  { apply Forall_forall. intros t Ht. unfold sws in Ht. apply in_flat_map in Ht as (g & Hg & Ht).
    assert (W : well_given s g).
    { apply in_app_or in Hg as [Hg|Hg]; [rewrite Forall_forall in W1|rewrite Forall_forall in W2]; auto. }
    destruct (well_given_cases s Hn Hsh g W) as [(_ & _ & Hc)|(Hi & _ & Hc)].
    - destruct (oa_kind (g_opt g)); solve [destruct Ht | congruence].
    - rewrite Hc in Ht. destruct Ht as [<-|[]]. destruct W as (_ & Hm & _). apply in_or_app.
      destruct Hi as [E|[E|[]]]; rewrite <- E in Hm; [left|right]; exact Hm. }
  rewrite K2. cbn [pbind fst snd]. eexists. split; [reflexivity|]. cbn [ca_func ca_ignored ca_args].
  split; [reflexivity|]. split; [reflexivity|].
  pose proof (shape_NoDup s Hsh) as Nd.
  assert (G : forall d, d <> "verbose" -> d <> "quiet" -> dget n2 d = dget m d).
  { intros d Nv Nq.
    transitivity (dget (n ++ m)%list d); [|rewrite dget_app, Dn by assumption; reflexivity].
    apply (known_dget_none o_counts d (sws (gs1 ++ gs2)) [] [] [] (n ++ m)%list [] n2); [|reflexivity|exact K2].
    unfold o_counts. cbn [forallb oa_dest]. apply not_eq_sym, String.eqb_neq in Nv. apply not_eq_sym, String.eqb_neq in Nq.
      rewrite Nv, Nq. reflexivity. }
  assert (Nsw : forall d, In d (map pa_dest (sc_pos s) ++ map oa_dest (sc_opts s))%list -> d <> "verbose" /\ d <> "quiet").
  { intros d Hd. rewrite app_assoc in Nd. destruct (NoDup_split _ _ Nd) as (_ & _ & Dis).
    split; intros ->; apply (Dis _ Hd); cbn; auto. }
  split.
  - intros d v Hi. destruct (Nsw d) as [N1 N2]; [apply in_or_app; left; exact (fits_dest _ _ _ Hf d v Hi)|].
    rewrite G by assumption. now apply Hv.
  - intros o Hoi Tv. destruct (Nsw (oa_dest o)) as [N1 N2]; [apply in_or_app; right; now apply in_map|].
    rewrite G by assumption. now apply Ho.
Qed.
