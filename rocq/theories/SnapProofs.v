(** * SnapProofs: merging data files while they are written (C107) *)
From Coq Require Import List String Ascii ZArith Bool Lia.
From Verif Require Import Base BaseFacts PyStr Prog ProgFacts IoModel SnapModel SpecSnap IoProofs.
Import ListNotations.
Open Scope prog_scope.
Open Scope string_scope.

Definition file_of (role : string) (c : option (list nat)) : option pkl :=
  option_map (fun p => PValue (Some (mkDs (Some role) p))) c.
Definition above (lo : option (list nat)) (c : option (list nat)) : Prop :=
  forall p, lo = Some p -> exists m, c = Some (p ++ m)%list.
Definition plus (c : option (list nat)) (d : list nat) : list nat :=
  match c with Some p => (p ++ d)%list | None => d end.

Lemma with_stores_snoc h done d : with_stores h (done ++ [d]) = Some (plus (with_stores h done) d).
Proof.
  destruct done as [|a r].
  - cbn. rewrite app_nil_r. destruct h; reflexivity.
  - cbn [app with_stores plus]. rewrite concat_cons, concat_app. cbn. rewrite app_nil_r, <- !app_assoc. reflexivity.
Qed.
Lemma above_plus lo c d : above lo c -> above lo (Some (plus c d)).
Proof.
  intros A p E. destruct (A p E) as [m ->]. exists (m ++ d)%list. cbn. rewrite <- app_assoc. reflexivity.
Qed.

Definition dumping (role : string) (v : dataset) (todo : list (list nat)) : fpgm unit :=
  bind (fact (FDump (role_file role) v)) (fun _ => writer role todo).
Definition opening (role : string) (v : dataset) (todo : list (list nat)) : fpgm unit :=
  bind (fact (FTrunc (role_file role));;; fact (FDump (role_file role) v)) (fun _ => writer role todo).
Definition loading (role : string) (d : list nat) (todo : list (list nat)) : fpgm unit :=
  bind (bind (old <- fact (FLoad (role_file role));;
               match (old : option dataset) with
               | Some o => Ret (mkDs (ds_role o) (ds_points o ++ d)%list)
               | None => Ret (mkDs (Some role) d)
               end) (fun ds' => fact (FTrunc (role_file role));;; fact (FDump (role_file role) ds')))
       (fun _ => writer role todo).

Inductive at_point (role : string) (h : option (list nat)) (bs : list (list nat)) (lo : option (list nat))
    (file : option pkl) (w : fpgm unit) : Prop :=
| ap_rest done todo : bs = (done ++ todo)%list -> above lo (with_stores h done) ->
    file = file_of role (with_stores h done) -> w = writer role todo -> at_point role h bs lo file w
| ap_asked done d todo p : bs = (done ++ d :: todo)%list -> above lo (with_stores h done) ->
    with_stores h done = Some p -> file = file_of role (Some p) -> w = loading role d todo ->
    at_point role h bs lo file w
| ap_ready done d todo : bs = (done ++ d :: todo)%list -> above lo (with_stores h done) ->
    file = file_of role (with_stores h done) ->
    w = opening role (mkDs (Some role) (plus (with_stores h done) d)) todo -> at_point role h bs lo file w
| ap_open done d todo : bs = (done ++ d :: todo)%list -> above lo (with_stores h done) ->
    file = Some PBroken ->
    w = dumping role (mkDs (Some role) (plus (with_stores h done) d)) todo -> at_point role h bs lo file w.

Definition others (n : string) (s s' : fsys) : Prop :=
  (forall m, m <> n -> dget (f_folder s') m = dget (f_folder s) m) /\ f_out s' = f_out s /\
  (NoDup (dkeys (f_folder s)) -> NoDup (dkeys (f_folder s'))) /\
  (forall m, In m (dkeys (f_folder s)) -> In m (dkeys (f_folder s'))).
Lemma others_same n s : others n s s.
Proof. repeat split; auto. Qed.
Lemma others_set n s v : others n s (mkFs (dset (f_folder s) n v) (f_out s)).
Proof.
  split; [intros m N; apply dget_dset_other; exact N|]. split; [reflexivity|]. split.
  - apply NoDup_dset.
  - intros m I. apply dkeys_dset_in. right. exact I.
Qed.

Lemma writer_cons role d todo : writer role (d :: todo) = bind (store_role role d) (fun _ => writer role todo).
Proof. reflexivity. Qed.

Lemma worker_step role h bs lo s w w' s' : has_char "/" role = false ->
  at_point role h bs lo (dget (f_folder s) (role_file role)) w -> fstep w s = Some (w', s') ->
  at_point role h bs lo (dget (f_folder s') (role_file role)) w' /\ others (role_file role) s s'.
Proof.
  intros NS [done todo B A F W|done d todo p B A C F W|done d todo B A F W|done d todo B A F W] H; subst w.
  - destruct todo as [|d todo]; [discriminate H|]. rewrite writer_cons in H.
    unfold store_role, data_to_pickle in H. cbn [fact do bind fstep fexec] in H. injection H as <- <-.
    split; [|apply others_same]. unfold dhas. rewrite F.
    destruct (with_stores h done) as [p|] eqn:C; cbn [file_of option_map is_some bind].
    + eapply ap_asked with (done := done); eauto. rewrite C. exact A.
    + eapply ap_ready with (done := done); eauto; rewrite C; [exact A|reflexivity|reflexivity].
  - unfold loading in H. cbn [fact do bind fstep fexec] in H. rewrite F in H. cbn [file_of option_map bind] in H.
    injection H as <- <-. split; [|apply others_same].
    eapply ap_ready with (done := done); eauto; rewrite C; [exact F|reflexivity].
  - unfold opening in H. cbn [fact do bind fstep fexec] in H. rewrite role_file_slash, NS in H. cbn [bind] in H.
    injection H as <- <-. split; [|apply others_set]. cbn [f_folder]. rewrite dget_dset_same.
    eapply ap_open with (done := done); eauto.
  - unfold dumping in H. cbn [fact do bind fstep fexec] in H. injection H as <- <-.
    split; [|apply others_set]. cbn [f_folder]. rewrite dget_dset_same.
    eapply ap_rest with (done := (done ++ [d])%list) (todo := todo).
    + rewrite B, <- app_assoc. reflexivity.
    + rewrite with_stores_snoc. apply above_plus. exact A.
    + rewrite with_stores_snoc. reflexivity.
    + reflexivity.
Qed.

(** What is read in the file of a role. *)
Lemma point_file role h bs lo file w : at_point role h bs lo file w ->
  file = Some PBroken \/ exists done todo, bs = (done ++ todo)%list /\ above lo (with_stores h done) /\
    file = file_of role (with_stores h done).
Proof.
  intros [done todo B A F W|done d todo p B A C F W|done d todo B A F W|done d todo B A F W].
  - right. exists done, todo. auto.
  - right. exists done, (d :: todo). rewrite C in *. auto.
  - right. exists done, (d :: todo). auto.
  - left. exact F.
Qed.
Lemma point_lo role h bs lo lo' file w : at_point role h bs lo file w ->
  (forall p, lo' = Some p -> file = file_of role (Some p)) -> at_point role h bs lo' file w.
Proof.
  intros [done todo B A F W|done d todo p B A C F W|done d todo B A F W|done d todo B A F W] L.
  - apply ap_rest with (done := done) (todo := todo); auto. intros p E. rewrite (L p E) in F. exists [].
    rewrite app_nil_r. destruct (with_stores h done); cbn in F; [injection F as ->; reflexivity|discriminate F].
  - apply ap_asked with (done := done) (d := d) (todo := todo) (p := p); auto. intros q E. rewrite (L q E) in F. exists [].
    rewrite app_nil_r, C. cbn in F. injection F as ->. reflexivity.
  - apply ap_ready with (done := done) (d := d) (todo := todo); auto. intros p E. rewrite (L p E) in F. exists [].
    rewrite app_nil_r. destruct (with_stores h done); cbn in F; [injection F as ->; reflexivity|discriminate F].
  - apply ap_open with (done := done) (d := d) (todo := todo); auto. intros p E. rewrite (L p E) in F. discriminate F.
Qed.

(** ** All threads *)
Lemma F2_impl A B (P Q : A -> B -> Prop) : (forall a b, P a b -> Q a b) -> forall l m, Forall2 P l m -> Forall2 Q l m.
Proof. intros H l m F. induction F; constructor; auto. Qed.
Section Job.
  Variable ws : list (string * list (list nat)).
  Variable held : string -> option (list nat).
  Variable out : string.
  Hypothesis Wdup : NoDup (map fst ws).
  Hypothesis Wslash : Forall (fun rb => has_char "/" (fst rb) = false) ws.

  Lemma batches_in rb : In rb ws -> batches ws (fst rb) = snd rb.
  Proof.
    unfold batches. revert Wdup. clear Wslash. induction ws as [|a l IH]; intros D []; cbn [find].
    - subst a. rewrite String.eqb_refl. reflexivity.
    - cbn [map] in D. inversion D as [|? ? N1 N2]; subst. destruct (String.eqb_spec (fst a) (fst rb)) as [E|E].
      + exfalso. apply N1. rewrite E. apply in_map. exact H.
      + exact (IH N2 H).
  Qed.
  Lemma batches_out r : ~ In r (map fst ws) -> batches ws r = [].
  Proof.
    intros N. unfold batches. destruct (find _ ws) as [rb|] eqn:F; [|reflexivity].
    exfalso. apply find_some in F as [I E]. apply String.eqb_eq in E. subst r. apply N, in_map, I.
  Qed.

  Definition lower := string -> option (list nat).
  Record files (lo : lower) (s : fsys) (l : list (fpgm unit)) : Prop := {
    fi_keys : NoDup (dkeys (f_folder s));
    fi_wk : Forall2 (fun rb w => at_point (fst rb) (held (fst rb)) (snd rb) (lo (fst rb))
                                   (dget (f_folder s) (role_file (fst rb))) w) ws l;
    fi_rest : forall r, ~ In r (map fst ws) -> dget (f_folder s) (role_file r) = file_of r (held r) /\ above (lo r) (held r)
  }.

  Lemma files_point lo s l r : files lo s l ->
    dget (f_folder s) (role_file r) = Some PBroken \/
    exists done todo, batches ws r = (done ++ todo)%list /\ above (lo r) (with_stores (held r) done) /\
      dget (f_folder s) (role_file r) = file_of r (with_stores (held r) done).
  Proof.
    intros [K W R]. destruct (in_dec string_dec r (map fst ws)) as [I|I].
    - apply in_map_iff in I as (rb & <- & I). rewrite (batches_in rb I). clear R K.
      assert (X : exists w, at_point (fst rb) (held (fst rb)) (snd rb) (lo (fst rb))
                                   (dget (f_folder s) (role_file (fst rb))) w).
      { clear - W I. induction W as [|a w l1 l2 P W IH]; [destruct I|]. destruct I as [->|I]; [eauto|exact (IH I)]. }
      destruct X as [w X]. exact (point_file _ _ _ _ _ _ X).
    - right. destruct (R r I) as [F A]. exists [], []. rewrite (batches_out r I). auto.
  Qed.

  Lemma files_step lo s l1 w l2 w' s' : files lo s (l1 ++ w :: l2)%list -> fstep w s = Some (w', s') ->
    files lo s' (l1 ++ w' :: l2)%list /\ exists n, others n s s'.
  Proof.
    intros [K W R] H. apply Forall2_app_inv_r in W as (a & b & Wa & Wb & E).
    inversion Wb as [|rb ? b' ? P Wb' Eb]; subst b. clear Wb.
    assert (NS : has_char "/" (fst rb) = false).
    { rewrite Forall_forall in Wslash. apply Wslash. rewrite E. apply in_or_app. right. left. reflexivity. }
    destruct (worker_step _ _ _ _ _ _ _ _ NS P H) as [P' O].
    assert (D := Wdup). rewrite E, map_app in D. cbn [map] in D.
    assert (Na : ~ In (fst rb) (map fst a)) by (apply NoDup_remove_2 in D; intros I; apply D, in_or_app; auto).
    assert (Nb : ~ In (fst rb) (map fst b')) by (apply NoDup_remove_2 in D; intros I; apply D, in_or_app; auto).
    assert (X : forall l w, ~ In (fst rb) (map fst l) ->
      Forall2 (fun rb w => at_point (fst rb) (held (fst rb)) (snd rb) (lo (fst rb))
                                   (dget (f_folder s) (role_file (fst rb))) w) l w ->
      Forall2 (fun rb w => at_point (fst rb) (held (fst rb)) (snd rb) (lo (fst rb))
                                   (dget (f_folder s') (role_file (fst rb))) w) l w).
    { intros l v N F. induction F as [|x1 y1 lx ly P1 F IH]; constructor.
      - rewrite (proj1 O); [exact P1|]. intros Q. apply role_file_inj in Q. apply N. left. exact Q.
      - apply IH. intros I. apply N. right. exact I. }
    split; [|exists (role_file (fst rb)); exact O]. constructor.
    - apply (proj1 (proj2 (proj2 O))). exact K.
    - rewrite E. apply Forall2_app; [exact (X a l1 Na Wa)|]. constructor; [exact P'|exact (X b' l2 Nb Wb')].
    - intros r I. rewrite (proj1 O); [exact (R r I)|]. intros Q. apply role_file_inj in Q. subst r.
      apply I. rewrite E, map_app. apply in_or_app. right. left. reflexivity.
  Qed.

  (** *** The thread that merges *)
  Definition reading (acc : list dataset) (names : list string) : fpgm unit :=
    bind (forP (fun acc n => v <- fact (FLoad n);;
                          Ret (match (v : option dataset) with Some ds => (acc ++ [ds])%list | None => acc end))
            acc names) (fun l => bind (lift (groups [] l)) (fun g => fact (FNetcdf out g))).
  Definition fine (lo : lower) (r : string) (pts : list nat) : Prop :=
    moment ws held r pts /\ (forall p, lo r = Some p -> exists m, pts = (p ++ m)%list).
  Definition good (lo : lower) (g : dict (list nat)) : Prop :=
    (forall r pts, dget g r = Some pts -> fine lo r pts) /\
    (forall r p, lo r = Some p -> exists pts, dget g r = Some pts).
  Inductive merging (lo : lower) (s : fsys) (m : fpgm unit) : Prop :=
  | m_start : m = merge out -> merging lo s m
  | m_read acc done names : m = reading acc names ->
      Forall2 (fun n ds => exists r pts, n = role_file r /\ ds = mkDs (Some r) pts /\ fine lo r pts) done acc ->
      NoDup (done ++ names) -> Forall (fun n => (exists r, n = role_file r) /\ In n (dkeys (f_folder s))) names ->
      (forall r p, lo r = Some p -> In (role_file r) (done ++ names)%list) -> merging lo s m
  | m_done g : m = Ret tt -> dget (f_out s) out = Some g -> good lo g -> merging lo s m
  | m_fail : m = Raise EOFError -> merging lo s m.

  Lemma merging_other lo s s' m n : merging lo s m -> others n s s' -> merging lo s' m.
  Proof.
    intros M O. destruct M as [E|acc done names E F N K L|g E G1 G2|E].
    - apply m_start. exact E.
    - eapply m_read; eauto. rewrite Forall_forall in *. intros x I. destruct (K x I) as [A B]. split; [exact A|].
      apply O. exact B.
    - eapply m_done; eauto. rewrite (proj1 (proj2 O)). exact G1.
    - apply m_fail. exact E.
  Qed.

  Lemma groups_good lo acc done : NoDup done ->
    Forall2 (fun n ds => exists r pts, n = role_file r /\ ds = mkDs (Some r) pts /\ fine lo r pts) done acc ->
    (forall r p, lo r = Some p -> In (role_file r) done) ->
    exists g, groups [] acc = Ok g /\ good lo g.
  Proof.
    intros N F L.
    assert (X : Forall (fun ds => exists r pts, ds = mkDs (Some r) pts /\ fine lo r pts /\ In (role_file r) done) acc).
    { clear L N. induction F as [|n ds ln ld (r & p & E1 & E2 & E3) F IH]; constructor.
      - exists r, p. split; [exact E2|]. split; [exact E3|]. left. exact E1.
      - rewrite Forall_forall in *. intros x I. destruct (IH x I) as (r' & p' & A & B & C). exists r', p'.
        split; [exact A|]. split; [exact B|]. right. exact C. }
    assert (D : NoDup (map ds_role acc)).
    { clear L. revert X. induction F as [|n ds ln ld (r & p & E1 & E2 & E3) F IH]; intros _; [constructor|].
      inversion N as [|? ? N1 N2]; subst. cbn [map ds_role]. constructor.
      - intros I. apply in_map_iff in I as (y & Ey & I). apply N1. clear - F I Ey.
        induction F as [|n2 ds2 ln2 ld2 (r2 & p2 & G1 & G2 & G3) F IH2]; [destruct I|].
        destruct I as [<-|I]; [left; subst; cbn in Ey; injection Ey as ->; reflexivity|right; exact (IH2 I)].
      - apply IH; [exact N2|]. clear - F. induction F as [|n2 ds2 ln2 ld2 (r2 & p2 & G1 & G2 & G3) F IH2]; constructor.
        + exists r2, p2. subst. split; [reflexivity|]. split; [exact G3|]. left. reflexivity.
        + rewrite Forall_forall in *. intros x I. destruct (IH2 x I) as (r' & p' & A & B & C). exists r', p'.
          split; [exact A|]. split; [exact B|]. right. exact C. }
    destruct (groups_spec acc []) as (g & G & S).
    { rewrite Forall_forall in *. intros x I. destruct (X x I) as (r & p & -> & _). discriminate. }
    { exact D. }
    exists g. split; [exact G|]. split.
    - intros r pts E. rewrite S in E. destruct (find _ acc) as [ds|] eqn:Fd; [|discriminate E].
      apply find_some in Fd as [I Q]. rewrite Forall_forall in X. destruct (X ds I) as (r' & p' & -> & B & _).
      cbn in Q, E. apply String.eqb_eq in Q. subst r'. injection E as <-. exact B.
    - intros r p E. rewrite S. destruct (find _ acc) as [ds|] eqn:Fd; [eauto|]. exfalso.
      assert (Y : exists ds, In ds acc /\ ds_role ds = Some r).
      { specialize (L r p E). clear - F L. induction F as [|n ds ln ld (r2 & p2 & E1 & E2 & E3) F IH]; [destruct L|].
        destruct L as [L|L].
        - exists ds. split; [left; reflexivity|]. subst. apply role_file_inj in L. subst. reflexivity.
        - destruct (IH L) as (x & A & B). exists x. split; [right; exact A|exact B]. }
      destruct Y as (ds & I & Q). pose proof (find_none _ _ Fd ds I) as Z. cbn in Z. rewrite Q in Z.
      rewrite String.eqb_refl in Z. discriminate Z.
  Qed.

  Lemma merge_step lo s l m m' s' : files lo s l -> merging lo s m -> fstep m s = Some (m', s') ->
    f_folder s' = f_folder s /\ merging lo s' m'.
  Proof.
    intros Fi [E|acc done names E F N K L|g E G1 G2|E] H; subst m; try discriminate H.
    - unfold merge in H. cbn [fact do bind fstep fexec] in H. injection H as <- <-. split; [reflexivity|].
      apply m_read with (acc := []) (done := []) (names := filter is_pkl (dkeys (f_folder s))).
      + reflexivity.
      + constructor.
      + apply NoDup_filter. exact (fi_keys _ _ _ Fi).
      + apply Forall_forall. intros n I. apply filter_In in I as [I P]. split; [apply is_pkl_spec; exact P|exact I].
      + intros r p E. cbn [app]. apply filter_In. split; [|apply is_pkl_spec; eauto]. apply dget_Some_key.
        destruct (files_point _ _ _ r Fi) as [B|(d & t & _ & A & B)]; [eauto|].
        destruct (A p E) as [x Q]. rewrite B, Q. cbn. eauto.
    - destruct names as [|n names].
      + unfold reading in H. cbn [forP bind] in H. rewrite app_nil_r in N, L.
        destruct (groups_good lo acc done N F L) as (g & G & GG). rewrite G in H. cbn in H. injection H as <- <-.
        split; [reflexivity|]. apply m_done with (g := g); auto. cbn. apply dget_dset_same.
      + inversion K as [|? ? [[r ->] Kn] K']; subst. unfold reading in H. cbn [forP fact do bind fstep fexec] in H.
        injection H as <- <-. split; [reflexivity|].
        destruct (files_point _ _ _ r Fi) as [B|(d & t & Eb & A & B)]; rewrite B.
        * apply m_fail. reflexivity.
        * destruct (with_stores (held r) d) as [p|] eqn:W; cbn [file_of option_map].
          -- apply m_read with (acc := (acc ++ [mkDs (Some r) p])%list) (done := (done ++ [role_file r])%list) (names := names).
             ++ reflexivity.
             ++ apply Forall2_app; [exact F|]. constructor; [|constructor]. exists r, p. split; [reflexivity|].
                split; [reflexivity|]. split; [exists d, t; auto|]. intros q Q. destruct (A q Q) as [x X]. exists x. congruence.
             ++ rewrite <- app_assoc. exact N.
             ++ exact K'.
             ++ intros r' p' E'. rewrite <- app_assoc. exact (L r' p' E').
          -- exfalso. apply dget_Some_key in Kn as [v V]. rewrite B in V. discriminate V.
  Qed.

  Definition Inv (lo : lower) (c : cjob) : Prop :=
    files lo (c_fs c) (c_workers c) /\ merging lo (c_fs c) (c_merge c).
  Lemma Inv_step lo c c' : Inv lo c -> cstep c c' -> Inv lo c'.
  Proof.
    intros [F M] S. destruct S as [s m l m' s' H|s m l1 w l2 w' s' H]; cbn [c_fs c_workers c_merge] in *.
    - destruct (merge_step _ _ _ _ _ _ F M H) as [E M']. split; [|exact M']. cbn.
      destruct F as [K W R]. constructor; rewrite ?E; auto.
    - destruct (files_step _ _ _ _ _ _ _ F H) as [F' [n O]]. split; [exact F'|]. exact (merging_other _ _ _ _ _ M O).
  Qed.
  Lemma Inv_steps lo c c' : csteps c c' -> Inv lo c -> Inv lo c'.
  Proof. intros S. induction S as [s|a b c S IH S1]; intros H; [exact H|]. exact (Inv_step _ _ _ (IH H) S1). Qed.

  Lemma Inv_start s : holds held s -> Inv (fun _ => None) (c_start s out ws).
  Proof.
    intros [K H]. split; [|apply m_start; reflexivity]. constructor; cbn [c_start c_fs c_workers].
    - exact K.
    - clear Wdup Wslash. induction ws as [|rb l IH]; constructor; [|exact IH].
      apply ap_rest with (done := []) (todo := snd rb); [reflexivity|intros p E; discriminate E|exact (H (fst rb))|reflexivity].
    - intros r _. split; [exact (H r)|intros p E; discriminate E].
  Qed.
  Definition seen (s : fsys) : lower := fun r =>
    match dget (f_folder s) (role_file r) with Some (PValue (Some ds)) => Some (ds_points ds) | _ => None end.
  Lemma Inv_seen c : Inv (fun _ => None) c -> c_merge c = merge out -> Inv (seen (c_fs c)) c.
  Proof.
    intros [F M] E. split; [|apply m_start; exact E].
    assert (X : forall r p, seen (c_fs c) r = Some p -> dget (f_folder (c_fs c)) (role_file r) = file_of r (Some p)).
    { intros r p Q. unfold seen in Q. destruct (files_point _ _ _ r F) as [B|(d & t & _ & _ & B)]; rewrite B in *; [discriminate Q|].
      destruct (with_stores (held r) d); cbn in *; congruence. }
    destruct F as [K W R]. constructor; [exact K| |].
    - revert W. apply F2_impl. intros rb w P. apply (point_lo _ _ _ _ _ _ _ P). intros p Q. exact (X _ _ Q).
    - intros r I. destruct (R r I) as [A _]. split; [exact A|]. intros p Q. rewrite (X r p Q) in A.
      exists []. rewrite app_nil_r. destruct (held r); cbn in A; [injection A as ->; reflexivity|discriminate A].
  Qed.

  Lemma C107_lemma s c1 c2 : holds held s -> csteps (c_start s out ws) c1 -> c_merge c1 = merge out -> csteps c1 c2 ->
    (forall e, c_merge c2 = Raise e -> e = EOFError) /\
    (c_merge c2 = Ret tt -> exists g, dget (f_out (c_fs c2)) out = Some g /\
       (forall r pts, dget g r = Some pts -> moment ws held r pts) /\
       (forall r ds, dget (f_folder (c_fs c1)) (role_file r) = Some (PValue (Some ds)) ->
          exists more, dget g r = Some (ds_points ds ++ more)%list)).
  Proof.
    intros H S1 E S2. pose proof (Inv_steps _ _ _ S2 (Inv_seen _ (Inv_steps _ _ _ S1 (Inv_start s H)) E)) as [_ M].
    destruct M as [Q|acc done names Q F N K L|g Q G1 G2|Q].
    - rewrite Q. split; [intros e X; discriminate X|intros X; discriminate X].
    - split; [intros e X|intros X]; rewrite Q in X; unfold reading in X; destruct names as [|n names]; cbn in X; try discriminate X.
      + rewrite app_nil_r in N, L. destruct (groups_good _ acc done N F L) as (g & G & _). rewrite G in X. discriminate X.
      + rewrite app_nil_r in N, L. destruct (groups_good _ acc done N F L) as (g & G & _). rewrite G in X. discriminate X.
    - rewrite Q. split; [intros e X; discriminate X|]. intros _. exists g. split; [exact G1|]. split.
      + intros r pts D. exact (proj1 (proj1 G2 r pts D)).
      + intros r ds D. assert (Z : seen (c_fs c1) r = Some (ds_points ds)) by (unfold seen; rewrite D; reflexivity).
        destruct (proj2 G2 r _ Z) as [pts P]. destruct (proj2 (proj1 G2 r pts P) _ Z) as [m ->]. exists m. exact P.
    - rewrite Q. split; [congruence|intros X; discriminate X].
  Qed.
End Job.
