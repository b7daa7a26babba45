(** * WholeProofs: facts about the data of a whole job (C109) *)
From Coq Require Import List String Ascii ZArith Bool Lia.
From Verif Require Import Base BaseFacts PyStr Prog ProgFacts Types JobThreadModel DeviceModel SpecDevice RunModel SpecRun
  RunProofs2 IoModel SpecIo IoProofs WholeModel SpecWhole.
Import ListNotations.

(** ** Steps of a worker *)
Definition is_job (l : rlabel) : bool := match l with RJob _ _ _ => true | _ => false end.
Lemma answer_stored m s : r_stored (answer m s) = r_stored s.
Proof.
  unfold answer. destruct (r_pgm s) as [|e|o k]; try reflexivity.
  destruct o; try reflexivity; destruct m; reflexivity.
Qed.
Lemma rstep_stored same l s s' : rstep same l s = Some s' ->
  storing (r_pgm s) = None \/ is_job l = false -> r_stored s' = r_stored s.
Proof.
  intros H X. destruct l as [c f|a| |c n b|]; cbn [rstep] in H.
  - destruct (wstep c f (r_dev s)); [|discriminate H]. injection H as <-. reflexivity.
  - destruct (r_wait s); [discriminate H|]. destruct (begin_request a (r_dev s)); [|discriminate H].
    injection H as <-. reflexivity.
  - destruct (mstep (r_dev s)) as [d|]; [|discriminate H]. cbn [option_map] in H. injection H as <-.
    destruct (r_wait s); [rewrite answer_stored|]; reflexivity.
  - destruct X as [X|X]; [|discriminate X].
    unfold job_step in H. destruct (r_wait s); [discriminate H|].
    destruct (r_pgm s) as [|e|o k]; try discriminate H. destruct o; cbn in X; try discriminate X;
      unfold pass_on in H;
      repeat match type of H with
        | option_map _ (begin_request ?a ?d) = _ => destruct (begin_request a d); cbn [option_map] in H
        | (if ?b then _ else _) = _ => destruct b
        | match d_main ?d with _ => _ end = _ => destruct (d_main d)
        end; try discriminate H; injection H as <-; reflexivity.
  - unfold offline in H. destruct (r_pgm s) as [|e|o k]; try discriminate H.
    destruct o; try discriminate H; injection H as <-; reflexivity.
Qed.
Lemma rstep_keep same l s s' d : rstep same l s = Some s' -> storing (r_pgm s) = Some d -> is_job l = false ->
  r_pgm s' = r_pgm s.
Proof.
  intros H X J. destruct (r_pgm s) as [|e|o k] eqn:E; try discriminate X.
  destruct l as [c f|a| |c n b|]; cbn [rstep] in H; try discriminate J.
  - destruct (wstep c f (r_dev s)); [|discriminate H]. injection H as <-. exact E.
  - destruct (r_wait s); [discriminate H|]. destruct (begin_request a (r_dev s)); [|discriminate H].
    injection H as <-. exact E.
  - destruct (mstep (r_dev s)) as [dd|]; [|discriminate H]. cbn [option_map] in H. injection H as <-.
    destruct (r_wait s); [|exact E]. unfold answer. cbn [with_dev r_pgm]. rewrite E.
    destruct o; try discriminate X. exact E.
  - unfold offline in H. rewrite E in H. destruct o; try discriminate X. discriminate H.
Qed.
Lemma rstep_store same l s s' d : rstep same l s = Some s' -> storing (r_pgm s) = Some d -> is_job l = true ->
  r_stored s' = (r_stored s ++ d)%list.
Proof.
  intros H X J. destruct l; try discriminate J. cbn [rstep] in H. unfold job_step in H.
  destruct (r_wait s); [discriminate H|]. destruct (r_pgm s) as [|e|o k]; try discriminate X.
  destruct o; try discriminate X. cbn in X. injection X as ->. injection H as <-. reflexivity.
Qed.
Lemma rsteps_snoc same l : forall ls s s1 s2, rsteps same ls s = Some s1 -> rstep same l s1 = Some s2 ->
  rsteps same (ls ++ [l]) s = Some s2.
Proof.
  induction ls as [|x ls IH]; intros s s1 s2 H1 H2; cbn [app rsteps] in *.
  - injection H1 as ->. rewrite H2. reflexivity.
  - destruct (rstep same x s); [|discriminate H1]. eapply IH; eassumption.
Qed.

(** ** data_to_pickle, operation by operation *)
Fixpoint fin (n : string) (tgt : option pkl) (p : fpgm unit) (c : option pkl) : Prop :=
  match p with
  | Ret _ => c = tgt
  | Raise _ => False
  | Op o k =>
    (forall s, dget (f_folder s) n = c -> fin n tgt (k (fst (fexec o s))) (dget (f_folder (snd (fexec o s))) n)) /\
    (forall s m, m <> n -> dget (f_folder (snd (fexec o s))) m = dget (f_folder s) m) /\
    (forall s, NoDup (dkeys (f_folder s)) -> NoDup (dkeys (f_folder (snd (fexec o s)))))
  end.
Lemma fin_op n tgt o (k : res (fresp o) -> fpgm unit) c :
    (forall s, dget (f_folder s) n = c -> fin n tgt (k (fst (fexec o s))) (dget (f_folder (snd (fexec o s))) n)) ->
    (forall s m, m <> n -> dget (f_folder (snd (fexec o s))) m = dget (f_folder s) m) ->
    (forall s, NoDup (dkeys (f_folder s)) -> NoDup (dkeys (f_folder (snd (fexec o s))))) ->
    fin n tgt (Op o k) c.
Proof. intros H1 H2 H3. exact (conj H1 (conj H2 H3)). Qed.

(** What the file of a role holds. *)
Definition filed (role : string) (st : list nat) (c : option pkl) : Prop :=
  (c = None /\ st = []) \/ c = Some (PValue (Some (mkDs (Some role) st))).
Definition file_with (role : string) (st : list nat) : option pkl := Some (PValue (Some (mkDs (Some role) st))).

Lemma fin_store role st d c : has_char "/" role = false -> filed role st c ->
  fin (role_file role) (file_with role (st ++ d)) (store_role role d) c.
Proof.
  intros NS F. rewrite <- role_file_slash in NS.
  assert (W : forall p c', p = mkDs (Some role) (st ++ d) ->
            fin (role_file role) (file_with role (st ++ d))
              (Op (FTrunc (role_file role)) (fun r => bind (match r with Ok x => Ret x | Err e => Raise e end)
                 (fun _ => fact (FDump (role_file role) p)))) c').
  { intros p c' ->. apply fin_op.
    - intros s _. cbn [fexec]. rewrite NS. cbn [fst snd bind fact do]. apply fin_op.
      + intros s1 _. cbn [fexec fst snd f_folder]. rewrite dget_dset_same. reflexivity.
      + intros s1 m Hm. cbn [fexec snd f_folder]. apply dget_dset_other. congruence.
      + intros s1 N. cbn [fexec snd f_folder]. apply NoDup_dset, N.
    - intros s m Hm. cbn [fexec]. rewrite NS. cbn [snd f_folder]. apply dget_dset_other. congruence.
    - intros s N. cbn [fexec]. rewrite NS. cbn [snd f_folder]. apply NoDup_dset, N. }
  unfold store_role, data_to_pickle. cbn [bind fact do]. apply fin_op; [|intros; reflexivity|intros s N; exact N].
  intros s E. cbn [fexec fst snd bind]. unfold dhas. rewrite E. destruct F as [[-> ->]| ->]; cbn [is_some bind].
  - apply W. reflexivity.
  - apply fin_op; [|intros; reflexivity|intros s1 N; exact N].
    intros s1 E1. cbn [fexec]. rewrite E1. cbn [fst snd bind ds_role ds_points]. apply W. reflexivity.
Qed.

(** ** The invariant *)
Section Inv.
  Variable same : task -> task -> bool.
  Variable P : rlabel -> Prop.
  Variable s0 : fsys.

  Definition file_state (p : part) (s : fsys) : Prop :=
    let c := dget (f_folder s) (role_file (pt_role p)) in
    match pt_file p with
    | None => filed (pt_role p) (r_stored (pt_run p)) c
    | Some q => exists d, storing (r_pgm (pt_run p)) = Some d /\
        fin (role_file (pt_role p)) (file_with (pt_role p) (r_stored (pt_run p) ++ d)) q c
    end.
  Definition run_state (c : cast) (p : part) : Prop :=
    pt_role p = c_role c /\ has_char "/" (pt_role p) = false /\
    exists ls, Forall P ls /\
      rsteps same ls (run_start (c_dev c) (job_thread (c_fuel c) (c_poll c) (c_tasks c))) = Some (pt_run p).
  Definition whole_inv (cs : list cast) (w : whole) : Prop :=
    Forall2 run_state cs (wh_parts w) /\
    (forall p, In p (wh_parts w) -> file_state p (wh_fs w)) /\
    NoDup (dkeys (f_folder (wh_fs w))) /\
    (forall m, (forall p, In p (wh_parts w) -> m <> role_file (pt_role p)) ->
               dget (f_folder (wh_fs w)) m = dget (f_folder s0) m).
  Definition label_ok (l : wlabel) : Prop := match l with LPart _ l => P l | _ => True end.

  Lemma put_in {A} (x : A) : forall l i y, In y (put_at i x l) -> y = x \/ In y l.
  Proof.
    induction l as [|z l IH]; intros [|i] y H; cbn in H; try contradiction.
    - destruct H as [->|H]; [left; reflexivity|right; right; exact H].
    - destruct H as [->|H]; [right; left; reflexivity|]. destruct (IH _ _ H); [left|right; right]; assumption.
  Qed.
  Lemma put_map {A B} (f : A -> B) (x : A) : forall l i y, nth_error l i = Some y -> f x = f y ->
    map f (put_at i x l) = map f l.
  Proof.
    induction l as [|z l IH]; intros [|i] y H E; cbn in *; try discriminate H.
    - injection H as ->. rewrite E. reflexivity.
    - f_equal. eapply IH; eassumption.
  Qed.
  Lemma put_F2 {A B} (R : A -> B -> Prop) (x : B) : forall la l i a y, Forall2 R la l -> nth_error l i = Some y ->
    nth_error la i = Some a -> R a x -> Forall2 R la (put_at i x l).
  Proof.
    induction la as [|b la IH]; intros l i a y F N1 N2 H; inversion F; subst.
    - destruct i; discriminate N2.
    - destruct i as [|i]; cbn in *.
      + injection N2 as ->. constructor; assumption.
      + constructor; [assumption|]. eapply IH; eassumption.
  Qed.
  Lemma F2_nth {A B} (R : A -> B -> Prop) : forall la l i y, Forall2 R la l -> nth_error l i = Some y ->
    exists a, nth_error la i = Some a /\ R a y.
  Proof.
    induction la as [|b la IH]; intros l i y F N; inversion F; subst.
    - destruct i; discriminate N.
    - destruct i as [|i]; cbn in *; [injection N as ->; eauto|]. eapply IH; eassumption.
  Qed.
  (** The other parts have other roles. *)
  Lemma put_others {A} (f : A -> string) (x : A) : forall l i y z, NoDup (map f l) -> nth_error l i = Some y -> f x = f y ->
    In z (put_at i x l) -> z = x \/ (In z l /\ f z <> f y).
  Proof.
    induction l as [|w l IH]; intros [|i] y z N H E I1; cbn in *; try contradiction; try discriminate H.
    - injection H as ->. inversion N as [|? ? N1 N2]; subst.
      destruct I1 as [->|I1]; [left; reflexivity|]. right. split; [right; exact I1|].
      intros X. apply N1. rewrite <- X. apply in_map, I1.
    - inversion N as [|? ? N1 N2]; subst. destruct I1 as [->|I1].
      + right. split; [left; reflexivity|]. intros X. apply N1. rewrite X. apply in_map. eapply nth_error_In, H.
      + destruct (IH _ _ _ N2 H E I1) as [X|[X1 X2]]; [left; exact X|right; split; [right; exact X1|exact X2]].
  Qed.

  Lemma inv_step cs w l w' : NoDup (map c_role cs) -> label_ok l -> whole_inv cs w -> whole_step same l w = Some w' ->
    whole_inv cs w'.
  Proof.
    intros ND LO (F2 & FS & N & O) H.
    assert (ND' : NoDup (map pt_role (wh_parts w))).
    { replace (map pt_role (wh_parts w)) with (map c_role cs); [exact ND|].
      clear - F2. induction F2 as [|c p cs ps R _ IH]; [reflexivity|]. cbn. rewrite IH. destruct R as (-> & _). reflexivity. }
    destruct l as [i l|i|o]; cbn [whole_step] in H.
    - destruct (nth_error (wh_parts w) i) as [p|] eqn:Ei; [|discriminate H].
      destruct (F2_nth _ _ _ _ _ F2 Ei) as (c & Ec & (R1 & R2 & ls & R3 & R4)).
      pose proof (FS p (nth_error_In _ _ Ei)) as Fp.
      destruct (part_step same l p) as [p'|] eqn:Ep; [|discriminate H]. injection H as <-. cbn [wh_parts wh_fs].
      assert (X : run_state c p' /\ pt_role p' = pt_role p /\ file_state p' (wh_fs w)).
      { assert (GO : forall s f, rstep same l (pt_run p) = Some s -> p' = mkPart (pt_role p) s f ->
                  run_state c p' /\ pt_role p' = pt_role p).
        { intros s f E ->. split; [|reflexivity]. split; [exact R1|]. split; [exact R2|].
          exists (ls ++ [l])%list. split; [apply Forall_app; split; [exact R3|constructor; [exact LO|constructor]]|].
          eapply rsteps_snoc; eassumption. }
        assert (PL : (storing (r_pgm (pt_run p)) = None \/ is_job l = false) ->
                  option_map (fun s => mkPart (pt_role p) s (pt_file p)) (rstep same l (pt_run p)) = Some p' ->
                  run_state c p' /\ pt_role p' = pt_role p /\ file_state p' (wh_fs w)).
        { intros C E. destruct (rstep same l (pt_run p)) as [s|] eqn:Es; [|discriminate E]. cbn [option_map] in E.
          injection E as <-. destruct (GO s _ eq_refl eq_refl) as [G1 G2]. split; [exact G1|]. split; [exact G2|].
          unfold file_state in *. cbn [pt_file pt_role pt_run]. rewrite (rstep_stored _ _ _ _ Es C).
          destruct (pt_file p) as [q|]; [|exact Fp]. destruct Fp as (d & Sd & Fd). exists d. split; [|exact Fd].
          destruct C as [C|C]; [congruence|]. rewrite (rstep_keep _ _ _ _ _ Es Sd C). exact Sd. }
        unfold part_step in Ep. cbv zeta in Ep. destruct l as [cc f|a| |cc n b|].
        1,2,3,5: apply PL; [right; reflexivity|destruct (storing (r_pgm (pt_run p))); exact Ep].
        destruct (storing (r_pgm (pt_run p))) as [d|] eqn:Sd; [|apply PL; [left; reflexivity|exact Ep]].
        clear PL. unfold file_state in Fp. destruct (pt_file p) as [q|].
        - destruct Fp as (d' & Sd' & Fd). rewrite Sd in Sd'. injection Sd' as <-.
          destruct q as [x|e|o k]; [|contradiction Fd|discriminate Ep].
          destruct (rstep same (RJob cc n b) (pt_run p)) as [s|] eqn:Es; [|discriminate Ep].
          cbn [option_map] in Ep. injection Ep as <-.
          destruct (GO s _ eq_refl eq_refl) as [G1 G2]. split; [exact G1|]. split; [exact G2|].
          unfold file_state. cbn [pt_file pt_role pt_run]. rewrite (rstep_store _ _ _ _ _ Es Sd eq_refl).
          right. cbn [fin] in Fd. rewrite Fd. reflexivity.
        - injection Ep as <-. split; [split; [exact R1|]; split; [exact R2|]; exists ls; auto|]. split; [reflexivity|].
          unfold file_state. cbn [pt_file pt_role pt_run]. exists d. split; [exact Sd|]. apply fin_store; assumption. }
      destruct X as (X1 & X2 & X3). split; [eapply put_F2; eassumption|]. split; [|split; [exact N|]].
      + intros p1 I1. destruct (put_in _ _ _ _ I1) as [->|I2]; [exact X3|apply FS, I2].
      + intros m Hm. apply O. intros p1 I1 E.
        assert (I2 : In (pt_role p1) (map pt_role (put_at i p' (wh_parts w)))).
        { rewrite (put_map pt_role p' _ _ _ Ei X2). apply in_map, I1. }
        apply in_map_iff in I2 as (p2 & E2 & I2). apply (Hm p2 I2). rewrite E2. exact E.
    - destruct (nth_error (wh_parts w) i) as [p|] eqn:Ei; [|discriminate H].
      destruct (F2_nth _ _ _ _ _ F2 Ei) as (c & Ec & R).
      pose proof (FS p (nth_error_In _ _ Ei)) as Fp.
      unfold file_step in H. unfold file_state in Fp. destruct (pt_file p) as [[x|e|o k]|]; try discriminate H.
      cbn [option_map fst snd] in H. injection H as <-. cbn [wh_parts wh_fs].
      destruct Fp as (d & Sd & Fd). destruct Fd as (G1 & G2 & G3).
      split; [eapply put_F2; [exact F2|exact Ei|exact Ec|exact R]|]. cbn [wh_parts wh_fs]. split; [|split; [apply G3, N|]].
      + intros p1 I1. destruct (put_others pt_role (mkPart (pt_role p) (pt_run p) (Some (k (fst (fexec o (wh_fs w)))))) _ _ _ _ ND' Ei eq_refl I1) as [->|[I2 NE]].
        * unfold file_state. cbn [pt_file pt_role pt_run]. exists d. split; [exact Sd|]. apply G1. reflexivity.
        * pose proof (FS p1 I2) as Q. unfold file_state in *. rewrite G2; [exact Q|].
          intros X. apply NE, role_file_inj, X.
      + intros m Hm. rewrite G2.
        * apply O. intros p1 I1 E.
          assert (I2 : In (pt_role p1) (map pt_role (put_at i (mkPart (pt_role p) (pt_run p) (Some (k (fst (fexec o (wh_fs w)))))) (wh_parts w)))).
          { rewrite (put_map pt_role _ _ _ _ Ei); [|reflexivity]. apply in_map, I1. }
          apply in_map_iff in I2 as (p2 & E2 & I2). apply (Hm p2 I2). rewrite E2. exact E.
        * assert (I2 : In (pt_role p) (map pt_role (put_at i (mkPart (pt_role p) (pt_run p) (Some (k (fst (fexec o (wh_fs w)))))) (wh_parts w)))).
          { rewrite (put_map pt_role _ _ _ _ Ei); [|reflexivity]. apply in_map. eapply nth_error_In, Ei. }
          apply in_map_iff in I2 as (p2 & E2 & I2). rewrite <- E2. apply Hm, I2.
    - destruct (main_may o) eqn:M; [|discriminate H]. injection H as <-. cbn [wh_parts wh_fs].
      assert (E : f_folder (snd (fexec o (wh_fs w))) = f_folder (wh_fs w)) by (destruct o; try discriminate M; reflexivity).
      split; [exact F2|]. cbn [wh_parts wh_fs]. unfold file_state. rewrite E. split; [exact FS|]. split; assumption.
  Qed.
  Lemma inv_steps cs : NoDup (map c_role cs) -> forall ls w w', Forall label_ok ls -> whole_inv cs w ->
    whole_steps same ls w = Some w' -> whole_inv cs w'.
  Proof.
    intros ND. induction ls as [|l ls IH]; intros w w' L I H; cbn in H; [congruence|].
    inversion L as [|? ? L1 L2]; subst. destruct (whole_step same l w) as [w1|] eqn:E; [|discriminate H].
    eapply IH; [exact L2| |exact H]. eapply inv_step; eassumption.
  Qed.
  Lemma inv_start cs : no_data s0 -> Forall (fun c => has_char "/" (c_role c) = false) cs ->
    whole_inv cs (whole_start cs s0).
  Proof.
    intros [N E] NS. cbn. split; [|split; [|split; [exact N|reflexivity]]].
    - induction NS as [|c cs H _ IH]; cbn; constructor; [|exact IH].
      split; [reflexivity|]. split; [exact H|]. exists []. split; [constructor|reflexivity].
    - intros p I1. apply in_map_iff in I1 as (c & <- & _). left. split; [apply E|reflexivity].
  Qed.
End Inv.

(** Which worker has a role. *)
Lemma find_part (ps : list part) r : NoDup (map pt_role ps) ->
  (exists p, In p ps /\ pt_role p = r) \/ (forall p, In p ps -> pt_role p <> r).
Proof.
  induction ps as [|p ps IH]; intros N; [right; intros p []|].
  inversion N; subst. destruct (string_dec (pt_role p) r) as [E|E]; [left; exists p; split; [left; reflexivity|exact E]|].
  destruct (IH H2) as [(q & I1 & E1)|X]; [left; exists q; split; [right; exact I1|exact E1]|].
  right. intros q [->|I1]; [exact E|apply X, I1].
Qed.

Lemma whole_merge same P s0 cs w out : NoDup (map c_role cs) -> no_data s0 ->
  whole_inv same P s0 cs w -> (forall p, In p (wh_parts w) -> pt_file p = None) ->
  exists g, runf (merge out) (wh_fs w) = (Ok tt, mkFs (f_folder (wh_fs w)) (dset (f_out (wh_fs w)) out g)) /\
    (forall p, In p (wh_parts w) -> group_of g (pt_role p) = r_stored (pt_run p)) /\
    (forall r, ~ In r (map c_role cs) -> dget g r = None).
Proof.
  intros ND [N0 E0] (F2 & FS & N & O) PF.
  assert (ER : map pt_role (wh_parts w) = map c_role cs).
  { clear - F2. induction F2 as [|c p cs ps R _ IH]; [reflexivity|]. cbn. rewrite IH. destruct R as (-> & _). reflexivity. }
  assert (FO : folder_ok (fun r => match dget (f_folder (wh_fs w)) (role_file r) with
                                   | Some (PValue (Some ds)) => Some (ds_points ds) | _ => None end) (wh_fs w)).
  { split; [|exact N]. intros r. destruct (find_part (wh_parts w) r) as [(p & I1 & <-)|X]; [rewrite ER; exact ND| |].
    - pose proof (FS p I1) as Q. unfold file_state in Q. rewrite (PF p I1) in Q.
      destruct Q as [[-> _]| ->]; reflexivity.
    - rewrite (O (role_file r)); [unfold role_file; rewrite E0; reflexivity|].
      intros p I1 E. apply (X p I1). symmetry. apply role_file_inj, E. }
  destruct (merge_ok _ (wh_fs w) out FO) as (g & R & G). exists g. split; [exact R|]. split.
  - intros p I1. pose proof (FS p I1) as Q. unfold file_state in Q. rewrite (PF p I1) in Q.
    unfold group_of. rewrite G. destruct Q as [[-> ->]| ->]; reflexivity.
  - intros r NI. rewrite G, (O (role_file r)); [unfold role_file; rewrite E0; reflexivity|].
    intros p I1 E. apply NI. rewrite <- ER. apply role_file_inj in E. rewrite E. apply in_map, I1.
Qed.

(** A worker that has ended is not storing. *)
Lemma ended_file p s : ended p -> file_state p s -> pt_file p = None.
Proof.
  unfold ended, file_state. intros E F. destruct (pt_file p) as [q|]; [|reflexivity].
  destruct F as (d & S & _). destruct (r_pgm (pt_run p)); [discriminate S|discriminate S|contradiction].
Qed.
