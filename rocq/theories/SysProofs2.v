(** * SysProofs2: starting jobs and driver records in all executions (C29, C30, C45) *)
From Coq Require Import List String Ascii ZArith Bool Sorted Lia.
From Verif Require Import Base PyStr BaseFacts Types ConfigModel Prog ProgFacts World WorldFacts Replies
  CmdModel KetchupModel TomatoModel JobModel PipModel DrvModel SysModel RGFacts SysOps
  SpecQueue SpecSys SysProofs.
Import ListNotations.
Open Scope list_scope.
Open Scope Z_scope.

(** Programs with harmless operations keep a stable fact. *)
Lemma okq_all_ops (R : world -> world -> Prop) (G : op -> world -> Prop) (E : world -> Prop)
    (P : op -> Prop) (J : world -> Prop) {A} (p : pgm A) : forall w,
  (forall a b, J a -> R a b -> J b) ->
  (forall o a, J a -> P o -> G o a /\ J (snd (exec o a))) ->
  (forall a, J a -> E a) ->
  all_ops P p -> J w -> okq exec R G E p (fun _ w' => J w') w.
Proof.
  induction p as [a|e|o k IH]; intros w HR HG HE; cbn; auto.
  intros [Ho Hk] Hj w1 Hr. destruct (HG o w1 (HR _ _ Hj Hr) Ho) as [Hg Hj1]. split; [exact Hg|].
  destruct (exec o w1) as [r w2]. apply IH; auto.
Qed.

(** One operation of a program. *)
Lemma okq_act (R : world -> world -> Prop) (G : op -> world -> Prop) (E : world -> Prop) (o : op)
    (Q : resp o -> world -> Prop) w :
  (forall w1, R w w1 -> G o w1 /\
     match exec o w1 with (Ok x, w2) => Q x w2 | (Err _, w2) => E w2 end) ->
  okq exec R G E (act o) Q w.
Proof. apply okq_do. Qed.

(** ** C45 *)

Lemma may_port_pid k o w : may k o -> port_pid w -> port_pid (snd (exec o w)).
Proof.
  intros Hm H. op_cases o; try exact H.
  - intros d0 Hd. unfold set_drvs in Hd. cbn in Hd. apply in_app_iff in Hd.
    destruct Hd as [Hd|[<-|[]]]; [apply H; exact Hd|].
    destruct Hm as [[]|Hm]. destruct k; try contradiction. cbn in Hm. destruct Hm as [n ->].
    reflexivity.
  - intros d0 Hd. unfold set_drvs, upd_drvs in Hd. cbn in Hd. apply in_map_iff in Hd.
    destruct Hd as (d1 & <- & Hd1). specialize (H d1 Hd1).
    destruct (String.eqb (dv_name d1) s); [|exact H].
    destruct Hm as [[]|Hm]. destruct k; try contradiction; cbn in Hm.
    + destruct Hm as [->|[(t & ->)|(t & c & ->)]]; cbn; auto.
    + destruct Hm as (_ & port & ver & pid & ->). reflexivity.
Qed.

(** Facts about the world that every operation of every thread preserves. *)
Definition some_may (k : kind) (o : op) (w : world) : Prop := may k o.
Lemma static_inv (I : world -> Prop) ls s s' :
  (forall k o w, may k o -> I w -> I (snd (exec o w))) ->
  (forall w w', env_same w w' -> I w -> I w') ->
  rg_inv I any some_may s -> runs ls s = Some s' -> rg_inv I any some_may s'.
Proof.
  intros HI HE Hi Hr. eapply rg_steps with (okl := fun _ => True) (R := any); try exact Hr; try exact Hi.
  - intros; exact Logic.I.
  - intros; exact Logic.I.
  - intros k o w Hw Ho. eapply HI; eauto.
  - intros; exact Logic.I.
  - intros l s0 s1 _ Hn Hs Hw. destruct (step_env _ _ _ Hn Hs) as [He _].
    split; [|intros; exact Logic.I]. eapply HE; eauto.
  - intros c w _ _. eapply all_ops_okp; [|apply ops_cmd]. intros; assumption.
  - intros k p w Hp _. eapply all_ops_okp; [|apply ops_mgr; exact Hp]. intros; assumption.
  - intros w _. eapply all_ops_okp; [|apply ops_quit]. intros; assumption.
  - intros w i pid a _ _ _. eapply all_ops_okp; [|apply ops_job]. intros; assumption.
  - intros n port pid ver ok w _ _. eapply all_ops_okp; [|apply ops_driver]. intros; assumption.
  - apply Forall_forall. intros; exact Logic.I.
Qed.

Lemma C45_lemma w ls s :
  port_pid w -> runs ls (start_sys w) = Some s -> port_pid (s_world s).
Proof.
  intros Hw Hr. apply (static_inv port_pid ls (start_sys w) s); auto.
  - intros k o w0 Hm. apply may_port_pid with (1 := Hm).
  - intros a b (_ & _ & _ & E & _) H. unfold port_pid. rewrite E. exact H.
  - apply rg_start. exact Hw.
Qed.

(** ** C30 *)
Lemma sql_lit_plain t : forall s, sql_lit s = Some t -> has_char "'" t = false -> s = t.
Proof.
  intros s. remember (String.length s) as n eqn:En.
  assert (Hn : (String.length s <= n)%nat) by lia. clear En. revert s t Hn.
  induction n as [|n IH]; intros s t Hn H Hp.
  - destruct s; cbn in *; [congruence|lia].
  - destruct s as [|c s]; cbn in H; [congruence|].
    assert (Hc : c = "'"%char \/ c <> "'"%char).
    { destruct (Ascii.ascii_dec c "'"); auto. }
    destruct Hc as [->|Hc].
    + destruct s as [|c' s']; [discriminate|].
      destruct (Ascii.ascii_dec c' "'") as [->|Hc'].
      * destruct (sql_lit s') as [t'|] eqn:E; [|discriminate].
        inversion H. subst t. cbn in Hp. discriminate.
      * exfalso. revert H Hc'.
        destruct c' as [b0 b1 b2 b3 b4 b5 b6 b7].
        destruct b0, b1, b2, b3, b4, b5, b6, b7; intros; try discriminate; congruence.
    + assert (H' : match sql_lit s with Some t => Some (String c t) | None => None end = Some t).
      { revert H Hc. destruct c as [b0 b1 b2 b3 b4 b5 b6 b7].
        destruct b0, b1, b2, b3, b4, b5, b6, b7; intros; try exact H; congruence. }
      destruct (sql_lit s) as [t'|] eqn:E; [|discriminate]. inversion H'. subst t.
      cbn in Hp. apply orb_false_iff in Hp. destruct Hp as [_ Hp].
      f_equal. apply IH; auto. cbn in Hn. lia.
Qed.

Definition free (n : string) (w : world) : Prop :=
  forall p, In p (w_pips w) -> p_name p = n -> p_jobid p = None.

Definition R30 (k : kind) (w w' : world) : Prop :=
  match k with KJobMgr => forall n, free n w -> free n w' | _ => True end.
Definition reserves (o : op) (w : world) : Prop :=
  match o with
  | OPipUpdate n (PJobid (Some _) :: _) => has_char "'" n = false -> free n w
  | _ => True
  end.
Definition G30 (k : kind) (o : op) (w : world) : Prop := may k o /\ reserves o w.
Definition pip_names (w : world) : Prop := NoDup (map p_name (w_pips w)).

Lemma free_pips_eq n w w' : w_pips w' = w_pips w -> free n w -> free n w'.
Proof. intros E H. unfold free. rewrite E. exact H. Qed.

Lemma names_exec o w : pip_names w -> pip_names (snd (exec o w)).
Proof.
  unfold pip_names. intros H. op_cases o; try exact H; unfold set_pips; cbn.
  - rewrite map_app. cbn. apply get_pip_None in Heqo.
    apply NoDup_Add with (a := p_name p) (l := map p_name (w_pips w)); [|split; auto].
    rewrite <- (app_nil_r (map p_name (w_pips w))) at 1.
    replace (map p_name (w_pips w) ++ [p_name p]) with (map p_name (w_pips w) ++ p_name p :: []) by reflexivity.
    apply Add_app.
  - rewrite upd_pips_names. exact H.
Qed.

Lemma free_upd w n' cs m : (forall p, p_jobid p = None -> p_jobid (set_pcols cs p) = None) ->
  free m w -> free m (set_pips w (upd_pips n' cs (w_pips w))).
Proof.
  intros Hc H p Hp Hm. unfold set_pips, upd_pips in Hp. cbn in Hp. apply in_map_iff in Hp.
  destruct Hp as (q & <- & Hq). destruct (String.eqb (p_name q) n').
  - rewrite set_pcols_name in Hm. apply Hc. apply H; auto.
  - apply H; auto.
Qed.

Lemma others_free k o w : may k o -> mgr_eqb k KJobMgr = false -> forall n, free n w -> free n (snd (exec o w)).
Proof.
  intros Hm Hk n H. op_cases o; try (eapply free_pips_eq; [|exact H]; reflexivity).
  - intros q Hq Hn. unfold set_pips in Hq. cbn in Hq. apply in_app_iff in Hq.
    destruct Hq as [Hq|[<-|[]]]; [apply H; auto|].
    destruct Hm as [[]|Hm]. destruct k; try contradiction. destruct Hm as [m ->]. reflexivity.
  - apply free_upd; [|exact H]. intros p Hp.
    destruct Hm as [[]|Hm]. destruct k; try contradiction; try discriminate; cbn in Hm.
    + destruct Hm as [(x & ->)|[->| ->]]; exact Hp.
    + subst cs. reflexivity.
    + destruct Hm as (_ & b & ->). reflexivity.
Qed.

(** Quiet operations do not touch pipelines. *)
Lemma quiet_pips o w : quiet o -> w_pips (snd (exec o w)) = w_pips w.
Proof. intros H. op_cases o; try reflexivity; contradiction. Qed.

Lemma by_name_In l : forall a n p, dget (fold_left (fun a p => dset a (p_name p) p) l a) n = Some p ->
  (In p l /\ p_name p = n) \/ dget a n = Some p.
Proof.
  induction l as [|x l IH]; intros a n p H; cbn in H; [auto|].
  destruct (IH _ _ _ H) as [[Hp Hn]|Hd]; [left; split; [now right|exact Hn]|].
  rewrite dget_dset in Hd. destruct (String.eqb_spec n (p_name x)) as [->|Hne].
  - inversion Hd. subst. left. split; [now left|reflexivity].
  - now right.
Qed.

Lemma NoDup_by_name l : forall a : dict pipstate, NoDup (dkeys a) ->
  NoDup (dkeys (fold_left (fun a p => dset a (p_name p) p) l a)).
Proof. induction l as [|x l IH]; intros a H; cbn; auto. apply IH. apply NoDup_dset. exact H. Qed.

Definition avail_free (avail : dict pipstate) (w : world) : Prop :=
  NoDup (dkeys avail) /\
  forall n p, has_char "'" n = false -> dget avail n = Some p -> free n w.

Lemma avail_pips avail w w' : (forall n, free n w -> free n w') ->
  avail_free avail w -> avail_free avail w'.
Proof. intros H [Hk Ha]. split; [exact Hk|]. intros n p Hq Hd. apply H. eapply Ha; eauto. Qed.

Section C30.
  Let R := rely pip_names R30 KJobMgr.
  Let G := G30 KJobMgr.
  Let E := fun _ : world => True.

  Lemma R_avail avail a b : avail_free avail a -> R a b -> avail_free avail b.
  Proof. intros H [_ Hr]. eapply avail_pips; eauto. Qed.

  (** An operation that does not touch pipelines. *)
  Lemma q30 (o : op) (Q : resp o -> world -> Prop) (J : world -> Prop) w :
    may KJobMgr o -> match o with OPipUpdate _ _ => False | _ => True end ->
    (forall w w', w_pips w' = w_pips w -> J w -> J w') ->
    (forall a b, J a -> R a b -> J b) ->
    (forall x w', J w' -> Q x w') -> J w -> okq exec R G E (act o) Q w.
  Proof.
    intros Hm Ho Hp Hr Hq Hj. apply okq_act. intros w1 H1.
    assert (Hj1 : J w1) by (eapply Hr; eauto).
    split; [split; [exact Hm|destruct o; try exact I; contradiction]|].
    assert (Hw : w_pips (snd (exec o w1)) = w_pips w1).
    { revert Hm Ho. clear. intros Hm Ho. op_cases o; try reflexivity; try contradiction.
      destruct Hm as [[]|[]]. }
    destruct (exec o w1) as [[x|e] w2]; [|exact I]. apply Hq. eapply Hp; eauto.
  Qed.

  Lemma ok30_launch d j pn avail w :
    avail_free avail w -> dget avail pn <> None ->
    okq exec R G E (launch d j pn) (fun _ w' => avail_free (ddel avail pn) w') w.
  Proof.
    intros Ha Hd.
    assert (Hp : forall w w', w_pips w' = w_pips w -> avail_free avail w -> avail_free avail w').
    { intros a b Eab. apply avail_pips. intros n. apply free_pips_eq. exact Eab. }
    assert (Hp' : forall w w', w_pips w' = w_pips w -> avail_free (ddel avail pn) w ->
                               avail_free (ddel avail pn) w').
    { intros a b Eab. apply avail_pips. intros n. apply free_pips_eq. exact Eab. }
    assert (HR : forall a b, avail_free avail a -> R a b -> avail_free avail b)
      by (intros; eapply R_avail; eauto).
    assert (HR' : forall a b, avail_free (ddel avail pn) a -> R a b -> avail_free (ddel avail pn) b)
      by (intros; eapply R_avail; eauto).
    unfold launch, update_pip, update_job_id.
    q_bind. apply q30 with (J := avail_free avail); auto; try exact I; try (right; exact I). intros _ w1 H1.
    q_bind. apply okq_lift; [exact I|]. intros pp _.
    q_bind. apply q30 with (J := avail_free avail); auto; try exact I; try (right; exact I). intros _ w2 H2.
    q_bind. q_bind. apply okq_act. intros w3 H3.
    assert (H3' : avail_free avail w3) by (eapply R_avail; eauto).
    split.
    { split; [right; cbn; eauto|]. cbn. intros Hq. destruct (dget avail pn) as [ps|] eqn:Ed; [|congruence].
      eapply (proj2 H3'); eauto. }
    cbn [exec]. destruct (sql_lit pn) as [pn'|] eqn:El; [|exact I].
    assert (H4 : avail_free (ddel avail pn) (set_pips w3 (upd_pips pn' [PJobid (Some (j_id j)); PReady false] (w_pips w3)))).
    { split; [apply NoDup_ddel; apply H3'|].
      intros n p Hpl Hn q Hq Hqn. unfold set_pips, upd_pips in Hq. cbn in Hq. apply in_map_iff in Hq.
      destruct Hq as (q0 & <- & Hq0).
      rewrite dget_ddel in Hn by apply H3'.
      destruct (String.eqb_spec n pn) as [Ex|Hnpn]; [discriminate|].
      destruct (String.eqb_spec (p_name q0) pn') as [Eq|Eq].
      - cbn in Hqn. subst n. subst pn'. elim Hnpn. symmetry.
        eapply sql_lit_plain; eauto.
      - eapply (proj2 H3'); eauto. }
    apply q30 with (J := avail_free (ddel avail pn)); auto; try exact I; try (left; exact I). intros _ w5 H5.
    q_bind. apply q30 with (J := avail_free (ddel avail pn)); auto; try exact I; try (right; exact I). intros _ w6 H6.
    q_bind. apply q30 with (J := avail_free (ddel avail pn)); auto; try exact I; try (left; exact I). intros t w7 H7.
    q_bind. q_bind. apply q30 with (J := avail_free (ddel avail pn)); auto; try exact I; try (right; cbn; eauto; fail).
    intros _ w8 H8.
    apply q30 with (J := avail_free (ddel avail pn)); auto; try exact I; try (left; exact I).
  Qed.

  Lemma ok30_pass w : okq exec R G E job_pass (fun _ _ => True) w.
  Proof.
    unfold job_pass. q_bind.
    apply q30 with (J := fun _ => True); auto; try exact I; try (left; exact I).
    intros [d|] w1 _; [|exact I].
    assert (Q : forall {A} (p : pgm A) (Q' : A -> world -> Prop) w, all_ops quiet p ->
      (forall a w', Q' a w') -> okq exec R G E p Q' w).
    { intros A p Q' w0 Hp HQ. eapply okq_weaken; [intros; apply HQ|].
      eapply okq_all_ops with (J := fun _ => True) (P := quiet); try (intros; exact I); [|exact Hp].
      intros o a _ Ho. split; [|exact I]. split; [apply quiet_may; exact Ho|].
      destruct o; try exact I; contradiction. }
    q_bind. apply Q; [apply quiet_manage|]. intros _ w2.
    q_bind. apply Q; [apply quiet_check|]. intros m w3.
    unfold action_queued. q_bind. apply okq_act. intros w4 H4.
    split; [split; [left; exact I|exact I]|]. cbn [exec].
    q_bind.
    set (J := fun (l : list (Z * list string)) (a : dict pipstate) w => avail_free a w).
    eapply okq_weaken; [intros a w' _; exact I|].
    eapply okq_forP with (J := J).
    { split; [apply NoDup_by_name; constructor|].
      intros n p Hpl Hd q Hq Hqn. apply by_name_In in Hd. destruct Hd as [[Hp Hpn]|Hd]; [|discriminate].
      apply filter_In in Hp. destruct Hp as [Hp Hb].
      assert (Hnd : NoDup (map p_name (w_pips w4))) by apply H4.
      replace q with p.
      - destruct (p_jobid p); [discriminate|reflexivity].
      - pose proof (In_get_pip _ _ Hnd Hp). pose proof (In_get_pip _ _ Hnd Hq). congruence. }
    intros [id l] r avail w5 H5. unfold action_one. cbn [fst snd].
    assert (Hp : forall avail w w', w_pips w' = w_pips w -> avail_free avail w -> avail_free avail w').
    { intros av a b Eab. apply avail_pips. intros n. apply free_pips_eq. exact Eab. }
    q_bind. apply q30 with (J := avail_free avail);
      [left; exact I|exact I|apply Hp|intros; eapply R_avail; eauto| |exact H5].
    intros j w6 H6. q_bind.
    eapply okq_weaken; [|eapply okq_forB with (J := fun _ a w => avail_free a w) (K := fun a w => avail_free a w)].
    - intros [a|a] w' H; exact H.
    - exact H6.
    - intros pn r' a w7 H7. unfold try_pip. destruct (dget a pn) as [ps|] eqn:Ed; [|exact H7].
      destruct (p_ready ps && _)%bool; [|exact H7]. q_bind.
      eapply okq_weaken; [|apply ok30_launch; [exact H7|congruence]]. intros u w' H'. exact H'.
  Qed.
End C30.

Lemma names_env w w' : env_same w w' -> pip_names w -> pip_names w'.
Proof. intros (_ & _ & E & _). unfold pip_names. rewrite E. auto. Qed.

Lemma inv30 ls s s' : rg_inv pip_names R30 G30 s -> runs ls s = Some s' -> rg_inv pip_names R30 G30 s'.
Proof.
  assert (Hst : forall k (p : pgm (option reply)) w, all_ops (may k) p -> mgr_eqb k KJobMgr = false ->
    okp exec (rely pip_names R30 k) (G30 k) p w).
  { intros k p w Hp Hk. eapply all_ops_okp; [|exact Hp]. intros w0 w1 o _ Ho. split; [exact Ho|].
    destruct o; try exact I. destruct cs as [|[b|[i|]|x] cs]; try exact I. intros _.
    exfalso. destruct Ho as [[]|Ho]. destruct k; try contradiction; try discriminate; cbn in Ho.
    - destruct Ho as [(y & Ey)|[Ey|Ey]]; discriminate.
    - destruct Ho as (_ & b & Ey). discriminate. }
  intros Hi Hr. eapply rg_steps with (okl := fun _ => True) (R := R30); try exact Hr; try exact Hi.
  - intros k w; destruct k; try exact I. intros n H; exact H.
  - intros k x y z; destruct k; try (intros; exact I). intros H1 H2 n H; auto.
  - intros k o w Hw _. apply names_exec; auto.
  - intros k k' o w _ [Hm _] Hk. destruct k'; try exact I. intros n. eapply others_free; eauto.
  - intros l s0 s1 _ Hn Hs Hw. destruct (step_env _ _ _ Hn Hs) as [He _].
    split; [eapply names_env; eauto|]. intros []; try exact I. intros n.
    apply free_pips_eq. apply He.
  - intros c w _ _. apply Hst; [apply ops_cmd|reflexivity].
  - intros k p w Hp _. destruct (mgr_eqb k KJobMgr) eqn:Ek.
    + destruct k; try discriminate. injection Hp as <-. eapply okq_okp with (E := fun _ => True) (Q := fun _ _ => True).
      unfold no_reply. q_bind. eapply okq_weaken; [|apply ok30_pass]. intros; exact I.
    + apply Hst; [apply ops_mgr; exact Hp|exact Ek].
  - intros w _. apply Hst; [apply ops_quit|reflexivity].
  - intros w i pid a _ _ _. apply Hst; [apply ops_job|reflexivity].
  - intros n port pid ver ok w _ _. apply Hst; [apply ops_driver|reflexivity].
  - apply Forall_forall. intros; exact I.
Qed.

Lemma C30_lemma w ls s l s' n p p' i j :
  NoDup (map p_name (w_pips w)) ->
  runs ls (start_sys w) = Some s -> step l s = Some s' ->
  has_char "'" n = false ->
  get_pip (w_pips (s_world s)) n = Some p -> p_jobid p = Some i ->
  get_pip (w_pips (s_world s')) n = Some p' -> p_jobid p' = Some j -> i = j.
Proof.
  intros Hw Hr Hs Hq Hp Hi Hp' Hj.
  assert (B : rg_inv pip_names R30 G30 s) by (eapply inv30; [apply rg_start; exact Hw|exact Hr]).
  assert (E0 : w_pips (s_world s') = w_pips (s_world s) -> i = j) by (intros E; rewrite E in Hp'; congruence).
  destruct l; try (pose proof (fun H => step_env _ _ _ H Hs) as X; destruct X as [(_ & _ & Ex & _) _];
    [congruence|apply E0; exact Ex]).
  assert (Rr : forall k w, R30 k w w) by (intros [] w0; try exact I; intros m H; exact H).
  destruct (rg_guar _ _ _ Rr _ _ _ B Hs) as [E|(t & o & k & _ & _ & [Hm Hg] & E)].
  { apply E0. rewrite E. reflexivity. }
  rewrite E in Hp', E0. revert Hp' E0 Hm Hg. clear E.
  assert (Hnd : NoDup (map p_name (w_pips (s_world s)))) by apply B.
  op_cases o; intros Hp' E0 Hm Hg; try (apply E0; reflexivity); cbn [set_pips w_pips] in Hp'.
  - (* insert *)
    rewrite get_pip_app, Hp in Hp'. congruence.
  - rewrite get_pip_upd, Hp in Hp'. cbn [option_map] in Hp'.
    destruct (String.eqb_spec n s0) as [En|Hne].
    + subst s0. inversion Hp'. subst p'.
      assert (Hsn : n1 = n) by (eapply sql_lit_plain; eauto). subst n1.
      destruct Hm as [[]|Hm]. destruct (t_kind t); try contradiction; cbn in Hm.
      * destruct Hm as [(x & ->)|[->| ->]]; cbn in Hj; congruence.
      * destruct Hm as (id & ->). cbn in Hg, Hj. specialize (Hg Hq).
        apply get_pip_In in Hp. destruct Hp as [Hp Hn]. rewrite (Hg p Hp Hn) in Hi. discriminate.
      * subst cs. discriminate.
      * destruct Hm as (_ & b & ->). discriminate.
    + congruence.
Qed.
