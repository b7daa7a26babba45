(** * ConfigProofs: lemmas about configuration loading *)
From Coq Require Import List String Ascii ZArith Bool Lia.
From Verif Require Import Base BaseFacts PyStr Types ConfigModel SpecConfig.
Import ListNotations.
Open Scope string_scope.

(** ** generic *)
Lemma last_such_snoc {A} (P : A -> Prop) l a x :
  last_such P (l ++ [a])%list x <-> (P a /\ x = a) \/ (~ P a /\ last_such P l x).
Proof.
  split.
  - intros (l1 & l2 & E & Px & F).
    destruct (exists_last (l := x :: l2)) as [l2' [b Eb]]; [discriminate|].
    rewrite Eb, app_assoc in E. apply app_inj_tail in E as [E ->].
    destruct l2' as [|y l2']; simpl in Eb.
    + injection Eb as -> ->. auto.
    + injection Eb as -> ->. apply Forall_app in F as [F1 F2].
      inversion F2; subst. right. split; auto.
      exists l1, l2'. auto.
  - intros [[Pa ->]|[Hn (l1 & l2 & -> & Px & F)]].
    + exists l, []. auto.
    + exists l1, (l2 ++ [a])%list. rewrite <- app_assoc. repeat split; auto.
      apply Forall_app; auto.
Qed.

Lemma last_such_nil {A} (P : A -> Prop) x : ~ last_such P [] x.
Proof. intros (l1 & l2 & E & _). destruct l1; discriminate. Qed.

Lemma last_such_In {A} (P : A -> Prop) l x : last_such P l x -> In x l /\ P x.
Proof. intros (l1 & l2 & -> & Px & _). split; auto. apply in_elt. Qed.

Lemma last_such_ext {A} (P Q : A -> Prop) l x :
  (forall y, In y l -> (P y <-> Q y)) -> last_such P l x -> last_such Q l x.
Proof.
  intros H (l1 & l2 & -> & Px & F). exists l1, l2. repeat split; auto.
  - apply H; auto. apply in_elt.
  - rewrite Forall_forall in *. intros y Hy Hq. apply (F y Hy).
    apply H; auto. apply in_or_app. right. right. exact Hy.
Qed.

(** A last one exists when there is any (for decidable [P]). *)
Lemma last_such_exists {A} (P : A -> Prop) (dec : forall x, {P x} + {~ P x}) l :
  (exists x, In x l /\ P x) -> exists x, last_such P l x.
Proof.
  induction l as [|a l IH] using rev_ind; intros [x [Hin Px]].
  - destruct Hin.
  - destruct (dec a) as [Pa|Na].
    + exists a. apply last_such_snoc. auto.
    + apply in_app_or in Hin as [Hin|[->|[]]]; [|contradiction].
      destruct IH as [y Hy]; eauto.
      exists y. apply last_such_snoc. auto.
Qed.

(** ** strings *)
Lemma ends_with_star_spec n : ends_with_star n = true <-> wildcard n.
Proof.
  unfold wildcard. split.
  - induction n as [|c n IH]; simpl; [discriminate|].
    destruct n as [|c2 n].
    + intros H. apply Ascii.eqb_eq in H. subst. exists "". reflexivity.
    + intros H. destruct (IH H) as [s E]. exists (String c s). simpl. now rewrite <- E.
  - intros [s ->]. induction s as [|c s IH]; simpl; auto.
    destruct s; simpl in *; auto.
Qed.

Lemma not_wildcard n : ends_with_star n = false <-> ~ wildcard n.
Proof. rewrite <- ends_with_star_spec. destruct (ends_with_star n); intuition discriminate. Qed.

Lemma cname_component_name dev ch :
  cname (d_driver dev) (d_address dev) ch = component_name dev ch.
Proof. reflexivity. Qed.

(** ** devices *)
Definition dev_in (l : list rawdev) (n : string) (dev : device) : Prop :=
  exists rd, last_such (fun d => rd_name d = Some n) l rd /\
    d_name dev = n /\
    rd_driver rd = Some (d_driver dev) /\
    rd_address rd = Some (d_address dev) /\
    rd_channels rd = Some (d_channels dev) /\
    d_pollrate dev = match rd_pollrate rd with Some p => p | None => 1%Z end.

Lemma mk_device_inv a dev : mk_device a = Ok dev ->
  rd_name a = Some (d_name dev) /\ rd_driver a = Some (d_driver dev) /\
  rd_address a = Some (d_address dev) /\ rd_channels a = Some (d_channels dev) /\
  d_pollrate dev = match rd_pollrate a with Some p => p | None => 1%Z end.
Proof.
  unfold mk_device. destruct a as [[n|] [d|] [ad|] [c|] p]; simpl; try discriminate.
  intros H; injection H as <-. simpl. auto.
Qed.

Lemma dev_eq (a b : device) :
  d_name a = d_name b -> d_driver a = d_driver b -> d_address a = d_address b ->
  d_channels a = d_channels b -> d_pollrate a = d_pollrate b -> a = b.
Proof. destruct a, b; simpl; congruence. Qed.

Lemma load_devices_spec l devs : load_devices l = Ok devs ->
  NoDup (dkeys devs) /\ forall n dev, dget devs n = Some dev <-> dev_in l n dev.
Proof.
  unfold load_devices. intros H.
  apply (foldM_prefix _ (fun l devs => NoDup (dkeys devs) /\
     forall n dev, dget devs n = Some dev <-> dev_in l n dev)) in H; auto.
  - split; [constructor|]. intros n dev. split; [discriminate|].
    intros (rd & Hl & _). exfalso. eapply last_such_nil; eauto.
  - clear H. intros l1 a l2 s1 s2 _ [Hnd IH] H.
    unfold rbind in H. destruct (mk_device a) as [dv|] eqn:E; [|discriminate].
    injection H as <-. apply mk_device_inv in E as (E1 & E2 & E3 & E4 & E5).
    split; [now apply NoDup_dset|].
    intros n dev. rewrite dget_dset. destruct (String.eqb_spec n (d_name dv)) as [->|Hne].
    + split.
      * intros H; injection H as <-. exists a. rewrite last_such_snoc. auto 10.
      * intros (rd & Hl & F1 & F2 & F3 & F4 & F5). apply last_such_snoc in Hl.
        destruct Hl as [[_ ->]|[Hn _]]; [|congruence].
        f_equal. apply dev_eq; congruence.
    + rewrite IH. unfold dev_in. split; intros (rd & Hl & F).
      * exists rd. rewrite last_such_snoc. split; auto. right. split; auto. congruence.
      * exists rd. apply last_such_snoc in Hl as [[Hc _]|[_ Hl]]; auto. congruence.
Qed.

Lemma load_devices_ok l : (exists devs, load_devices l = Ok devs) <-> Forall wf_device l.
Proof.
  apply foldM_ok_iff. intros s a _. unfold wf_device, mk_device.
  destruct a as [[n|] [d|] [ad|] [c|] p]; simpl; split;
    try (intros [s' H]; discriminate); try (intros (H1&H2&H3&H4); congruence).
  - intros _. repeat split; discriminate.
  - intros _. eauto.
Qed.

Lemma dev_in_name l n dev : dev_in l n dev -> d_name dev = n.
Proof. intros (rd & _ & H & _). exact H. Qed.

(** ** effect of a definition on the component table *)
Definition the_component (dev : device) (ch : string) : component :=
  mkComponent (component_name dev ch) (d_name dev) (d_driver dev) (d_address dev) ch.

Definition cstep (cs cs' : dict component) (U : device -> string -> Prop) : Prop :=
  (NoDup (dkeys cs) -> NoDup (dkeys cs')) /\
  (forall cn c, dget cs' cn = Some c ->
     dget cs cn = Some c \/ exists dev ch, U dev ch /\ c = the_component dev ch /\ cn = component_name dev ch) /\
  (forall cn c, dget cs cn = Some c -> exists c', dget cs' cn = Some c') /\
  (forall dev ch, U dev ch -> exists c, dget cs' (component_name dev ch) = Some c).

Lemma cstep_refl cs : cstep cs cs (fun _ _ => False).
Proof. unfold cstep. repeat split; eauto. intros dev ch []. Qed.

Lemma cstep_add dev ch cs : cstep cs (add_component dev ch cs) (fun d c => d = dev /\ c = ch).
Proof.
  unfold cstep, add_component. rewrite cname_component_name.
  change (mkComponent (component_name dev ch) (d_name dev) (d_driver dev) (d_address dev) ch)
    with (the_component dev ch).
  repeat split.
  - apply NoDup_dset.
  - intros cn c H. rewrite dget_dset in H.
    destruct (String.eqb_spec cn (component_name dev ch)).
    + injection H as <-. right. exists dev, ch. auto.
    + auto.
  - intros cn c H. rewrite dget_dset.
    destruct (String.eqb cn (component_name dev ch)); eauto.
  - intros d c [-> ->]. rewrite dget_dset_same. eauto.
Qed.

Lemma cstep_trans cs1 cs2 cs3 U V :
  cstep cs1 cs2 U -> cstep cs2 cs3 V -> cstep cs1 cs3 (fun d c => U d c \/ V d c).
Proof.
  intros (A1 & A2 & A3 & A4) (B1 & B2 & B3 & B4). unfold cstep. repeat split; auto.
  - intros cn c H. apply B2 in H as [H|(dev & ch & H1 & H2 & H3)].
    + apply A2 in H as [H|(dev & ch & H1 & H2 & H3)]; auto.
      right. exists dev, ch. auto.
    + right. exists dev, ch. auto.
  - intros cn c H. apply A3 in H as [c' H]. eauto.
  - intros dev ch [H|H]; auto. apply A4 in H as [c H]. eauto.
Qed.

Lemma cstep_ext cs cs' (U V : device -> string -> Prop) :
  (forall d c, U d c <-> V d c) -> cstep cs cs' U -> cstep cs cs' V.
Proof.
  intros E (A1 & A2 & A3 & A4). unfold cstep. repeat split; auto.
  - intros cn c H. apply A2 in H as [H|(dev & ch & H1 & H2)]; auto.
    right. exists dev, ch. rewrite <- E. auto.
  - intros dev ch H. apply A4, E, H.
Qed.

(** ** wildcard definitions *)
Lemma wild_fold n r dev chs : forall cs ps cs' ps',
  foldM (wild_channel n (Some r) dev) (cs, ps) chs = Ok (cs', ps') ->
  cstep cs cs' (fun d c => d = dev /\ In c chs) /\
  (NoDup (dkeys ps) -> NoDup (dkeys ps')) /\
  (forall pn,
     (exists ch, In ch chs /\ pn = replace_star n ch /\
        dget ps' pn = Some (mkPipeline pn [(r, component_name dev ch)])) \/
     ((forall ch, In ch chs -> pn <> replace_star n ch) /\ dget ps' pn = dget ps pn)).
Proof.
  intros cs ps cs' ps' H.
  apply (foldM_prefix _ (fun l st =>
    cstep cs (fst st) (fun d c => d = dev /\ In c l) /\
    (NoDup (dkeys ps) -> NoDup (dkeys (snd st))) /\
    (forall pn,
     (exists ch, In ch l /\ pn = replace_star n ch /\
        dget (snd st) pn = Some (mkPipeline pn [(r, component_name dev ch)])) \/
     ((forall ch, In ch l -> pn <> replace_star n ch) /\ dget (snd st) pn = dget ps pn)))) in H; auto.
  - simpl. split; [|split]; auto.
    eapply cstep_ext; [|apply cstep_refl]. intros d c; simpl; tauto.
  - clear H. intros l1 a l2 [c1 p1] s2 _ (A & B & C) H. unfold wild_channel in H. simpl in *.
    injection H as <-. simpl. split; [|split].
    + eapply cstep_ext; [|eapply cstep_trans; [apply A|apply cstep_add]].
      intros d c. simpl. rewrite in_app_iff. simpl. intuition.
    + intros Hn. apply NoDup_dset. auto.
    + intros pn. rewrite dget_dset.
      destruct (String.eqb_spec pn (replace_star n a)) as [->|Hne].
      * left. exists a. rewrite in_app_iff. simpl. auto.
      * destruct (C pn) as [(ch & Hin & -> & Hg)|[Hno Hg]].
        -- left. exists ch. rewrite in_app_iff. auto.
        -- right. split; auto. intros ch Hin. apply in_app_or in Hin as [Hin|[<-|[]]]; auto.
Qed.

Lemma wild_fold_norole n dev chs st st' :
  foldM (wild_channel n None dev) st chs = Ok st' -> chs = [] /\ st' = st.
Proof.
  destruct chs as [|c chs]; simpl; [|discriminate]. intros H. injection H as <-. auto.
Qed.

(** ** plain definitions *)
Section Plain.
  Variable devs : dict device.

  Definition uses_entry (comps : list rawcomp) (dev : device) (ch : string) : Prop :=
    exists rc dn, In rc comps /\ rc_device rc = Some dn /\ dget devs dn = Some dev /\
      rc_channel rc = Some ch.

  Lemma plain_fold comps cs cs' m :
    foldM (plain_comp devs) (cs, []) comps = Ok (cs', m) ->
    cstep cs cs' (uses_entry comps) /\
    NoDup (dkeys m) /\
    (forall role cn, dget m role = Some cn <->
       exists rc dn dev ch, last_such (fun rc => rc_role rc = Some role) comps rc /\
         rc_device rc = Some dn /\ dget devs dn = Some dev /\
         rc_channel rc = Some ch /\ cn = component_name dev ch) /\
    (forall dev ch, uses_entry comps dev ch -> In ch (d_channels dev)) /\
    (forall rc, In rc comps -> exists role, rc_role rc = Some role).
  Proof.
    intros H.
    apply (foldM_prefix _ (fun l st =>
      cstep cs (fst st) (uses_entry l) /\
      NoDup (dkeys (snd st)) /\
      (forall role cn, dget (snd st) role = Some cn <->
       exists rc dn dev ch, last_such (fun rc => rc_role rc = Some role) l rc /\
         rc_device rc = Some dn /\ dget devs dn = Some dev /\
         rc_channel rc = Some ch /\ cn = component_name dev ch) /\
      (forall dev ch, uses_entry l dev ch -> In ch (d_channels dev)) /\
      (forall rc, In rc l -> exists role, rc_role rc = Some role))) in H; auto.
    - simpl. split; [|split; [|split; [split|split]]].
      + eapply cstep_ext; [|apply cstep_refl]. unfold uses_entry. simpl. firstorder.
      + constructor.
      + discriminate.
      + intros (rc & dn & dev & ch & Hl & _). exfalso. eapply last_such_nil; eauto.
      + intros dev ch (rc & dn & [] & _).
      + intros rc [].
    - clear H. intros l1 a l2 [c1 m1] s2 _ (A & B & C & D & E) H.
      unfold plain_comp in H. simpl in *.
      destruct (rc_device a) as [dn|] eqn:Ed; [|discriminate].
      destruct (dget devs dn) as [dev|] eqn:Eg; [|discriminate].
      destruct (rc_channel a) as [ch|] eqn:Ec; [|discriminate].
      destruct (mem ch (d_channels dev)) eqn:Em; [|discriminate].
      destruct (rc_role a) as [r|] eqn:Er; [|discriminate].
      injection H as <-. simpl. split; [|split; [|split; [split|split]]].
      + eapply cstep_ext; [|eapply cstep_trans; [apply A|apply cstep_add]].
        intros d c. simpl. unfold uses_entry. split.
        * intros [(rc & dn' & H1 & H2)|[-> ->]].
          -- exists rc, dn'. rewrite in_app_iff. auto.
          -- exists a, dn. rewrite in_app_iff. simpl. auto 8.
        * intros (rc & dn' & H1 & H2 & H3 & H4).
          apply in_app_or in H1 as [H1|[<-|[]]].
          -- left. exists rc, dn'. auto.
          -- right. split; congruence.
      + now apply NoDup_dset.
      + rewrite dget_dset. destruct (String.eqb_spec role r) as [->|Hne].
        * intros H; injection H as <-. exists a, dn, dev, ch. rewrite last_such_snoc. auto 10.
        * rewrite C. intros (rc & dn' & dev' & ch' & Hl & F).
          exists rc, dn', dev', ch'. rewrite last_such_snoc. split; auto.
          right. split; auto. congruence.
      + rewrite dget_dset. intros (rc & dn' & dev' & ch' & Hl & F1 & F2 & F3 & F4).
        apply last_such_snoc in Hl as [[Hr ->]|[Hr Hl]].
        * replace r with role by congruence. rewrite String.eqb_refl.
          replace dn' with dn in * by congruence. replace dev' with dev in * by congruence.
          replace ch' with ch in * by congruence. now subst.
        * destruct (String.eqb_spec role r) as [->|Hne]; [congruence|].
          apply C. exists rc, dn', dev', ch'. auto.
      + intros d c (rc & dn' & H1 & H2 & H3 & H4).
        apply in_app_or in H1 as [H1|[<-|[]]].
        * apply D. exists rc, dn'. auto.
        * apply mem_In. congruence.
      + intros rc H1. apply in_app_or in H1 as [H1|[<-|[]]]; eauto.
  Qed.

  Lemma plain_comp_ok s rc :
    (exists s', plain_comp devs s rc = Ok s') <->
    exists dn dev ch role, rc_device rc = Some dn /\ dget devs dn = Some dev /\
      rc_channel rc = Some ch /\ In ch (d_channels dev) /\ rc_role rc = Some role.
  Proof.
    unfold plain_comp. split.
    - intros [s' H].
      destruct (rc_device rc) as [dn|]; [|discriminate].
      destruct (dget devs dn) as [dev|] eqn:Eg; [|discriminate].
      destruct (rc_channel rc) as [ch|]; [|discriminate].
      destruct (mem ch (d_channels dev)) eqn:Em; [|discriminate].
      destruct (rc_role rc) as [r|]; [|discriminate].
      apply mem_In in Em. exists dn, dev, ch, r. auto.
    - intros (dn & dev & ch & r & -> & E & -> & Hm & ->). rewrite E.
      apply mem_In in Hm. rewrite Hm. eauto.
  Qed.

  Lemma wild_comp_ok n s rc :
    (exists s', wild_comp devs n s rc = Ok s') <->
    exists dn dev, rc_device rc = Some dn /\ dget devs dn = Some dev /\
      rc_channel rc = Some "each" /\ (d_channels dev <> [] -> rc_role rc <> None).
  Proof.
    unfold wild_comp. split.
    - intros [s' H].
      destruct (rc_device rc) as [dn|]; [|discriminate].
      destruct (dget devs dn) as [dev|] eqn:Eg; [|discriminate].
      destruct (rc_channel rc) as [ch|]; [|discriminate].
      destruct (String.eqb_spec ch "each") as [E|]; [|discriminate].
      exists dn, dev. repeat split; auto; [now rewrite E|]. intros Hc.
      destruct (rc_role rc); [discriminate|].
      apply wild_fold_norole in H. tauto.
    - intros (dn & dev & -> & E & -> & Hr). rewrite E. simpl.
      assert (Hok : forall l (st : pstate), (l <> [] -> rc_role rc <> None) ->
        exists s', foldM (wild_channel n (rc_role rc) dev) st l = Ok s').
      { induction l as [|c l IH]; intros st Hl; simpl; eauto.
        unfold wild_channel at 1. destruct (rc_role rc) eqn:Er.
        - apply IH. congruence.
        - exfalso. apply Hl; congruence. }
      apply Hok, Hr.
  Qed.
End Plain.

(** ** the whole file *)
Lemma on_device_dget rf devs : load_devices (rf_devices rf) = Ok devs ->
  forall rc dev, on_device rf rc dev <-> exists dn, rc_device rc = Some dn /\ dget devs dn = Some dev.
Proof.
  intros H rc dev. apply load_devices_spec in H as [_ H]. unfold on_device.
  split; intros (dn & E & F); exists dn; (split; [exact E|]); apply H; exact F.
Qed.

Lemma add_pipeline_ok rf devs : load_devices (rf_devices rf) = Ok devs ->
  forall s rp, (exists s', add_pipeline devs s rp = Ok s') <-> wf_pipeline rf rp.
Proof.
  intros Hd s rp. pose proof (on_device_dget rf devs Hd) as OD.
  unfold add_pipeline, wf_pipeline. split.
  - intros [s' H]. destruct (rp_name rp) as [n|]; [|discriminate].
    destruct (rp_devices rp) as [comps|]; [|destruct (ends_with_star n); discriminate].
    exists n, comps. repeat split; auto.
    destruct (ends_with_star n) eqn:Ew.
    + right. split; [now apply ends_with_star_spec|].
      destruct (Nat.eqb_spec (List.length comps) 1); [|discriminate].
      destruct comps as [|rc [|]]; try discriminate. simpl in H.
      destruct (wild_comp devs n s rc) eqn:E; [|discriminate].
      destruct (proj1 (wild_comp_ok devs n s rc)) as (dn & dev & E1 & E2 & E3 & E4); eauto.
      exists rc, dev. repeat split; auto. apply OD. eauto.
    + left. split; [now apply not_wildcard|].
      destruct (foldM (plain_comp devs) (fst s, []) comps) as [[cs m]|] eqn:E; [|discriminate].
      pose proof (proj1 (foldM_ok_iff (plain_comp devs) _ comps
        (fun s a _ => plain_comp_ok devs s a) (fst s, [])) (ex_intro _ _ E)) as F.
      eapply Forall_impl; [|exact F]. simpl.
      intros rc (dn & dev & ch & r & E1 & E2 & E3 & E4 & E5).
      exists dev, ch, r. repeat split; auto. apply OD. eauto.
  - intros (n & comps & -> & -> & [[Hw F]|[Hw (rc & dev & -> & Ho & Hc & Hr)]]).
    + apply not_wildcard in Hw. rewrite Hw.
      assert (Hok : exists s', foldM (plain_comp devs) (fst s, []) comps = Ok s').
      { apply (foldM_ok_iff (plain_comp devs) _ comps (fun s a _ => plain_comp_ok devs s a)).
        eapply Forall_impl; [|exact F]. intros rc (dev & ch & r & Ho & Hc & Hi & Hr).
        apply OD in Ho as (dn & E1 & E2). exists dn, dev, ch, r. auto. }
      destruct Hok as [[cs m] ->]. eauto.
    + apply ends_with_star_spec in Hw. rewrite Hw. simpl.
      apply OD in Ho as (dn & E1 & E2).
      destruct (proj2 (wild_comp_ok devs n s rc)) as [s' Hs].
      { exists dn, dev. auto. }
      rewrite Hs. eauto.
Qed.

Lemma accepted_iff rf : (exists df, load_devicefile rf = Ok df) <-> well_formed rf.
Proof.
  unfold load_devicefile, well_formed. split.
  - intros [df H]. destruct (load_devices (rf_devices rf)) as [devs|] eqn:Ed; [|discriminate].
    split; [apply load_devices_ok; eauto|].
    destruct (foldM (add_pipeline devs) ([], []) (rf_pipelines rf)) eqn:E; [|discriminate].
    apply (proj1 (foldM_ok_iff (add_pipeline devs) _ _
      (fun s a _ => add_pipeline_ok rf devs Ed s a) ([], []))). eauto.
  - intros [Hd Hp]. apply load_devices_ok in Hd as [devs Ed]. rewrite Ed.
    apply (proj2 (foldM_ok_iff (add_pipeline devs) _ _
      (fun s a _ => add_pipeline_ok rf devs Ed s a) ([], []))) in Hp as [[cs ps] ->].
    eauto.
Qed.

Lemma makes_use_channel rf devs rp s s' : load_devices (rf_devices rf) = Ok devs ->
  add_pipeline devs s rp = Ok s' ->
  forall dev ch, makes_use rf rp dev ch -> In ch (d_channels dev).
Proof.
  intros Hd H dev ch (n & comps & rc & En & Ec & Hin & Ho & [[Hw Hc]|[_ Hc]]); auto.
  assert (W : wf_pipeline rf rp) by (apply (add_pipeline_ok rf devs Hd s); eauto).
  destruct W as (n' & comps' & En' & Ec' & [[_ F]|[Hw' _]]).
  - replace comps' with comps in * by congruence. rewrite Forall_forall in F.
    destruct (F rc Hin) as (dev' & ch' & r & Ho' & Hc' & Hi & _).
    apply (on_device_dget rf devs Hd) in Ho as (dn & E1 & E2).
    apply (on_device_dget rf devs Hd) in Ho' as (dn' & E1' & E2').
    congruence.
  - replace n' with n in * by congruence. contradiction.
Qed.

Record pinv (rf : rawfile) (l : list rawpip) (st : pstate) : Prop := mkPInv {
  pi_nd_c : NoDup (dkeys (fst st));
  pi_nd_p : NoDup (dkeys (snd st));
  pi_comp : forall cn c, dget (fst st) cn = Some c ->
     exists rp dev, In rp l /\ makes_use rf rp dev (c_channel c) /\
       In (c_channel c) (d_channels dev) /\
       c = the_component dev (c_channel c) /\ cn = component_name dev (c_channel c);
  pi_used : forall rp dev ch, In rp l -> makes_use rf rp dev ch ->
     exists c, dget (fst st) (component_name dev ch) = Some c;
  pi_pip : forall pn p, dget (snd st) pn = Some p ->
     pp_name p = pn /\ exists rp, last_such (fun rp => yields rf rp pn) l rp /\
       role_map rf rp pn (pp_components p);
  pi_none : forall pn, dget (snd st) pn = None -> forall rp, In rp l -> ~ yields rf rp pn;
  pi_closed : forall pn p role cn, dget (snd st) pn = Some p ->
     dget (pp_components p) role = Some cn -> exists c, dget (fst st) cn = Some c
}.

Lemma pinv_nil rf : pinv rf [] ([], []).
Proof.
  constructor; simpl; try discriminate; try constructor; try contradiction.
Qed.

Lemma pinv_step rf devs l rp s s' : load_devices (rf_devices rf) = Ok devs ->
  pinv rf l s -> add_pipeline devs s rp = Ok s' -> pinv rf (l ++ [rp])%list s'.
Proof.
  intros Hd I H. pose proof (on_device_dget rf devs Hd) as OD.
  pose proof (makes_use_channel rf devs rp s s' Hd H) as MC.
  assert (W : wf_pipeline rf rp) by (apply (add_pipeline_ok rf devs Hd s); eauto).
  (* the effect of the definition on both tables *)
  assert (K : cstep (fst s) (fst s') (makes_use rf rp) /\
    (NoDup (dkeys (snd s)) -> NoDup (dkeys (snd s'))) /\
    (forall pn, (yields rf rp pn /\ exists p, dget (snd s') pn = Some p /\ pp_name p = pn /\
                   role_map rf rp pn (pp_components p) /\
                   forall role cn, dget (pp_components p) role = Some cn ->
                     exists dev ch, makes_use rf rp dev ch /\ cn = component_name dev ch) \/
                (~ yields rf rp pn /\ dget (snd s') pn = dget (snd s) pn))).
  { unfold add_pipeline in H.
    destruct W as (n & comps & En & Ec & W). rewrite En, Ec in H.
    destruct (ends_with_star n) eqn:Ew.
    - destruct W as [[Hw _]|[Hw (rc & dev & -> & Ho & Hch & Hr)]].
      { exfalso. apply Hw. now apply ends_with_star_spec. }
      simpl in H. destruct (wild_comp devs n s rc) as [s1|] eqn:Ewc; [|discriminate].
      injection H as ->. unfold wild_comp in Ewc.
      pose proof (proj1 (OD rc dev) Ho) as (dn & Edn & Eg).
      rewrite Edn, Eg, Hch in Ewc. simpl in Ewc.
      assert (UD : forall dev', on_device rf rc dev' -> dev' = dev).
      { intros dev' Ho'. apply OD in Ho' as (dn' & E1 & E2). congruence. }
      assert (MU : forall d c, makes_use rf rp d c <-> d = dev /\ In c (d_channels dev)).
      { intros d c. unfold makes_use. split.
        - intros (n' & comps' & rc' & E1 & E2 & Hin & Ho' & G).
          replace n' with n in * by congruence.
          replace comps' with [rc] in * by congruence.
          destruct Hin as [<-|[]]. rewrite (UD d Ho') in *.
          destruct G as [[Hnw _]|[_ G]]; [contradiction|auto].
        - intros [-> Hin]. exists n, [rc], rc. repeat split; simpl; auto. }
      assert (YI : forall pn, yields rf rp pn <-> exists ch, In ch (d_channels dev) /\ pn = replace_star n ch).
      { intros pn. unfold yields. split.
        - intros (n' & comps' & E1 & E2 & G).
          replace n' with n in * by congruence.
          replace comps' with [rc] in * by congruence.
          destruct G as [[Hnw _]|[_ (rc' & dev' & ch & E3 & Ho' & Hin & ->)]]; [contradiction|].
          injection E3 as <-. rewrite (UD dev' Ho') in *. eauto.
        - intros (ch & Hin & ->). exists n, [rc]. repeat split; auto.
          right. split; auto. exists rc, dev, ch. auto. }
      destruct (rc_role rc) as [r|] eqn:Er.
      + destruct s as [cs ps], s' as [cs' ps'].
        apply wild_fold in Ewc as (A & B & C). simpl. split; [|split].
        * eapply cstep_ext; [|exact A]. intros d c. rewrite MU. tauto.
        * exact B.
        * intros pn. destruct (C pn) as [(ch & Hin & -> & Hg)|[Hno Hg]].
          -- left. split; [apply YI; eauto|]. eexists. split; [exact Hg|]. simpl. split; auto.
             split.
             ++ exists n, [rc]. repeat split; auto. right. split; auto.
                exists rc, dev, ch, r. auto 8.
             ++ intros role cn. simpl. destruct (String.eqb role r); [|discriminate].
                intros X; injection X as <-. exists dev, ch. split; auto. apply MU. auto.
          -- right. split; auto. rewrite YI. intros (ch & Hin & ->). eapply Hno; eauto.
      + apply wild_fold_norole in Ewc as [Hnil ->]. split; [|split].
        * eapply cstep_ext; [|apply cstep_refl]. intros d c. rewrite MU, Hnil. simpl. tauto.
        * auto.
        * intros pn. right. split; auto. rewrite YI, Hnil. intros (ch & [] & _).
    - destruct W as [[Hw F]|[Hw _]].
      2:{ exfalso. apply ends_with_star_spec in Hw. congruence. }
      destruct (foldM (plain_comp devs) (fst s, []) comps) as [[cs m]|] eqn:E; [|discriminate].
      injection H as <-. simpl.
      apply plain_fold in E as (A & B & C & D & G).
      assert (MU : forall d c, makes_use rf rp d c <-> uses_entry devs comps d c).
      { intros d c. unfold makes_use, uses_entry. split.
        - intros (n' & comps' & rc & E1 & E2 & Hin & Ho & Hc).
          replace n' with n in * by congruence. replace comps' with comps in * by congruence.
          destruct Hc as [[_ Hc]|[Hw' _]]; [|contradiction].
          apply OD in Ho as (dn & E3 & E4). exists rc, dn. auto.
        - intros (rc & dn & Hin & E3 & E4 & Hc). exists n, comps, rc. repeat split; auto.
          apply OD. eauto. }
      assert (YI : forall pn, yields rf rp pn <-> pn = n).
      { intros pn. unfold yields. split.
        - intros (n' & comps' & E1 & E2 & [[_ ->]|[Hw' _]]); [congruence|].
          replace n' with n in * by congruence. contradiction.
        - intros ->. exists n, comps. auto. }
      split; [|split].
      + eapply cstep_ext; [|exact A]. intros d c. rewrite MU. tauto.
      + intros Hn. now apply NoDup_dset.
      + intros pn. rewrite dget_dset. destruct (String.eqb_spec pn n) as [->|Hne].
        * left. split; [now apply YI|]. eexists. split; [reflexivity|]. simpl. split; auto.
          split.
          -- exists n, comps. repeat split; auto. left. split; auto. split; auto.
             intros role cn. rewrite C. split.
             ++ intros (rc & dn & dev & ch & Hl & E1 & E2 & E3 & E4).
                exists rc, dev, ch. repeat split; auto. apply OD. eauto.
             ++ intros (rc & dev & ch & Hl & Ho & E3 & E4).
                apply OD in Ho as (dn & E1 & E2). exists rc, dn, dev, ch. auto.
          -- intros role cn Hrc. apply C in Hrc as (rc & dn & dev & ch & Hl & E1 & E2 & E3 & E4).
             exists dev, ch. split; auto. apply MU. exists rc, dn.
             apply last_such_In in Hl as [Hin _]. auto.
        * right. rewrite YI. auto. }
  destruct K as ((K1 & K2 & K3 & K4) & KP & KQ). destruct I as [I1 I2 I3 I4 I5 I6 I7].
  constructor; auto.
  - intros cn c Hg. apply K2 in Hg as [Hg|(dev & ch & Hu & -> & ->)].
    + apply I3 in Hg as (rp' & dev & Hin & R). exists rp', dev. rewrite in_app_iff. auto.
    + exists rp, dev. rewrite in_app_iff. simpl. repeat split; auto.
  - intros rp' dev ch Hin Hu. apply in_app_or in Hin as [Hin|[<-|[]]].
    + destruct (I4 rp' dev ch Hin Hu) as [c Hc]. eauto.
    + eauto.
  - intros pn p Hg. destruct (KQ pn) as [[Hy (p' & Hg' & E1 & E2 & _)]|[Hn Hg']].
    + replace p with p' in * by congruence. split; auto. exists rp. split; auto.
      apply last_such_snoc. auto.
    + rewrite Hg' in Hg. destruct (I5 pn p Hg) as [E (rp' & Hl & Hr)]. split; auto.
      exists rp'. split; auto. apply last_such_snoc. auto.
  - intros pn Hg rp' Hin. destruct (KQ pn) as [[Hy (p' & Hg' & _)]|[Hn Hg']]; [congruence|].
    apply in_app_or in Hin as [Hin|[<-|[]]]; auto.
    eapply I6; eauto. congruence.
  - intros pn p role cn Hg Hc. destruct (KQ pn) as [[Hy (p' & Hg' & E1 & E2 & E3)]|[Hn Hg']].
    + replace p with p' in * by congruence.
      destruct (E3 role cn Hc) as (dev & ch & Hu & ->). eauto.
    + rewrite Hg' in Hg. destruct (I7 pn p role cn Hg Hc) as [c Hcc]. eauto.
Qed.

Lemma load_inv rf df : load_devicefile rf = Ok df ->
  load_devices (rf_devices rf) = Ok (df_devices df) /\
  pinv rf (rf_pipelines rf) (df_components df, df_pipelines df) /\
  df_drivers df = map (fun d => (d, mkDriver d []))
                    (set_of (map (fun c => c_driver c) (dvals (df_components df)))).
Proof.
  unfold load_devicefile. intros H.
  destruct (load_devices (rf_devices rf)) as [devs|] eqn:Ed; [|discriminate].
  destruct (foldM (add_pipeline devs) ([], []) (rf_pipelines rf)) as [[cs ps]|] eqn:E; [|discriminate].
  injection H as <-. simpl. split; auto. split; auto.
  apply (foldM_prefix _ (pinv rf)) in E; auto.
  - apply pinv_nil.
  - intros l1 a l2 s1 s2 _ Hi Hs. eapply pinv_step; eauto.
Qed.

Lemma dget_map_default (l : list string) (f : string -> driver) k :
  dget (map (fun d => (d, f d)) l) k = if mem k l then Some (f k) else None.
Proof.
  induction l as [|x l IH]; simpl; auto.
  destruct (String.eqb_spec k x); subst; simpl; auto.
Qed.

Lemma drivers_keys (l : list string) : dkeys (map (fun d => (d, mkDriver d [])) l) = l.
Proof. unfold dkeys. rewrite map_map. simpl. apply map_id. Qed.

Lemma load_closed rf df : load_devicefile rf = Ok df -> closed_config df.
Proof.
  intros H. apply load_inv in H as (Hd & [I1 I2 I3 I4 I5 I6 I7] & Hdr). simpl in *.
  apply load_devices_spec in Hd as [Hnd Hds].
  unfold closed_config. split; [exact I7|]. split; [|split; [|auto]].
  - intros cn c H.
    pose proof (I3 _ _ H) as (rp & dev & Hin & (n & comps & rc & _ & _ & _ & (dn & Hdn & Hdi) & _) & Hch & Ec & En).
    split; [rewrite Ec, En; reflexivity|]. split.
    + exists dev. rewrite Ec. simpl.
      assert (Hn : d_name dev = dn) by (eapply dev_in_name; exact Hdi).
      repeat split; auto. rewrite Hn. apply Hds. exact Hdi.
    + exists (mkDriver (c_driver c) []). split; auto. rewrite Hdr, dget_map_default.
      replace (mem (c_driver c) _) with true; auto. symmetry.
      apply mem_In, set_of_In, in_map_iff. exists c. split; auto.
      apply In_dvals; eauto.
  - intros dn Hin. rewrite Hdr, drivers_keys in Hin.
    apply set_of_In, in_map_iff in Hin as (c & <- & Hin).
    apply In_dvals in Hin as [cn Hg]; eauto.
  - rewrite Hdr, drivers_keys. split; auto. split; auto. split; auto. apply set_of_NoDup.
Qed.

Lemma load_pipelines rf df : load_devicefile rf = Ok df ->
  forall pn,
  (dget (df_pipelines df) pn = None <->
     forall rp, In rp (rf_pipelines rf) -> ~ yields rf rp pn) /\
  (forall p, dget (df_pipelines df) pn = Some p ->
     pp_name p = pn /\
     exists rp, last_such (fun rp => yields rf rp pn) (rf_pipelines rf) rp /\
       role_map rf rp pn (pp_components p)).
Proof.
  intros H pn. apply load_inv in H as (Hd & [I1 I2 I3 I4 I5 I6 I7] & Hdr). simpl in *.
  split; [|auto]. split; [auto|].
  intros Hno. destruct (dget (df_pipelines df) pn) as [p|] eqn:E; auto.
  destruct (I5 pn p E) as [_ (rp & Hl & _)]. apply last_such_In in Hl as [Hin Hy].
  exfalso. eapply Hno; eauto.
Qed.

Lemma load_components rf df : load_devicefile rf = Ok df ->
  (forall cn c, dget (df_components df) cn = Some c ->
     exists rp dev, In rp (rf_pipelines rf) /\ makes_use rf rp dev (c_channel c) /\
       c_name c = component_name dev (c_channel c) /\
       c_device c = d_name dev /\ c_driver c = d_driver dev /\ c_address c = d_address dev) /\
  (forall rp dev ch, In rp (rf_pipelines rf) -> makes_use rf rp dev ch ->
     exists c, dget (df_components df) (component_name dev ch) = Some c).
Proof.
  intros H. apply load_inv in H as (Hd & [I1 I2 I3 I4 I5 I6 I7] & Hdr). simpl in *.
  split; [|auto]. intros cn c Hg.
  apply I3 in Hg as (rp & dev & Hin & Hu & _ & Ec & _). exists rp, dev.
  split; auto. split; auto. rewrite Ec. simpl. auto.
Qed.

(** ** component names *)
Lemma app_assoc_s (a b c : string) : (a ++ b) ++ c = a ++ (b ++ c).
Proof. induction a; simpl; congruence. Qed.

(** Splitting at the first occurrence of a character. *)
Lemma split_first (x : ascii) a b a' b' :
  has_char x a = false -> has_char x a' = false ->
  a ++ String x b = a' ++ String x b' -> a = a' /\ b = b'.
Proof.
  revert a'. induction a as [|c a IH]; intros [|c' a'] H H' E; simpl in *.
  - injection E; auto.
  - injection E as -> E. rewrite Ascii.eqb_refl in H'. discriminate.
  - injection E as -> E. rewrite Ascii.eqb_refl in H. discriminate.
  - injection E as -> E. apply orb_false_iff in H as [_ H]. apply orb_false_iff in H' as [_ H'].
    destruct (IH a' H H' E) as [-> ->]. auto.
Qed.

Fixpoint rev_s (s acc : string) : string :=
  match s with EmptyString => acc | String c r => rev_s r (String c acc) end.

Lemma rev_s_app s t acc : rev_s (s ++ t) acc = rev_s t (rev_s s acc).
Proof. revert acc; induction s; simpl; auto. Qed.

Lemma rev_s_acc s acc : rev_s s acc = rev_s s "" ++ acc.
Proof.
  revert acc. induction s as [|c s IH]; simpl; intros acc; auto.
  rewrite IH, (IH (String c "")), app_assoc_s. reflexivity.
Qed.

Lemma rev_s_invol s : rev_s (rev_s s "") "" = s.
Proof.
  induction s as [|c s IH]; simpl; auto.
  rewrite (rev_s_acc s (String c "")), rev_s_app. simpl. now rewrite IH.
Qed.

Lemma rev_s_inj s t : rev_s s "" = rev_s t "" -> s = t.
Proof. intros H. rewrite <- (rev_s_invol s), <- (rev_s_invol t). now rewrite H. Qed.

Lemma has_char_app x s t : has_char x (s ++ t) = has_char x s || has_char x t.
Proof. induction s; simpl; auto. rewrite IHs. now rewrite orb_assoc. Qed.

Lemma has_char_rev x s : has_char x (rev_s s "") = has_char x s.
Proof.
  induction s as [|c s IH]; simpl; auto.
  rewrite rev_s_acc, has_char_app, IH. simpl. rewrite orb_false_r. apply orb_comm.
Qed.

Lemma split_last (x : ascii) a b a' b' :
  has_char x b = false -> has_char x b' = false ->
  a ++ String x b = a' ++ String x b' -> a = a' /\ b = b'.
Proof.
  intros H H' E.
  assert (E2 : rev_s (a ++ String x b) "" = rev_s (a' ++ String x b') "") by now rewrite E.
  rewrite !rev_s_app in E2. simpl in E2.
  rewrite (rev_s_acc b), (rev_s_acc b') in E2.
  apply split_first in E2 as [E1 E2].
  - apply rev_s_inj in E1, E2. auto.
  - now rewrite has_char_rev.
  - now rewrite has_char_rev.
Qed.

Lemma component_name_inj dev dev' ch ch' :
  has_char "(" (d_driver dev) = false -> has_char "(" (d_driver dev') = false ->
  has_char "," ch = false -> has_char "," ch' = false ->
  component_name dev ch = component_name dev' ch' ->
  d_driver dev = d_driver dev' /\ d_address dev = d_address dev' /\ ch = ch'.
Proof.
  intros D D' C C' E. unfold component_name in E.
  change (":(" ++ d_address dev ++ "," ++ ch ++ ")")
    with (":" ++ String "(" (d_address dev ++ "," ++ ch ++ ")")) in E.
  change (":(" ++ d_address dev' ++ "," ++ ch' ++ ")")
    with (":" ++ String "(" (d_address dev' ++ "," ++ ch' ++ ")")) in E.
  rewrite <- !app_assoc_s in E. apply split_first in E as [E1 E2].
  2:{ rewrite has_char_app, D. reflexivity. }
  2:{ rewrite has_char_app, D'. reflexivity. }
  assert (Ed : d_driver dev = d_driver dev').
  { apply (split_last ":" _ "" _ "") in E1; tauto. }
  split; auto.
  rewrite !app_assoc_s in E2. simpl in E2.
  assert (Hc : forall c, has_char "," c = false -> has_char "," (c ++ ")") = false).
  { intros c Hc. rewrite has_char_app, Hc. reflexivity. }
  apply split_last in E2 as [Ea Ec]; auto.
  split; auto.
  apply (split_last ")" _ "" _ "") in Ec; tauto.
Qed.

(** Every used hardware channel is in the configuration, under its own data. *)
Lemma used_channel_present rf df : load_devicefile rf = Ok df ->
  (forall n dev, device_is rf n dev ->
     has_char "(" (d_driver dev) = false /\
     forall ch, In ch (d_channels dev) -> has_char "," ch = false) ->
  forall rp dev ch, In rp (rf_pipelines rf) -> makes_use rf rp dev ch ->
  exists c, dget (df_components df) (component_name dev ch) = Some c /\
    c_driver c = d_driver dev /\ c_address c = d_address dev /\ c_channel c = ch.
Proof.
  intros H Hclean rp dev ch Hin Hu.
  assert (Hchan : forall rp dev ch, In rp (rf_pipelines rf) -> makes_use rf rp dev ch ->
            (exists n, device_is rf n dev) /\ In ch (d_channels dev)).
  { clear rp dev ch Hin Hu. intros rp dev ch Hin Hu.
    assert (W : well_formed rf) by (apply accepted_iff; eauto).
    destruct W as [_ W]. rewrite Forall_forall in W. specialize (W rp Hin).
    destruct Hu as (n & comps & rc & E1 & E2 & Hi & (dn & Edn & Hdi) & Hc).
    split; [eauto|]. destruct Hc as [[Hw Hc]|[_ Hc]]; auto.
    destruct W as (n' & comps' & E1' & E2' & [[_ F]|[Hw' _]]).
    - replace comps' with comps in * by congruence. rewrite Forall_forall in F.
      destruct (F rc Hi) as (dev' & ch' & r & (dn' & Edn' & Hdi') & Hc' & Hi' & _).
      pose proof (load_inv rf df H) as (Hd & _). apply load_devices_spec in Hd as [_ Hd].
      replace dn' with dn in * by congruence. apply Hd in Hdi, Hdi'.
      congruence.
    - replace n' with n in * by congruence. contradiction. }
  destruct (Hchan rp dev ch Hin Hu) as [[n Hdi] Hci].
  destruct (Hclean n dev Hdi) as [Cd Cc]. specialize (Cc ch Hci).
  destruct (load_components rf df H) as [K1 K2].
  destruct (K2 rp dev ch Hin Hu) as [c Hc]. exists c. split; auto.
  destruct (load_closed rf df H) as (_ & K3 & _).
  destruct (K3 _ _ Hc) as [Enm _].
  destruct (K1 _ _ Hc) as (rp' & dev' & Hin' & Hu' & E1 & E2 & E3 & E4).
  destruct (Hchan rp' dev' _ Hin' Hu') as [[n' Hdi'] Hci'].
  destruct (Hclean n' dev' Hdi') as [Cd' Cc']. specialize (Cc' _ Hci').
  rewrite Enm in E1.
  apply component_name_inj in E1 as (F1 & F2 & F3); auto.
  repeat split; congruence.
Qed.

(** ** driver settings *)
Lemma merge_fold_keys tbl : forall drvs, dkeys (fold_left merge_driver tbl drvs) = dkeys drvs.
Proof.
  induction tbl as [|[k s] tbl IH]; intros drvs; simpl; auto.
  rewrite IH. unfold merge_driver. simpl. destruct (dget drvs k) as [d|] eqn:E; auto.
  clear IH. induction drvs as [|[k1 v1] drvs IH]; simpl in *; [discriminate|].
  destruct (String.eqb_spec k k1); subst; simpl; auto. f_equal. auto.
Qed.

Lemma merge_fold_get tbl : forall drvs dn, NoDup (dkeys tbl) ->
  dget (fold_left merge_driver tbl drvs) dn =
  match dget drvs dn with
  | None => None
  | Some d => Some (match dget tbl dn with
                    | Some s => mkDriver (dr_name d) (dupdate (dr_settings d) s)
                    | None => d
                    end)
  end.
Proof.
  induction tbl as [|[k s] tbl IH]; intros drvs dn Hn; simpl.
  - now destruct (dget drvs dn).
  - inversion Hn as [|? ? Hni Hnd]; subst. rewrite IH by auto.
    unfold merge_driver. simpl. destruct (String.eqb_spec dn k) as [->|Hne].
    + apply dget_None in Hni. rewrite Hni. destruct (dget drvs k) as [d|] eqn:E.
      * rewrite dget_dset_same. reflexivity.
      * now rewrite E.
    + destruct (dget drvs k) as [d|] eqn:E; auto. rewrite dget_dset_other by auto. auto.
Qed.

Lemma load_daemon_inv cf s port dm : load_daemon cf s port = Ok dm ->
  exists st rf df tbl, cf_settings cf = Some st /\ cf_devices cf (st_devcfg st) = Some rf /\
    load_devicefile rf = Ok df /\ st_drivers st = Some tbl /\
    dm = mkDaemon s port st (with_drivers df (fold_left merge_driver tbl (df_drivers df))).
Proof.
  unfold load_daemon, device_settings. intros H.
  destruct (cf_settings cf) as [st|] eqn:E1; [|discriminate].
  destruct (cf_devices cf (st_devcfg st)) as [rf|] eqn:E2; [|discriminate].
  destruct (load_devicefile rf) as [df|] eqn:E3; [|discriminate].
  destruct (st_drivers st) as [tbl|] eqn:E4; [|discriminate].
  injection H as <-. exists st, rf, df, tbl. auto 6.
Qed.

Lemma loaded_drivers rf df dn : load_devicefile rf = Ok df ->
  forall d, dget (df_drivers df) dn = Some d -> d = mkDriver dn [].
Proof.
  intros H d. apply load_inv in H as (_ & _ & ->). rewrite dget_map_default.
  destruct (mem dn _); congruence.
Qed.

Lemma loaded_settings cf s port dm : load_daemon cf s port = Ok dm ->
  exists st rf df tbl,
    cf_settings cf = Some st /\ cf_devices cf (st_devcfg st) = Some rf /\
    load_devicefile rf = Ok df /\ st_drivers st = Some tbl /\
    dm_settings dm = st /\ dm_status dm = s /\ dm_port dm = port /\
    df_components (dm_df dm) = df_components df /\
    df_devices (dm_df dm) = df_devices df /\
    df_pipelines (dm_df dm) = df_pipelines df /\
    dkeys (df_drivers (dm_df dm)) = dkeys (df_drivers df) /\
    (NoDup (dkeys tbl) -> (forall n t, dget tbl n = Some t -> NoDup (dkeys t)) ->
     forall dn d, dget (df_drivers (dm_df dm)) dn = Some d ->
       dr_name d = dn /\
       forall k, dget (dr_settings d) k =
         match dget tbl dn with Some t => dget t k | None => None end).
Proof.
  intros H. apply load_daemon_inv in H as (st & rf & df & tbl & E1 & E2 & E3 & E4 & ->).
  exists st, rf, df, tbl. simpl. repeat split; auto.
  - apply merge_fold_keys.
  - rewrite merge_fold_get in H1 by auto.
    destruct (dget (df_drivers df) dn) as [d0|] eqn:Ed; [|discriminate].
    apply (loaded_drivers rf df dn E3) in Ed as ->. injection H1 as <-.
    destruct (dget tbl dn); reflexivity.
  - intros k. rewrite merge_fold_get in H1 by auto.
    destruct (dget (df_drivers df) dn) as [d0|] eqn:Ed; [|discriminate].
    apply (loaded_drivers rf df dn E3) in Ed as ->. injection H1 as <-.
    destruct (dget tbl dn) as [t|] eqn:Et; simpl; auto.
    rewrite dget_dupdate by eauto. now destruct (dget t k).
Qed.

(** ** a file in which one channel hides another *)
Definition ex_clash : rawfile := mkRawFile
  [ mkRawDev (Some "d1") (Some "drv") (Some "a,b") (Some ["c"]) None;
    mkRawDev (Some "d2") (Some "drv") (Some "a") (Some ["b,c"]) None ]
  [ mkRawPip (Some "p")
      (Some [ mkRawComp (Some "r1") (Some "d1") (Some "c");
              mkRawComp (Some "r2") (Some "d2") (Some "b,c") ]) ].

Lemma channel_dropped :
  exists rf df rp dev ch,
    load_devicefile rf = Ok df /\ In rp (rf_pipelines rf) /\ makes_use rf rp dev ch /\
    ~ exists cn c, dget (df_components df) cn = Some c /\
        c_driver c = d_driver dev /\ c_address c = d_address dev /\ c_channel c = ch.
Proof.
  pose (df := match load_devicefile ex_clash with Ok df => df | Err _ => mkDF [] [] [] [] end).
  exists ex_clash, df,
    (mkRawPip (Some "p")
      (Some [ mkRawComp (Some "r1") (Some "d1") (Some "c");
              mkRawComp (Some "r2") (Some "d2") (Some "b,c") ])),
    (mkDevice "d1" "drv" "a,b" ["c"] 1%Z), "c".
  split; [vm_compute; reflexivity|]. split; [left; reflexivity|]. split.
  - eexists _, _, _. split; [reflexivity|]. split; [reflexivity|].
    split; [left; reflexivity|]. split.
    + exists "d1". split; [reflexivity|].
      exists (mkRawDev (Some "d1") (Some "drv") (Some "a,b") (Some ["c"]) None).
      split; [|repeat split].
      exists [], [mkRawDev (Some "d2") (Some "drv") (Some "a") (Some ["b,c"]) None].
      split; [reflexivity|]. split; [reflexivity|].
      constructor; [discriminate|constructor].
    + left. split; [|reflexivity]. rewrite <- ends_with_star_spec. discriminate.
  - intros (cn & c & Hg & H1 & H2 & H3).
    unfold df in Hg. vm_compute in Hg.
    destruct (String.eqb cn "drv:(a,b,c)") eqn:E; vm_compute in E, Hg.
    + repeat match type of Hg with
             | context [if ?x then _ else _] => destruct x
             | context [match ?x with _ => _ end] => destruct x
             end; try discriminate; injection Hg as <-; discriminate.
    + repeat match type of Hg with
             | context [if ?x then _ else _] => destruct x
             | context [match ?x with _ => _ end] => destruct x
             end; try discriminate; injection Hg as <-; discriminate.
Qed.
