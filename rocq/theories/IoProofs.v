(** * IoProofs: facts about the data files of a job *)
From Coq Require Import List String Ascii ZArith Bool Lia.
From Verif Require Import Base BaseFacts PyStr Prog ProgFacts Types IoModel SpecIo.
Import ListNotations.
Open Scope prog_scope.
Open Scope string_scope.

Lemma has_char_app c a b : has_char c (a ++ b) = has_char c a || has_char c b.
Proof. induction a as [|d a IH]; [reflexivity|]. cbn. rewrite IH. apply orb_assoc. Qed.
Lemma app_inj_r (b x y : string) : x ++ b = y ++ b -> x = y.
Proof.
  revert y. induction x as [|c x IH]; intros [|d y] H; cbn in H.
  - reflexivity.
  - exfalso. apply (f_equal String.length) in H. cbn in H.
    assert (L : forall u v, String.length (u ++ v) = (String.length u + String.length v)%nat).
    { induction u; cbn; intros; [reflexivity | rewrite IHu; reflexivity]. }
    rewrite L in H. lia.
  - exfalso. apply (f_equal String.length) in H. cbn in H.
    assert (L : forall u v, String.length (u ++ v) = (String.length u + String.length v)%nat).
    { induction u; cbn; intros; [reflexivity | rewrite IHu; reflexivity]. }
    rewrite L in H. lia.
  - injection H as -> H. f_equal. apply IH. exact H.
Qed.
Lemma role_file_inj r1 r2 : role_file r1 = role_file r2 -> r1 = r2.
Proof. apply app_inj_r. Qed.
Lemma role_file_slash r : has_char "/" (role_file r) = has_char "/" r.
Proof. unfold role_file. rewrite has_char_app. apply orb_false_r. Qed.
Lemma is_pkl_spec n : is_pkl n = true <-> exists r, n = role_file r.
Proof.
  induction n as [|c n IH].
  - cbn. split; [discriminate | intros (r & E); destruct r; discriminate E].
  - change (is_pkl (String c n)) with (String.eqb (String c n) ".pkl" || is_pkl n).
    rewrite orb_true_iff, String.eqb_eq. split.
    + intros [E|E]; [exists ""; exact E|]. apply IH in E as (r & ->). exists (String c r). reflexivity.
    + intros ([|d r] & E).
      * left. exact E.
      * right. unfold role_file in E. cbn in E. injection E as -> ->. apply IH. exists r. reflexivity.
Qed.

(** Every .pkl file of the folder can be read and holds the data [held] of its role. *)
Record folder_ok (held : string -> option (list nat)) (s : fsys) : Prop := {
  fo_files : forall r, dget (f_folder s) (role_file r)
             = option_map (fun p => PValue (Some (mkDs (Some r) p))) (held r);
  fo_nodup : NoDup (dkeys (f_folder s))
}.

Definition more (role : string) (d : list nat) (held : string -> option (list nat)) (r : string) : option (list nat) :=
  if String.eqb r role then Some (match held role with Some p => p ++ d | None => d end)%list else held r.

Lemma store_ok held s role d : folder_ok held s -> has_char "/" role = false ->
  exists s', runf (store_role role d) s = (Ok tt, s') /\ folder_ok (more role d held) s' /\ f_out s' = f_out s
    /\ (forall n, (forall r, n <> role_file r) -> dget (f_folder s') n = dget (f_folder s) n).
Proof.
  intros [F N] NS. unfold runf, store_role, data_to_pickle. cbn [run fact do bind fexec].
  pose proof (F role) as Fr. unfold dhas. rewrite <- role_file_slash in NS.
  assert (G : forall p s1 f1, s1 = mkFs (dset (dset f1 (role_file role) PBroken) (role_file role)
                                (PValue (Some (mkDs (Some role) p)))) (f_out s) -> f1 = f_folder s ->
     p = match held role with Some q => (q ++ d)%list | None => d end ->
     folder_ok (more role d held) s1 /\ f_out s1 = f_out s
     /\ (forall n, (forall r, n <> role_file r) -> dget (f_folder s1) n = dget (f_folder s) n)).
  { intros p s1 f1 -> -> ->. split; [split|split; [reflexivity|]]; cbn [f_folder].
    - intros r. unfold more. destruct (String.eqb_spec r role) as [->|NE].
      + rewrite dget_dset_same. reflexivity.
      + rewrite !dget_dset_other by (intros E; apply NE, role_file_inj, E). apply F.
    - apply NoDup_dset, NoDup_dset. exact N.
    - intros n Hn. rewrite !dget_dset_other by apply Hn. reflexivity. }
  destruct (held role) as [p|] eqn:H.
  - cbn [option_map] in Fr. rewrite Fr. cbn [is_some bind run fexec]. rewrite Fr. cbn [bind run fexec ds_role ds_points].
    rewrite NS. cbn [bind run fexec f_folder f_out]. eexists. split; [reflexivity|].
    eapply G; [reflexivity | reflexivity | reflexivity].
  - cbn [option_map] in Fr. rewrite Fr. cbn [is_some bind run fexec]. rewrite NS.
    cbn [bind run fexec f_folder f_out]. eexists. split; [reflexivity|].
    eapply G; [reflexivity | reflexivity | reflexivity].
Qed.

Lemma store_all_ok : forall l held s, folder_ok held s -> Forall (fun rd => has_char "/" (fst rd) = false) l ->
  exists s', runf (store_all l) s = (Ok tt, s')
    /\ folder_ok (fold_left (fun h rd => more (fst rd) (snd rd) h) l held) s' /\ f_out s' = f_out s
    /\ (forall n, (forall r, n <> role_file r) -> dget (f_folder s') n = dget (f_folder s) n).
Proof.
  induction l as [|[role d] l IH]; intros held s F NS; cbn [fold_left fst snd].
  - exists s. auto.
  - inversion NS as [|? ? N1 N2]; subst. cbn [fst] in N1.
    destruct (store_ok held s role d F N1) as (s1 & R1 & F1 & O1 & X1).
    destruct (IH _ _ F1 N2) as (s2 & R2 & F2 & O2 & X2).
    exists s2. split; [|split; [exact F2|split; [congruence|]]].
    + unfold runf, store_all in *. cbn [forP fst snd]. rewrite run_bind, R1. exact R2.
    + intros n Hn. rewrite X2 by exact Hn. apply X1, Hn.
Qed.
Lemma fold_more : forall l held r,
  fold_left (fun h rd => more (fst rd) (snd rd) h) l held r
  = match kept r l with
    | None => held r
    | Some p => Some (match held r with Some q => q ++ p | None => p end)%list
    end.
Proof.
  unfold kept. induction l as [|[role d] l IH]; intros held r; cbn [fold_left filter fst snd]; [reflexivity|].
  rewrite IH. unfold more.
  destruct (String.eqb_spec role r) as [->|NE].
  - rewrite String.eqb_refl. cbn [flat_map snd].
    destruct (filter (fun rd => String.eqb (fst rd) r) l) as [|x f].
    + rewrite app_nil_r. reflexivity.
    + destruct (held r); cbn [flat_map]; rewrite ?app_assoc; reflexivity.
  - destruct (String.eqb_spec r role) as [E|_]; [congruence|]. reflexivity.
Qed.

(** ** merge_netcdfs *)
Definition ds_at (s : fsys) (n : string) : dataset :=
  match dget (f_folder s) n with Some (PValue (Some ds)) => ds | _ => mkDs None [] end.
Lemma load_all s : forall names acc,
  (forall n, In n names -> exists ds, dget (f_folder s) n = Some (PValue (Some ds))) ->
  runf (forP (fun acc n => v <- fact (FLoad n);;
                          Ret (match (v : option dataset) with Some ds => (acc ++ [ds])%list | None => acc end))
            acc names) s = (Ok (acc ++ map (ds_at s) names)%list, s).
Proof.
  induction names as [|n names IH]; intros acc H; cbn [forP map].
  - rewrite app_nil_r. reflexivity.
  - destruct (H n (or_introl eq_refl)) as (ds & E).
    unfold runf. rewrite !run_bind. cbn [run fact do bind fexec]. rewrite E. cbn [run bind].
    change (run fexec ?p s) with (runf p s). rewrite IH by (intros m I1; apply H; right; exact I1).
    unfold ds_at at 2. rewrite E, <- app_assoc. reflexivity.
Qed.
Lemma groups_spec : forall l acc,
  Forall (fun ds => ds_role ds <> None) l -> NoDup (map ds_role l) ->
  exists g, groups acc l = Ok g /\ forall r,
    dget g r = match find (fun ds => match ds_role ds with Some x => String.eqb x r | None => false end) l with
               | Some ds => Some (ds_points ds) | None => dget acc r end.
Proof.
  induction l as [|ds l IH]; intros acc F N; cbn [groups find].
  - exists acc. auto.
  - inversion F as [|? ? F1 F2]; subst. cbn [map] in N. inversion N as [|? ? N1 N2]; subst.
    destruct (ds_role ds) as [role|] eqn:E; [|congruence].
    destruct (IH (dset acc role (ds_points ds)) F2 N2) as (g & G & D). exists g. split; [exact G|].
    intros r. rewrite D. destruct (String.eqb_spec role r) as [->|NE].
    + destruct (find _ l) as [ds2|] eqn:Fd; [|apply dget_dset_same].
      exfalso. apply find_some in Fd as [I1 I2]. destruct (ds_role ds2) as [x|] eqn:E2; [|discriminate I2].
      apply String.eqb_eq in I2. subst x. apply N1. rewrite <- E2. apply in_map. exact I1.
    + rewrite dget_dset_other by congruence. reflexivity.
Qed.

Lemma merge_ok held s out : folder_ok held s ->
  exists g, runf (merge out) s = (Ok tt, mkFs (f_folder s) (dset (f_out s) out g))
    /\ forall r, dget g r = held r.
Proof.
  intros [F N]. unfold merge.
  set (names := filter is_pkl (dkeys (f_folder s))).
  assert (H : forall n, In n names -> exists r p, n = role_file r /\ held r = Some p
            /\ dget (f_folder s) n = Some (PValue (Some (mkDs (Some r) p)))).
  { intros n I1. apply filter_In in I1 as [I1 I2]. apply is_pkl_spec in I2 as (r & ->).
    apply dget_Some_key in I1 as (v & E). pose proof (F r) as Fr. rewrite E in Fr.
    destruct (held r) as [p|] eqn:Hr; [|discriminate Fr]. cbn in Fr. injection Fr as ->. exists r, p. auto. }
  assert (NN : NoDup names) by (apply NoDup_filter; exact N).
  assert (R : map ds_role (map (ds_at s) names) = map (fun n => ds_role (ds_at s n)) names) by apply map_map.
  destruct (groups_spec (map (ds_at s) names) []) as (g & G & D).
  { apply Forall_forall. intros ds I1. apply in_map_iff in I1 as (n & <- & I1).
    destruct (H n I1) as (r & p & _ & _ & E). unfold ds_at. rewrite E. discriminate. }
  { rewrite R. clear R. revert NN H. generalize names. induction names0 as [|n l IH]; intros NN H; [constructor|].
    cbn [map]. inversion NN as [|? ? N1 N2]; subst. constructor; [|apply IH; [exact N2 | intros m I1; apply H; right; exact I1]].
    intros I1. apply in_map_iff in I1 as (m & E & I1).
    destruct (H n (or_introl eq_refl)) as (r & p & -> & _ & E1).
    destruct (H m (or_intror I1)) as (r2 & p2 & -> & _ & E2).
    unfold ds_at in E. rewrite E1, E2 in E. cbn in E. injection E as ->. contradiction. }
  exists g. split.
  - unfold runf. rewrite run_bind. cbn [run fact do fexec]. fold names. rewrite run_bind.
    change (run fexec ?p s) with (runf p s) at 1.
    rewrite load_all by (intros n I1; destruct (H n I1) as (r & p & _ & _ & E); eauto).
    cbn [app]. rewrite run_bind. rewrite G. cbn [lift run fact do fexec]. reflexivity.
  - intros r. rewrite D. cbn [dget].
    destruct (find _ _) as [ds|] eqn:Fd.
    + apply find_some in Fd as [I1 I2]. apply in_map_iff in I1 as (n & <- & I1).
      destruct (H n I1) as (r2 & p & -> & Hr & E). unfold ds_at in *. rewrite E in *. cbn in *.
      apply String.eqb_eq in I2. subst r2. auto.
    + destruct (held r) as [p|] eqn:Hr; [|reflexivity]. exfalso.
      pose proof (F r) as Fr. rewrite Hr in Fr. cbn in Fr.
      assert (I1 : In (role_file r) names).
      { apply filter_In. split; [apply dget_Some_key; eauto | apply is_pkl_spec; eauto]. }
      pose proof (find_none _ _ Fd (ds_at s (role_file r)) (in_map _ _ _ I1)) as X.
      unfold ds_at in X. rewrite Fr in X. cbn in X. rewrite String.eqb_refl in X. discriminate X.
Qed.

(** A file that cannot be read: nothing is merged. *)
Lemma merge_broken s out n : In n (dkeys (f_folder s)) -> is_pkl n = true ->
  dget (f_folder s) n = Some PBroken -> 
  (forall m, In m (dkeys (f_folder s)) -> is_pkl m = true ->
     dget (f_folder s) m = Some PBroken \/ exists v, dget (f_folder s) m = Some (PValue v)) ->
  runf (merge out) s = (Err EOFError, s).
Proof.
  intros I1 I2 B H. unfold merge, runf. rewrite run_bind. cbn [run fact do fexec].
  set (names := filter is_pkl (dkeys (f_folder s))). rewrite run_bind.
  assert (In n names) as In1 by (apply filter_In; auto).
  assert (H2 : forall m, In m names -> dget (f_folder s) m = Some PBroken \/ exists v, dget (f_folder s) m = Some (PValue v)).
  { intros m Im. apply filter_In in Im as [A1 A2]. auto. }
  assert (L : forall names acc, In n names ->
    (forall m, In m names -> dget (f_folder s) m = Some PBroken \/ exists v, dget (f_folder s) m = Some (PValue v)) ->
    run fexec (forP (fun acc n => v <- fact (FLoad n);;
                          Ret (match (v : option dataset) with Some ds => (acc ++ [ds])%list | None => acc end))
            acc names) s = (Err EOFError, s)).
  { clear -B. induction names as [|m l IH]; intros acc I1 H; [contradiction|]. cbn [forP].
    rewrite !run_bind. cbn [run fact do bind fexec].
    destruct (H m (or_introl eq_refl)) as [E|(v & E)]; rewrite E; cbn [run bind].
    - reflexivity.
    - apply IH; [|intros x Ix; apply H; right; exact Ix].
      destruct I1 as [->|I1]; [congruence | exact I1]. }
  rewrite L by assumption. reflexivity.
Qed.
Lemma store_broken s role d : dget (f_folder s) (role_file role) = Some PBroken ->
  runf (store_role role d) s = (Err EOFError, s).
Proof.
  intros B. unfold runf, store_role, data_to_pickle. cbn [run fact do bind fexec]. unfold dhas.
  rewrite B. cbn [is_some bind run fexec]. rewrite B. reflexivity.
Qed.

(** ** Crashes *)
Lemma store_crash_end s f v n p' s' : after n (fact (FTrunc f);;; fact (FDump f v)) s = (p', s') ->
  f_out s' = f_out s
  /\ (forall m, m <> f -> dget (f_folder s') m = dget (f_folder s) m)
  /\ (dget (f_folder s') f = dget (f_folder s) f
      \/ (dget (f_folder s') f = Some PBroken /\ exists v k, p' = Op (FDump f v) k)
      \/ (p' = Ret tt /\ run fexec (fact (FTrunc f);;; fact (FDump f v)) s = (Ok tt, s')
          /\ dget (f_folder s') f = Some (PValue (Some v)))).
Proof.
  intros H. destruct n as [|n].
  { cbn in H. injection H as <- <-. auto. }
  cbn [after fact do bind fexec] in H. cbn [run fact do bind fexec].
  destruct (has_char "/" f).
  { destruct n; cbn in H; injection H as <- <-; auto. }
  cbn [bind] in H. destruct n as [|n].
  { cbn in H. injection H as <- <-. split; [reflexivity|]. split.
    - intros m Hm. cbn [f_folder]. apply dget_dset_other. exact Hm.
    - right. left. cbn [f_folder]. split; [apply dget_dset_same | eexists; eexists; reflexivity]. }
  cbn [after fexec] in H. cbn [run bind fexec f_folder f_out] in *.
  destruct n; cbn in H; injection H as <- <-; (split; [reflexivity|]; split;
    [intros m Hm; cbn [f_folder]; rewrite !dget_dset_other by exact Hm; reflexivity|]);
    right; right; (split; [reflexivity|]); (split; [reflexivity|]); cbn [f_folder]; apply dget_dset_same.
Qed.
Lemma store_crash s role d n p' s' : after n (store_role role d) s = (p', s') ->
  f_out s' = f_out s
  /\ (forall m, m <> role_file role -> dget (f_folder s') m = dget (f_folder s) m)
  /\ (dget (f_folder s') (role_file role) = dget (f_folder s) (role_file role)
      \/ (dget (f_folder s') (role_file role) = Some PBroken /\ exists v k, p' = Op (FDump (role_file role) v) k)
      \/ (p' = Ret tt /\ runf (store_role role d) s = (Ok tt, s')
          /\ exists v, dget (f_folder s') (role_file role) = Some (PValue (Some v)))).
Proof.
  intros H. unfold store_role, data_to_pickle in *.
  destruct n as [|n].
  { cbn in H. injection H as <- <-. auto. }
  cbn [after fact do bind fexec] in H. unfold runf. cbn [run fact do bind fexec].
  unfold dhas in *. destruct (dget (f_folder s) (role_file role)) as [[|v]|] eqn:E; cbn [is_some bind] in *.
  - destruct n as [|n]; cbn [after] in H; [injection H as <- <-; auto|].
    cbn [fexec] in H. rewrite E in H. destruct n; cbn in H; injection H as <- <-; auto.
  - destruct n as [|n]; cbn [after] in H; [injection H as <- <-; auto|].
    cbn [fexec] in H. rewrite E in H. cbn [run fexec]. rewrite E. cbn [bind] in *.
    destruct v as [o|]; cbn [bind] in *;
      destruct (store_crash_end _ _ _ _ _ _ H) as (A & B & [C|[C|(C1 & C2 & C3)]]); rewrite ?E in *;
      (split; [exact A|]); (split; [exact B|]); first [left; exact C | right; left; exact C | right; right; eauto].
  - destruct (store_crash_end _ _ _ _ _ _ H) as (A & B & [C|[C|(C1 & C2 & C3)]]); rewrite ?E in *;
      (split; [exact A|]); (split; [exact B|]); first [left; exact C | right; left; exact C | right; right; eauto].
Qed.
