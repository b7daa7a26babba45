(** * WireProofs: the managers of the daemon and the processes of the drivers, joined (C120, C121) *)
From Coq Require Import List String ZArith Bool Lia.
From Verif Require Import Base BaseFacts Types World AttrModel SpecAttr AttrProofs SpecJob IfaceModel SpecIface IfaceProofs WireModel SpecWire P_Attr P_Iface3.
Import ListNotations.
Open Scope string_scope.
Open Scope Z_scope.

Definition at_ (a c : string) : key := (Some a, Some c).

Definition soft (v : version) : option World.dreply :=
  match v with V21 => Some (mkDReply false DdNone) | V20 => None end.

(** The answer to the question for the techniques. *)
Lemma reply_caps i x a c :
  reply_of i x (CCapabilities a c) =
  match kget (i_devmap (pr_iface x)) (at_ a c) with
  | Some _ =>
      match h_caps (pr_hw x) (i_calls (pr_iface x)) (at_ a c) with
      | Ok l => Some (mkDReply true (DdCaps l))
      | Err ValueError | Err AttributeError => soft (i_ver (pr_iface x))
      | Err _ => None
      end
  | None => soft (i_ver (pr_iface x))
  end.
Proof.
  destruct x as [h dn [v dm rt im ci ca lg]]. unfold at_. cbn [pr_hw pr_name pr_iface i_devmap i_ver i_calls].
  unfold reply_of.
  assert (H : handle h dn i (message (CCapabilities a c)) (mkIface v dm rt im ci ca lg) =
    match cmp_capabilities h (about a c) (mkIface v dm rt im ci ca lg) with
    | (s', Err ValueError) | (s', Err AttributeError) => (s', Ok (mkReply false RNone))
    | other => other
    end) by (destruct v; reflexivity).
  cbn [pr_hw pr_name pr_iface]. rewrite H. clear H.
  unfold cmp_capabilities, log_errors, in_devmap. cbn [rp_key about rp_address rp_channel i_devmap i_ver].
  destruct (kget dm (Some a, Some c)) as [d|] eqn:K.
  - unfold mbind, device_at. cbn [i_devmap]. rewrite K. unfold call. cbn [i_calls].
    destruct (h_caps h ca (Some a, Some c)) as [l|e]; [reflexivity|]. destruct e, v; reflexivity.
  - destruct v; reflexivity.
Qed.

Definition verdict (v : version) (p : parser) (caps : list string) (attrs : dict attr) (t : task) : res bool :=
  match v with V21 => task_validate p caps attrs t | V20 => task_validate20 p caps attrs t end.

(** The answer to the question whether a task is accepted. *)
Lemma reply_validate i x t a c :
  reply_of i x (CValidate t a c) =
  match kget (i_devmap (pr_iface x)) (at_ a c) with
  | Some _ =>
      match h_caps (pr_hw x) (i_calls (pr_iface x)) (at_ a c) with
      | Ok l => match verdict (i_ver (pr_iface x)) (h_parser (pr_hw x)) l (h_attrs (pr_hw x) (at_ a c)) t with
                | Ok b => Some (mkDReply b DdNone)
                | Err ValueError | Err AttributeError => soft (i_ver (pr_iface x))
                | Err _ => None
                end
      | Err ValueError | Err AttributeError => soft (i_ver (pr_iface x))
      | Err _ => None
      end
  | None => soft (i_ver (pr_iface x))
  end.
Proof.
  destruct x as [h dn [v dm rt im ci ca lg]]. unfold at_. cbn [pr_hw pr_name pr_iface i_devmap i_ver i_calls].
  unfold reply_of.
  assert (H : handle h dn i (message (CValidate t a c)) (mkIface v dm rt im ci ca lg) =
    match match v with V21 => iface_validate h | V20 => iface_validate20 h end (about_task t a c) (mkIface v dm rt im ci ca lg) with
    | (s', Err ValueError) | (s', Err AttributeError) => (s', Ok (mkReply false RNone))
    | other => other
    end) by (destruct v; reflexivity).
  cbn [pr_hw pr_name pr_iface]. rewrite H. clear H.
  destruct v; unfold iface_validate, iface_validate20, log_errors, in_devmap, verdict;
    cbn [rp_key about_task rp_address rp_channel rp_task i_devmap i_ver];
    (destruct (kget dm (Some a, Some c)) as [d|] eqn:K; [|reflexivity]);
    unfold mbind, device_at, need_arg, ret; cbn [i_devmap]; rewrite K; unfold call; cbn [i_calls];
    (destruct (h_caps h ca (Some a, Some c)) as [l|e]; [|destruct e; reflexivity]); unfold mres.
  - destruct (task_validate20 (h_parser h) l (h_attrs h (Some a, Some c)) t) as [b|e]; [|destruct e]; reflexivity.
  - destruct (task_validate (h_parser h) l (h_attrs h (Some a, Some c)) t) as [b|e]; [|destruct e]; reflexivity.
Qed.

Lemma suits_verdict v p caps attrs t : suits v p caps attrs t <-> verdict v p caps attrs t = Ok true.
Proof. destruct v; cbn; [reflexivity|symmetry; apply C50_iff]. Qed.

(** The technique of a task that passes is one of the component's. *)
Lemma verdict_tech v p caps attrs t : verdict v p caps attrs t = Ok true -> In (t_technique t) caps.
Proof.
  destruct v; cbn; unfold task_validate, task_validate20; destruct (mem (t_technique t) caps) eqn:M; cbn [negb];
    intros H; try discriminate H; apply mem_In; exact M.
Qed.

Section Network.
  Context (net : network) (w : world) (d : daemon).
  Hypothesis (Ha : answered_by w net) (Hs : steady net).

  Lemma accepts_iff cn t : accepts w d cn t <-> equipped net w d t cn.
  Proof.
    unfold accepts, equipped. split.
    - intros (cmp & port & r & P & R & O). specialize (Ha port (CValidate t (c_address cmp) (c_channel cmp)) I).
      destruct (net port) as [x|] eqn:N; [|congruence]. destruct Ha as [i E]. rewrite E, reply_validate in R.
      destruct (kget (i_devmap (pr_iface x)) (at_ (c_address cmp) (c_channel cmp))) as [v|] eqn:K.
      2:{ destruct (i_ver (pr_iface x)); [discriminate R|]. injection R as <-. discriminate O. }
      rewrite (Hs port x _ 0%nat _ N) in R.
      destruct (h_caps (pr_hw x) 0%nat (at_ (c_address cmp) (c_channel cmp))) as [l|e] eqn:C.
      2:{ destruct e, (i_ver (pr_iface x)); try discriminate R; injection R as <-; discriminate O. }
      exists cmp, port, x, v, l. split; [exact P|]. split; [exact N|]. split; [exact K|]. split; [exact C|].
      apply suits_verdict. destruct (verdict _ _ _ _ _) as [b|e] eqn:V.
      + injection R as <-. cbn in O. subst b. reflexivity.
      + destruct e, (i_ver (pr_iface x)); try discriminate R; injection R as <-; discriminate O.
    - intros (cmp & port & x & v & caps & P & N & K & C & S). apply suits_verdict in S.
      exists cmp, port, (mkDReply true DdNone). split; [exact P|]. split; [|reflexivity].
      specialize (Ha port (CValidate t (c_address cmp) (c_channel cmp)) I). rewrite N in Ha. destruct Ha as [i E].
      rewrite E, reply_validate. unfold at_. rewrite K, (Hs port x _ 0%nat _ N), C, S. reflexivity.
  Qed.

  Lemma equipped_offers cn t : equipped net w d t cn -> offers w d cn (t_technique t).
  Proof.
    intros (cmp & port & x & v & caps & P & N & K & C & S). apply suits_verdict, verdict_tech in S.
    exists cmp, port, (mkDReply true (DdCaps caps)), caps. split; [exact P|].
    specialize (Ha port (CCapabilities (c_address cmp) (c_channel cmp)) I). rewrite N in Ha. destruct Ha as [i E].
    rewrite E, reply_caps. unfold at_. rewrite K, (Hs port x _ 0%nat _ N), C. auto.
  Qed.

  Lemma can_run_iff method p : can_run w d method p <-> fully_equipped net w d method p.
  Proof.
    split.
    - intros H t I. destruct (H t I) as [(cn & A & B) _]. exists cn. split; [exact A|]. apply accepts_iff. exact B.
    - intros H t I. destruct (H t I) as (cn & A & B). split.
      + exists cn. split; [exact A|]. apply accepts_iff. exact B.
      + exists (t_role t, cn). split; [exact A|]. apply equipped_offers. exact B.
  Qed.
End Network.

(** ** Resets *)

(** A reset leaves the component of its message idle and does not touch another; it neither
    registers nor forgets a component. *)
Lemma reset_step h dn i a c s s' r :
  handle h dn i (message (CReset a c)) s = (s', r) ->
  i_ver s' = i_ver s /\ others_same (at_ a c) s s' /\
  (kget (i_devmap s) (at_ a c) = None <-> kget (i_devmap s') (at_ a c) = None) /\
  (forall v, kget (i_devmap s') (at_ a c) = Some v -> idle v).
Proof.
  intros H. pose proof (C96_others h dn i (message (CReset a c)) "cmp_reset" s s' r eq_refl ltac:(cbn; tauto) H) as O.
  change (target (message (CReset a c))) with (at_ a c) in O.
  destruct (kget (i_devmap s) (at_ a c)) as [v|] eqn:K.
  - destruct (C96_answers h dn i (message (CReset a c)) "cmp_reset" s v _ _ eq_refl K eq_refl)
      as (s1 & E & K1 & _ & V & _).
    rewrite H in E. injection E as -> ->. change (target (message (CReset a c))) with (at_ a c) in K1.
    split; [exact V|]. split; [exact O|]. rewrite K1. split; [split; discriminate|].
    intros u U. injection U as <-. split; [|split]; reflexivity.
  - assert (E : s' = s).
    { destruct s as [v dm rt im ci ca lg]. cbn [i_devmap] in K.
      assert (G : handle h dn i (message (CReset a c)) (mkIface v dm rt im ci ca lg) =
        match match v with V21 => cmp_reset | V20 => cmp_reset20 end (about a c) (mkIface v dm rt im ci ca lg) with
        | (s', Err ValueError) | (s', Err AttributeError) => (s', Ok (mkReply false RNone))
        | other => other
        end) by (destruct v; reflexivity).
      rewrite G in H. destruct v; unfold cmp_reset, cmp_reset20, log_errors, in_devmap in H;
        cbn [rp_key about rp_address rp_channel i_devmap i_ver] in H; change (Some a, Some c) with (at_ a c) in H;
        rewrite K in H; injection H as <- _; reflexivity. }
    subst s'. split; [reflexivity|]. split; [exact O|]. split; [split; intros _; [exact K|reflexivity]|].
    intros v E. rewrite K in E. discriminate E.
Qed.

Definition is_reset (c : dcmd) : Prop := exists a ch, c = CReset a ch.

Lemma deal_facts i : forall l n x, (forall c, In c l -> is_reset c) ->
  pr_hw (deal i n x l) = pr_hw x /\ pr_name (deal i n x l) = pr_name x /\
  i_ver (pr_iface (deal i n x l)) = i_ver (pr_iface x) /\
  forall k, 
    (kget (i_devmap (pr_iface x)) k = None <-> kget (i_devmap (pr_iface (deal i n x l))) k = None) /\
    (forall v, kget (i_devmap (pr_iface (deal i n x l))) k = Some v ->
       idle v \/ kget (i_devmap (pr_iface x)) k = Some v) /\
    (forall v a ch, k = at_ a ch -> In (CReset a ch) l ->
       kget (i_devmap (pr_iface (deal i n x l))) k = Some v -> idle v) /\
    ((forall a ch, k = at_ a ch -> ~ In (CReset a ch) l) ->
       kget (i_devmap (pr_iface (deal i n x l))) k = kget (i_devmap (pr_iface x)) k).
Proof.
  induction l as [|c r IH]; intros n x R.
  - cbn. split; [reflexivity|]. split; [reflexivity|]. split; [reflexivity|]. intros k.
    split; [reflexivity|]. split; [auto|]. split; [intros v a ch _ []|reflexivity].
  - destruct (R c (or_introl eq_refl)) as (a0 & c0 & ->). cbn [deal].
    destruct (handle (pr_hw x) (pr_name x) (i n) (message (CReset a0 c0)) (pr_iface x)) as [s' r'] eqn:H. cbn [fst].
    destruct (reset_step _ _ _ _ _ _ _ _ H) as (V & O & B & Z).
    destruct (IH (S n) (mkProcess (pr_hw x) (pr_name x) s') (fun c I => R c (or_intror I))) as (E1 & E2 & E3 & F).
    cbn [pr_hw pr_name pr_iface] in *.
    split; [exact E1|]. split; [exact E2|]. split; [congruence|]. intros k. destruct (F k) as (F1 & F2 & F3 & F4).
    assert (D : {k = at_ a0 c0} + {k <> at_ a0 c0}) by (repeat decide equality).
    destruct D as [->|D].
    + split; [rewrite B; exact F1|]. split.
      * intros v K. destruct (F2 v K) as [X|X]; [left; exact X|left; exact (Z v X)].
      * split.
        -- intros v a ch _ _ K. destruct (F2 v K) as [X|X]; [exact X|exact (Z v X)].
        -- intros N. exfalso. exact (N a0 c0 eq_refl (or_introl eq_refl)).
    + rewrite <- (O k D). split; [exact F1|]. split; [exact F2|]. split.
      * intros v a ch E [X|X] K; [injection X as -> ->; contradiction|exact (F3 v a ch E X K)].
      * intros N. apply F4. intros a ch E I. exact (N a ch E (or_intror I)).
Qed.

Lemma sent_In port es c : In c (sent_to port es) <-> In (EvRequest port c) es.
Proof.
  unfold sent_to. rewrite in_flat_map. split.
  - intros (e & I & J). apply in_rev in I. destruct e; try contradiction J.
    destruct (Z.eqb_spec port0 port) as [->|]; [|contradiction J]. destruct J as [->|[]]. exact I.
  - intros I. exists (EvRequest port c). split; [apply in_rev; rewrite rev_involutive; exact I|].
    rewrite Z.eqb_refl. left. reflexivity.
Qed.

(** ** Tasks of a matched method *)
Lemma start_accepted i h dn s t a c v caps :
  kget (i_devmap s) (at_ a c) = Some v -> (forall n, h_caps h n (at_ a c) = Ok caps) ->
  suits (i_ver s) (h_parser h) caps (h_attrs h (at_ a c)) t ->
  i_ver s = V21 \/ v_run v = true ->
  exists s' v', handle h dn i (start_message t a c) s = (s', Ok (mkReply true (RTask t))) /\
    kget (i_devmap s') (at_ a c) = Some v' /\ v_tasks v' = (v_tasks v ++ [ITask t])%list.
Proof.
  intros K C S R. apply suits_verdict in S. unfold at_ in *.
  assert (KS : forall (A : Type) (k : key) (l : list (key * A)) y, kget (kset l k y) k = Some y).
  { intros A k l y. induction l as [|[k' z] l IH]; cbn.
    - rewrite key_eqb_refl. reflexivity.
    - destruct (key_eqb k k') eqn:E; cbn; rewrite E; [reflexivity|exact IH]. }
  destruct s as [ver dm rt im ci ca lg]. cbn [i_ver i_devmap] in *.
  assert (H : handle h dn i (start_message t a c) (mkIface ver dm rt im ci ca lg) =
    match match ver with V21 => task_start h | V20 => task_start20 h end (about_task t a c) (mkIface ver dm rt im ci ca lg) with
    | (s', Err ValueError) | (s', Err AttributeError) => (s', Ok (mkReply false RNone))
    | other => other
    end) by (destruct ver; reflexivity).
  rewrite H. clear H. destruct ver.
  - destruct R as [R|R]; [discriminate R|]. cbn [verdict] in S.
    unfold task_start20, log_errors, in_devmap. cbn [rp_key about_task rp_address rp_channel rp_task i_devmap i_ver]. rewrite K.
    unfold mbind at 1, need_arg, ret. unfold mbind at 1, iface_validate20, log_errors, in_devmap.
    cbn [rp_key rp_task i_devmap i_ver]. rewrite K. unfold mbind at 1 2 3 4, need_arg, ret, device_at. cbn [i_devmap]. rewrite K.
    unfold call. cbn [i_calls]. rewrite C. unfold mres. rewrite S. cbn [dr_ok negb].
    unfold mbind at 1, upd_device, mput, set_devmap, count_call. cbn [i_devmap i_ver i_retries i_imi i_class_imi i_calls i_log]. rewrite K.
    unfold mbind at 1, run_thread. unfold mbind at 1, upd_device, mput, set_devmap.
    cbn [i_devmap i_ver i_retries i_imi i_class_imi i_calls i_log]. rewrite KS.
    unfold mbind at 1, device_at. cbn [i_devmap]. rewrite KS. cbn [v_run]. rewrite R.
    unfold upd_device, mput, set_devmap. cbn [i_devmap i_ver i_retries i_imi i_class_imi i_calls i_log]. rewrite KS.
    eexists _, _. split; [reflexivity|]. cbn [i_devmap]. rewrite KS. split; reflexivity.
  - cbn [verdict] in S.
    unfold task_start, log_errors, in_devmap. cbn [rp_key about_task rp_address rp_channel rp_task i_devmap i_ver]. rewrite K.
    unfold mbind at 1, need_arg, ret. unfold mbind at 1, iface_validate, log_errors, in_devmap.
    cbn [rp_key rp_task i_devmap i_ver]. rewrite K. unfold mbind at 1 2 3 4, need_arg, ret, device_at. cbn [i_devmap]. rewrite K.
    unfold call. cbn [i_calls]. rewrite C. unfold mres. rewrite S. cbn [dr_ok negb].
    unfold mbind at 1, upd_device, mput, set_devmap, count_call. cbn [i_devmap i_ver i_retries i_imi i_class_imi i_calls i_log]. rewrite K.
    eexists _, _. split; [reflexivity|]. cbn [i_devmap]. rewrite KS. split; reflexivity.
Qed.
