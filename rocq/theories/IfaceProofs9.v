(** * IfaceProofs9: requests to a driver with the 2.0 interface (C101) *)
From Coq Require Import List String ZArith Bool Lia.
From Verif Require Import Base BaseFacts Types AttrModel IfaceModel SpecAttr SpecIface SpecDie SpecDie2
  IfaceProofs IfaceProofs2 IfaceProofs3 IfaceProofs4 IfaceProofs5.
Import ListNotations.
Open Scope string_scope.
Open Scope Z_scope.

Definition wp {A} (m : M A) (s : iface) (Q : A -> iface -> Prop) (E : Prop) : Prop :=
  match m s with (s', Ok a) => Q a s' | (_, Err _) => E end.

Section V20.
  Variable h : hw.
  Hypothesis F : faultless h.

  Definition at20 (k : key) (d : device) (s : iface) : Prop := i_ver s = V20 /\ kget (i_devmap s) k = Some d.

  Lemma wp_bind {A B} (m : M A) (f : A -> M B) s Q E :
    wp m s (fun a s' => wp (f a) s' Q E) E -> wp (mbind m f) s Q E.
  Proof. unfold wp, mbind. destruct (m s) as [s' [a|e]]; auto. Qed.
  Lemma wp_weaken {A} (m : M A) s (Q Q' : A -> iface -> Prop) (E E' : Prop) :
    wp m s Q E -> (forall a s', Q a s' -> Q' a s') -> (E -> E') -> wp m s Q' E'.
  Proof. unfold wp. destruct (m s) as [s' [a|e]]; auto. Qed.
  Lemma wp_log {A} (m : M A) s Q E : wp m s Q E -> wp (log_errors m) s Q E.
  Proof. unfold wp, log_errors. destruct (m s) as [s' [a|e]]; auto. destruct e; auto. Qed.
  Lemma wp_in f p k d s Q E : at20 k d s -> keyof p = k -> wp (f k p) s Q E -> wp (in_devmap f p) s Q E.
  Proof.
    intros [V K] P. unfold wp, in_devmap. change (match rp_key p with Some k0 => k0 | None => _ end) with (keyof p).
    rewrite P, K. auto.
  Qed.
  Lemma wp_at k d s (Q : device -> iface -> Prop) E : at20 k d s -> Q d s -> wp (device_at k) s Q E.
  Proof. intros [V K]. unfold wp, device_at. rewrite K. auto. Qed.
  Lemma wp_upd k d f s (Q : unit -> iface -> Prop) E : at20 k d s ->
    (forall s', at20 k (f d) s' -> Q tt s') -> wp (upd_device k f) s Q E.
  Proof.
    intros [V K] H. unfold wp. rewrite (upd_at k f s d K). apply H. split; [exact V|apply kget_set_same].
  Qed.
  Lemma wp_call {A} (f : nat -> res A) k d s (Q : A -> iface -> Prop) E a : at20 k d s -> f (i_calls s) = Ok a ->
    (at20 k d (count_call s) -> Q a (count_call s)) -> wp (call f) s Q E.
  Proof. intros U H HQ. unfold wp, call. rewrite H. apply HQ. exact U. Qed.
  Lemma wp_ret {A} (a : A) s (Q : A -> iface -> Prop) E : Q a s -> wp (ret a) s Q E.
  Proof. exact (fun H => H). Qed.

  Definition good (r : dreply) (s : iface) : Prop := i_ver s = V20 /\ dr_data r <> RView.
  Definition kept20 (k : key) (r : dreply) (s : iface) : Prop := (exists d, at20 k d s) /\ dr_data r <> RView.

  Ltac start U K := apply wp_log; eapply wp_in; [exact U|exact K|].
  Ltac fin := split; [eexists; eassumption|discriminate].

  Lemma wp_data p k d s E : keyof p = k -> at20 k d s -> wp (task_data p) s (kept20 k) E.
  Proof.
    intros K U. unfold task_data. start U K. apply wp_bind. eapply wp_at; [exact U|].
    apply wp_bind. eapply wp_upd; [exact U|]. intros s' U'. destruct (v_data d); fin.
  Qed.
  Lemma wp_stop p k d s E : keyof p = k -> at20 k d s -> wp (task_stop20 p) s (kept20 k) E.
  Proof.
    intros K U. unfold task_stop20. start U K. apply wp_bind. eapply wp_at; [exact U|].
    apply wp_bind. eapply wp_upd; [exact U|]. intros s' U'. apply wp_bind.
    eapply wp_weaken; [eapply (wp_data (with_key k)); [reflexivity|exact U']| |exact (fun x => x)].
    intros r s2 [[d2 U2] N]. split; [exists d2; exact U2|exact N].
  Qed.
  Lemma wp_reset p k d s E : keyof p = k -> at20 k d s -> wp (cmp_reset20 p) s (kept20 k) E.
  Proof.
    intros K U. unfold cmp_reset20. start U K. apply wp_bind. eapply wp_at; [exact U|].
    apply wp_bind. eapply wp_upd; [exact U|]. intros s' U'. fin.
  Qed.
  Lemma wp_status p k d s E : keyof p = k -> at20 k d s -> wp (task_status20 p) s (kept20 k) E.
  Proof. intros K U. unfold task_status20. start U K. apply wp_bind. eapply wp_at; [exact U|]. fin. Qed.
  Lemma wp_teardown p k d s E : keyof p = k -> at20 k d s -> wp (cmp_teardown20 p) s good E.
  Proof.
    intros K U. unfold cmp_teardown20. start U K. apply wp_bind.
    eapply wp_weaken; [eapply (wp_status (with_key k)); [reflexivity|exact U]| |exact (fun x => x)]. intros _ s1 [[d1 U1] _].
    apply wp_bind. eapply wp_weaken; [eapply (wp_stop (with_key k)); [reflexivity|exact U1]| |exact (fun x => x)]. intros _ s2 [[d2 U2] _].
    apply wp_bind. eapply wp_weaken; [eapply (wp_reset (with_key k)); [reflexivity|exact U2]| |exact (fun x => x)]. intros _ s3 [[d3 U3] _].
    apply wp_bind. split; [apply U3|discriminate].
  Qed.
  Lemma wp_read k d l : forall acc s E, at20 k d s -> wp (read_status h k l acc) s (fun _ s' => at20 k d s') E.
  Proof.
    induction l as [|[n a] l IH]; intros acc s E U; cbn [read_status]; [exact U|].
    destruct (at_status a); [|apply IH; exact U].
    destruct F as (_ & _ & _ & G). destruct (G (i_calls s) k n) as [v Hv].
    apply wp_bind. eapply wp_call; [exact U|exact Hv|]. intros U'. apply IH. exact U'.
  Qed.
  Lemma some_status (l : dict attr) :
    existsb (fun na : string * attr => at_status (snd na)) l = false <-> forall a props, In (a, props) l -> at_status props = false.
  Proof.
    induction l as [|[n a] l IH]; cbn; [split; [contradiction|reflexivity]|]. rewrite orb_false_iff, IH. split.
    - intros [A B] x props [X|X]; [injection X as <- <-; exact A|exact (B x props X)].
    - intros H. split; [exact (H n a (or_introl eq_refl))|]. intros x props X. exact (H x props (or_intror X)).
  Qed.
  Lemma wp_cstatus p k d s : keyof p = k -> at20 k d s ->
    let G := rp_attr p = None \/ forall a props, In (a, props) (h_attrs h k) -> at_status props = false in
    wp (cmp_status h p) s (fun r s' => G /\ kept20 k r s') (~ G).
  Proof.
    intros K U G. unfold cmp_status. start U K. apply wp_bind. eapply wp_at; [exact U|]. apply wp_bind.
    assert (X : is_some (rp_attr p) && existsb (fun na => at_status (snd na)) (h_attrs h k) = false <-> G).
    { unfold G. rewrite andb_false_iff, some_status. destruct (rp_attr p); cbn [is_some]; intuition discriminate. }
    unfold wp at 1, twice. destruct (_ && _)%bool.
    - intros g. apply X in g. discriminate.
    - apply wp_bind. eapply wp_weaken; [apply (wp_read k d); exact U| |exact (fun x => x)]. intros l s1 U1. cbv beta in U1.
      apply wp_bind. eapply wp_at; [exact U1|]. split; [apply X; reflexivity|fin].
  Qed.
  Lemma wp_set p k d s : keyof p = k -> at20 k d s ->
    let G := rp_attr p <> None /\ rp_val p <> None in
    wp (cmp_set_attr20 h p) s (fun r s' => G /\ kept20 k r s') (~ G).
  Proof.
    intros K U G. unfold cmp_set_attr20. start U K. apply wp_bind. unfold wp at 1, G.
    destruct (rp_attr p) as [a|]; cbn [need_arg ret raise]; [|intros [X _]; congruence].
    apply wp_bind. unfold wp at 1. destruct (rp_val p) as [v|]; cbn [need_arg ret raise]; [|intros [_ X]; congruence].
    apply wp_bind. eapply wp_at; [exact U|]. apply wp_bind. unfold wp at 1, mput.
    destruct F as (_ & _ & S & _). destruct (S (i_calls s) k a v) as [w Hw].
    apply wp_bind. eapply (wp_call _ k d); [exact U|exact Hw|]. intros U'. split; [split; discriminate|fin].
  Qed.
  Lemma wp_get p k d s : keyof p = k -> at20 k d s ->
    wp (cmp_get_attr h p) s (fun r s' => rp_attr p <> None /\ kept20 k r s') (~ rp_attr p <> None).
  Proof.
    intros K U. unfold cmp_get_attr. start U K. apply wp_bind. unfold wp at 1.
    destruct (rp_attr p) as [a|]; cbn [need_arg ret raise]; [|intros X; congruence].
    apply wp_bind. eapply wp_at; [exact U|].
    destruct F as (_ & _ & _ & S). destruct (S (i_calls s) k a) as [w Hw].
    apply wp_bind. eapply (wp_call _ k d); [exact U|exact Hw|]. intros U'. split; [discriminate|fin].
  Qed.
  Lemma wp_caps p k d s E : keyof p = k -> at20 k d s -> wp (cmp_capabilities h p) s (kept20 k) E.
  Proof.
    intros K U. unfold cmp_capabilities. start U K. apply wp_bind. eapply wp_at; [exact U|].
    destruct F as (_ & S & _). destruct (S (i_calls s) k) as [w Hw].
    apply wp_bind. eapply (wp_call _ k d); [exact U|exact Hw|]. intros U'. fin.
  Qed.
  Lemma wp_simple p k d s (f : key -> device -> dreply) E : keyof p = k -> at20 k d s -> (forall d, dr_data (f k d) <> RView) ->
    wp (log_errors (in_devmap (fun k _ => d <-- device_at k;; ret (f k d)) p)) s (kept20 k) E.
  Proof.
    intros K U N. start U K. apply wp_bind. eapply wp_at; [exact U|]. split; [eexists; eassumption|apply N].
  Qed.
  Lemma wp_last p k d s E : keyof p = k -> at20 k d s -> wp (cmp_last_data p) s (kept20 k) E.
  Proof. intros K U. unfold cmp_last_data. start U K. apply wp_bind. eapply wp_at; [exact U|]. destruct (v_last d); fin. Qed.
  Lemma wp_measure p k d s E : keyof p = k -> at20 k d s -> wp (cmp_measure20 h p) s (kept20 k) E.
  Proof.
    intros K U. unfold cmp_measure20. start U K. destruct F as (PM & _). apply wp_bind. eapply (wp_call _ k d); [exact U|rewrite PM; reflexivity|]. intros U1.
    apply wp_bind. eapply wp_at; [exact U1|]. destruct (v_running d); [fin|].
    apply wp_bind. eapply wp_upd; [exact U1|]. intros s2 U2. fin.
  Qed.
  Definition judged (n : nat) (k : key) (p : rparams) (b : bool) : Prop :=
    exists t caps, rp_task p = Some t /\ h_caps h n k = Ok caps /\ task_validate20 (h_parser h) caps (h_attrs h k) t = Ok b.
  Lemma wp_validate p k d s : keyof p = k -> at20 k d s ->
    wp (iface_validate20 h p) s (fun r s' => judged (i_calls s) k p (dr_ok r) /\ at20 k d s' /\ dr_data r = RNone)
       (forall b, ~ judged (i_calls s) k p b).
  Proof.
    intros K U. unfold iface_validate20. start U K. apply wp_bind. unfold wp at 1.
    destruct (rp_task p) as [t|] eqn:T; cbn [need_arg ret raise]; [|intros b (t & caps & X & _); congruence].
    apply wp_bind. eapply wp_at; [exact U|].
    destruct F as (_ & S & _). destruct (S (i_calls s) k) as [w Hw].
    apply wp_bind. eapply (wp_call _ k d); [exact U|exact Hw|]. intros U'.
    apply wp_bind. unfold wp at 1, mres. destruct (task_validate20 (h_parser h) w (h_attrs h k) t) as [b|e] eqn:B.
    - split; [exists t, w; auto|]. split; [exact U'|reflexivity].
    - intros b (t' & caps & X & Y & Z). rewrite X in T. injection T as ->. rewrite Y in Hw. injection Hw as ->. congruence.
  Qed.
  Lemma judged_one n k p b b' : judged n k p b -> judged n k p b' -> b = b'.
  Proof. intros (t & c & A & B & C) (t' & c' & A' & B' & C'). rewrite A in A'. injection A' as <-. rewrite B in B'. injection B' as <-. congruence. Qed.
  Lemma wp_start p k d s : keyof p = k -> at20 k d s ->
    let G := exists b, judged (i_calls s) k p b /\ (b = true -> v_run d = true) in
    wp (task_start20 h p) s (fun r s' => G /\ kept20 k r s') (~ G).
  Proof.
    intros K U G. unfold task_start20. start U K. apply wp_bind. unfold wp at 1.
    destruct (rp_task p) as [t|] eqn:T; cbn [need_arg ret raise]; [|intros (b & (t & caps & X & _) & _); congruence].
    assert (J : forall b, judged (i_calls s) k (mkRp (Some k) None None None None (Some t) None None) b <-> judged (i_calls s) k p b).
    { intros b. unfold judged. cbn [rp_task]. rewrite T. reflexivity. }
    apply wp_bind. eapply wp_weaken; [apply (wp_validate _ k d); [reflexivity|exact U]| |].
    2:{ intros X (b & Y & _). apply (X b). apply J. exact Y. }
    intros r s1 (Jr & U1 & Dr). apply J in Jr. destruct (dr_ok r) eqn:Or; cbn [negb].
    - apply wp_bind. eapply wp_upd; [exact U1|]. intros s2 U2. apply wp_bind. unfold run_thread.
      apply wp_bind. eapply wp_upd; [exact U2|]. intros s3 U3. apply wp_bind. eapply wp_at; [exact U3|].
      cbn [v_run]. destruct (v_run d) eqn:R.
      + eapply wp_upd; [exact U3|]. intros s4 U4. split; [exists true; auto|fin].
      + intros (b & Y & Z). pose proof (judged_one _ _ _ _ _ Jr Y) as Q. subst b. specialize (Z eq_refl). congruence.
    - split; [exists false; split; [exact Jr|discriminate]|]. split; [eexists; exact U1|rewrite Dr; discriminate].
  Qed.

  Lemma wp_component name p s d : i_ver s = V20 -> In name component_requests ->
    kget (i_devmap s) (keyof p) = Some d ->
    wp (component_method h name p) s (fun r s' => needs h (i_calls s) name (keyof p) d p /\ good r s')
       (~ needs h (i_calls s) name (keyof p) d p).
  Proof.
    intros V I K. assert (U : at20 (keyof p) d s) by (split; assumption).
    unfold wp, component_method. rewrite V. fold (wp (method20 h name p) s (fun r s' => needs h (i_calls s) name (keyof p) d p /\ good r s')
       (~ needs h (i_calls s) name (keyof p) d p)).
    assert (X : forall (m : M dreply) (G : Prop), wp m s (fun r s' => G /\ kept20 (keyof p) r s') (~ G) ->
      (G <-> needs h (i_calls s) name (keyof p) d p) ->
      wp m s (fun r s' => needs h (i_calls s) name (keyof p) d p /\ good r s') (~ needs h (i_calls s) name (keyof p) d p)).
    { intros m G H [E1 E2]. eapply wp_weaken; [exact H| |intros A B; apply A, E2, B].
      intros r s' [g [[d' [V' _]] N]]. split; [apply E1, g|split; assumption]. }
    assert (X0 : forall (m : M dreply), wp m s (kept20 (keyof p)) False ->
      needs h (i_calls s) name (keyof p) d p ->
      wp m s (fun r s' => needs h (i_calls s) name (keyof p) d p /\ good r s') (~ needs h (i_calls s) name (keyof p) d p)).
    { intros m H N. eapply wp_weaken; [exact H| |contradiction].
      intros r s' [[d' [V' _]] N']. split; [exact N|split; assumption]. }
    assert (TR : forall name', ~ In name' ["cmp_set_attr"; "cmp_get_attr"; "cmp_status"; "task_start"; "task_validate"] ->
       needs h (i_calls s) name' (keyof p) d p).
    { intros name' N. cbn in N. repeat split; intros; exfalso; apply N; subst; intuition congruence. }
    repeat (destruct I as [<-|I]); [..|destruct I]; cbn [method20 String.eqb Ascii.eqb Bool.eqb].
    - eapply wp_weaken; [apply (wp_teardown p (keyof p) d s False); auto| |contradiction].
      intros r s' H. split; [apply TR; cbn; intuition discriminate|exact H].
    - apply X0; [eapply wp_reset; eauto|apply TR; cbn; intuition discriminate].
    - eapply X; [eapply wp_set; eauto|]. unfold needs. intuition discriminate.
    - eapply X; [eapply wp_get; eauto|]. unfold needs. intuition discriminate.
    - eapply X; [eapply wp_cstatus; eauto|]. unfold needs. intuition discriminate.
    - apply X0; [eapply wp_caps; eauto|apply TR; cbn; intuition discriminate].
    - apply X0; [|apply TR; cbn; intuition discriminate].
      apply (wp_simple p (keyof p) d s (fun k _ => mkReply true (RAttrs (h_attrs h k)))); auto. discriminate.
    - apply X0; [|apply TR; cbn; intuition discriminate].
      apply (wp_simple p (keyof p) d s (fun k _ => mkReply true ROther)); auto. discriminate.
    - apply X0; [eapply wp_last; eauto|apply TR; cbn; intuition discriminate].
    - apply X0; [eapply wp_measure; eauto|apply TR; cbn; intuition discriminate].
    - eapply X; [eapply wp_start; eauto|]. split.
      + intros (b & (t & caps & A & B & C) & D). repeat split; try discriminate. intros _. exists t, caps, b. auto.
      + intros (_ & _ & _ & H). destruct (H (or_introl eq_refl)) as (t & caps & b & A & B & C & D).
        exists b. split; [exists t, caps; auto|auto].
    - apply X0; [eapply wp_status; eauto|apply TR; cbn; intuition discriminate].
    - apply X0; [eapply wp_stop; eauto|apply TR; cbn; intuition discriminate].
    - apply X0; [eapply wp_data; eauto|apply TR; cbn; intuition discriminate].
    - eapply (X _ (exists b, judged (i_calls s) (keyof p) p b)).
      + eapply wp_weaken; [apply (wp_validate p (keyof p) d s); auto| |].
        * intros r s' (J & U' & Dr). split; [eexists; exact J|]. split; [eexists; exact U'|rewrite Dr; discriminate].
        * intros H [b J]. exact (H b J).
      + split.
        * intros (b & (t & caps & A & B & C)). repeat split; try discriminate. intros _. exists t, caps, b. repeat split; auto. discriminate.
        * intros (_ & _ & _ & H). destruct (H (or_intror eq_refl)) as (t & caps & b & A & B & C & D).
          exists b, t, caps. auto.
  Qed.

  (** Exceptions of component methods are fatal. *)
  Lemma fatal20 name p s s' e : i_ver s = V20 -> component_method h name p s = (s', Err e) -> e = SystemExit \/ e = Blocked.
  Proof.
    intros V. assert (L : forall (m : M dreply), log_errors m s = (s', Err e) -> e = SystemExit \/ e = Blocked).
    { intros m. unfold log_errors. destruct (m s) as [x [a|y]]; [discriminate|]. rewrite V.
      destruct y; intros [= <- <-]; auto. }
    unfold component_method. rewrite V. unfold method20.
    repeat match goal with |- context [if ?c then _ else _] => destruct c end; apply L.
  Qed.

  (** The idle part of a turn. *)
  Definition keys20 (l : list key) (s : iface) : Prop := i_ver s = V20 /\ forall k, In k l -> kget (i_devmap s) k <> None.
  Lemma measures20 l0 l : incl l l0 -> forall s, keys20 l0 s ->
    exists s', mfor l (fun k => mbind (component_method h "cmp_measure" (with_key k)) (fun _ => ret tt)) s = (s', Ok tt) /\ keys20 l0 s'.
  Proof.
    induction l as [|k l IH]; intros IN s KS; [exists s; split; [reflexivity|exact KS]|].
    assert (X : exists s1 r, component_method h "cmp_measure" (with_key k) s = (s1, Ok r) /\ keys20 l0 s1).
    { destruct KS as [V HK]. pose proof (HK k (IN k (or_introl eq_refl))) as Kk.
      destruct (kget (i_devmap s) k) as [d|] eqn:K; [clear Kk|congruence].
      unfold component_method. rewrite V. change (method20 h "cmp_measure" (with_key k)) with (cmp_measure20 h (with_key k)).
      unfold cmp_measure20, log_errors, in_devmap. cbn [rp_key with_key]. rewrite K. unfold mbind, call.
      destruct F as (PM & _). rewrite PM. rewrite (device_at_some k (count_call s) d K).
      destruct (v_running d).
      - eexists _, _. split; [reflexivity|]. split; [exact V|exact HK].
      - rewrite (upd_at k _ (count_call s) d K). eexists _, _. split; [reflexivity|]. split; [exact V|].
        intros k' I'. rewrite kget_set_devmap. destruct (key_eqb k' k); [discriminate|apply HK, I']. }
    destruct X as (s1 & r & E & K1). destruct (IH (fun x X => IN x (or_intror X)) s1 K1) as (s2 & E2 & K2).
    exists s2. split; [|exact K2]. cbn. unfold mbind in *. rewrite E. cbn. exact E2.
  Qed.
  Lemma idle20 i p : i_ver (dp_iface p) = V20 -> snd (idle_turn h i p) = DServing.
  Proof.
    intros V. unfold idle_turn, idle_measurements. unfold mbind at 1, mget.
    destruct (interval_of (dp_iface p)) as [x|]; [|reflexivity].
    destruct (match dp_last p with Some t => _ | None => false end); [reflexivity|].
    unfold mbind at 1, mput.
    destruct (measures20 (map fst (i_devmap (dp_iface p))) (map fst (i_devmap (dp_iface p))) (fun x X => X) (note (EvRound (ti_clock i)) (dp_iface p))) as (s' & E & _).
    { split; [exact V|]. intros k I. apply (keys_known _ (i_devmap (dp_iface p))). exact I. }
    unfold mbind at 1. rewrite E. reflexivity.
  Qed.

  Lemma v20_cases driver p i q name : i_ver (dp_iface p) = V20 -> ti_req i = Some q -> rq_cmd q = Some name ->
    In name component_requests ->
    let s := worked (ti_work i) (dp_iface p) in
    let N := exists d, kget (i_devmap s) (target q) = Some d /\ needs h (i_calls s) name (target q) d (params_of q) in
    (N /\ exists p' r, dturn h driver p i = (p', Some r, DServing) /\ i_ver (dp_iface p') = V20) \/
    (~ N /\ exists p' f, dturn h driver p i = (p', None, f) /\ (f = DDied SystemExit \/ f = DDied RuntimeError \/ f = DHung)).
  Proof.
    intros V RQ C I s. assert (Vs : i_ver s = V20) by exact V.
    assert (T : target q = keyof (params_of q)).
    { unfold target, params_of, keyof. destruct (rq_params q); reflexivity. }
    assert (NS : String.eqb name "stop" = false).
    { apply String.eqb_neq. intros ->. cbn in I. intuition discriminate. }
    unfold dturn, main_turn. rewrite RQ. cbn [dp_iface dp_last]. fold s.
    rewrite (component_dispatch h driver i q name s C I). fold (params_of q).
    rewrite T. cbv zeta. destruct (kget (i_devmap s) (keyof (params_of q))) as [d|] eqn:K.
    - pose proof (wp_component name (params_of q) s d Vs I K) as W. unfold wp in W.
      destruct (component_method h name (params_of q) s) as [s' [r|e]] eqn:E.
      + left. destruct W as [N [V' D]].
        assert (P : picklable r = true) by (unfold picklable; destruct (dr_data r); congruence).
        rewrite P, C, NS. cbn [negb].
        pose proof (idle20 i (mkProc s' (dp_last p)) V') as Q.
        destruct (idle_turn h i (mkProc s' (dp_last p))) as [p' f] eqn:IT. cbn in Q. subst f.
        assert (V2 : i_ver (dp_iface p') = V20).
        { destruct (idle_turn_quiet _ _ _ _ _ IT) as [X _]. rewrite X. exact V'. }
        split; [exists d; auto|]. eexists _, _. split; [reflexivity|exact V2].
      + right. split; [intros (d' & D' & N); injection D' as <-; contradiction|].
        destruct (fatal20 _ _ _ _ _ Vs E) as [-> | ->]; eexists _, _; (split; [reflexivity|auto]).
    - right. rewrite (unknown_method20 h name (params_of q) s Vs K).
      split; [intros (d & X & _); discriminate|].
      destruct (rp_key (params_of q)); cbn; eexists _, _; (split; [reflexivity|auto]).
  Qed.
  Lemma v20_lemma driver p i q name : i_ver (dp_iface p) = V20 -> ti_req i = Some q -> rq_cmd q = Some name ->
    In name component_requests ->
    let s := worked (ti_work i) (dp_iface p) in
    let N := exists d, kget (i_devmap s) (target q) = Some d /\ needs h (i_calls s) name (target q) d (params_of q) in
    (N -> exists p' r, dturn h driver p i = (p', Some r, DServing)) /\
    (~ N -> exists p' f, dturn h driver p i = (p', None, f) /\ (f = DDied SystemExit \/ f = DDied RuntimeError \/ f = DHung)).
  Proof.
    intros V RQ C I s N. destruct (v20_cases driver p i q name V RQ C I) as [[H (p' & r & E & _)]|[H X]].
    - split; [intros _; eauto|]. intros X. elim X. exact H.
    - split; [intros X0; elim H; exact X0|]. intros _. exact X.
  Qed.

  Lemma turn20 driver p i : i_ver (dp_iface p) = V20 -> about_components i ->
    (fits h p i /\ exists p' a, dturn h driver p i = (p', a, DServing) /\ answered i a /\ i_ver (dp_iface p') = V20) \/
    (~ fits h p i /\ exists p' f, dturn h driver p i = (p', None, f) /\ f <> DServing).
  Proof.
    intros V AB. destruct (ti_req i) as [q|] eqn:RQ.
    - destruct (AB q RQ) as (name & C & I). pose proof (v20_cases driver p i q name V RQ C I) as L. cbv zeta in L.
      set (N := exists d, kget _ _ = Some d /\ _) in *.
      assert (E : fits h p i <-> N).
      { split.
        - intros H. destruct (H q RQ) as (name' & d & C' & K & X). rewrite C in C'. injection C' as <-. exists d. auto.
        - intros (d & K & X) q' RQ'. rewrite RQ in RQ'. injection RQ' as <-. exists name, d. auto. }
      destruct L as [[H (p' & r & T & V')]|[H (p' & f & T & D)]]; [left|right].
      + split; [apply E, H|]. exists p', (Some r).
        split; [exact T|]. split; [|exact V']. split; intros _; [discriminate|rewrite RQ; discriminate].
      + split; [intros X; apply H, E, X|]. exists p', f. split; [exact T|]. destruct D as [-> |[-> | ->]]; discriminate.
    - left. split; [intros q X; congruence|]. unfold dturn, main_turn. rewrite RQ.
      set (p0 := mkProc _ _). pose proof (idle20 i p0 V) as Q.
      destruct (idle_turn h i p0) as [p' f] eqn:IT. cbn in Q. subst f.
      exists p', None. split; [reflexivity|]. split; [split; congruence|].
      destruct (idle_turn_quiet _ _ _ _ _ IT) as [X _]. rewrite X. exact V.
  Qed.

  Lemma runs20 driver l : forall p, i_ver (dp_iface p) = V20 -> Forall about_components l ->
    ((exists p' a, dturns h driver p l = (p', a, DServing) /\ Forall2 answered l a) <->
     (forall l1 i l2 p1 a1, l = (l1 ++ i :: l2)%list -> dturns h driver p l1 = (p1, a1, DServing) -> fits h p1 i)).
  Proof.
    induction l as [|i l IH]; intros p V AB.
    - split; [|intros _; exists p, []; split; [reflexivity|constructor]].
      intros _ [|x l1] j l2 p1 a1 E; discriminate E.
    - inversion AB as [|? ? AB1 AB2]; subst. destruct (turn20 driver p i V AB1) as [(FI & p' & a & T & A & V')|(NF & p' & f & T & D)].
      + split.
        * intros (p2 & a2 & R & Z). cbn in R. rewrite T in R.
          destruct (dturns h driver p' l) as [[p3 a3] f3] eqn:R3. injection R as <- <- ->.
          inversion Z; subst.
          intros [|x l1] j l2 p1 a1 E X.
          -- injection E as -> ->. cbn in X. injection X as <- <-. exact FI.
          -- injection E as <- E. cbn in X. rewrite T in X.
             destruct (dturns h driver p' l1) as [[p4 a4] f4] eqn:R4. injection X as <- <- ->.
             eapply (proj1 (IH p' V' AB2)); [|exact E|exact R4]. rewrite R3. eexists _, _. split; [reflexivity|assumption].
        * intros H. destruct (proj2 (IH p' V' AB2)) as (p2 & a2 & R & Z).
          { intros l1 j l2 p1 a1 E X. apply (H (i :: l1) j l2 p1 (a :: a1)); [cbn; congruence|]. cbn. rewrite T, X. reflexivity. }
          exists p2, (a :: a2). cbn. rewrite T, R. split; [reflexivity|constructor; assumption].
      + split.
        * intros (p2 & a2 & R & Z). cbn in R. rewrite T in R. destruct f; congruence.
        * intros H. elim NF. apply (H [] i l p []); reflexivity.
  Qed.
End V20.
