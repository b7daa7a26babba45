(** * TendProofs: which components get registered automatically (C122) *)
From Coq Require Import List String ZArith Bool Lia.
From Verif Require Import Base BaseFacts Types Prog ProgFacts World WorldFacts Replies CmdModel DrvModel CancelProofs
  AttrModel IfaceModel SpecIface SpecDie IfaceProofs IfaceProofs6 WireModel SpecWire WireProofs SpecTend P_Iface3.
Import ListNotations.
Open Scope string_scope.
Open Scope Z_scope.

(** ** The requests of a pass *)

(** The driver at port [p] answers that it has no components. *)
Definition empty_at (D : Z -> dcmd -> option World.dreply) (p : Z) : Prop :=
  exists r, D p CStatus = Some r /\ World.dr_ok r = true /\ data_len (World.dr_data r) = Ok 0.

(** What the driver manager sends: questions for the status, stops, and requests to register
    to drivers without components. *)
Definition mild (D : Z -> dcmd -> option World.dreply) (e : World.event) : Prop :=
  match e with
  | EvRequest p c => c = CStatus \/ c = CStop \/ (c = CRegister /\ empty_at D p)
  | _ => True
  end.
Definition keeps {A} (p : pgm A) : Prop :=
  forall w x w', run exec p w = (x, w') ->
  exists new, w_log w' = (new ++ w_log w)%list /\ Forall (mild (w_driver w)) new.

Lemma keeps_ret {A} (a : A) : keeps (Ret a).
Proof. intros w x w' H. injection H as <- <-. exists []. split; [reflexivity|constructor]. Qed.
Lemma keeps_raise {A} e : keeps (Raise e : pgm A).
Proof. intros w x w' H. injection H as <- <-. exists []. split; [reflexivity|constructor]. Qed.
Lemma run_driver_eq {A} (p : pgm A) w x w' : run exec p w = (x, w') -> w_driver w' = w_driver w.
Proof. intros H. rewrite <- (run_driver p w), H. reflexivity. Qed.
Lemma keeps_bind {A B} (p : pgm A) (f : A -> pgm B) : keeps p -> (forall a, keeps (f a)) -> keeps (bind p f).
Proof.
  intros K1 K2 w x w' H. rewrite run_bind in H. destruct (run exec p w) as [r w1] eqn:E.
  destruct (K1 _ _ _ E) as (n1 & L1 & F1). pose proof (run_driver_eq p w r w1 E) as D.
  destruct r as [a|e].
  - destruct (K2 a _ _ _ H) as (n2 & L2 & F2). rewrite D in F2. exists (n2 ++ n1)%list.
    split; [rewrite L2, L1, app_assoc; reflexivity|]. apply Forall_app. split; assumption.
  - injection H as <- <-. exists n1. split; assumption.
Qed.
Lemma keeps_forP {S A} (f : S -> A -> pgm S) : (forall s a, keeps (f s a)) -> forall l s, keeps (forP f s l).
Proof. intros K. induction l as [|a l IH]; intros s; [apply keeps_ret|]. cbn [forP]. apply keeps_bind; auto. Qed.
Lemma keeps_quiet o : (forall w, w_log (snd (exec o w)) = w_log w) -> keeps (act o).
Proof.
  intros Q w x w' H. unfold act in H. rewrite run_do in H. exists []. split; [|constructor].
  specialize (Q w). rewrite H in Q. exact Q.
Qed.
Lemma keeps_ask o p c : (c = CStatus \/ c = CStop) ->
  (o = ODriverT p c \/ o = ODriver p c) -> keeps (act o).
Proof.
  intros C O w x w' H. unfold act in H. rewrite run_do in H.
  destruct p as [p|].
  - exists [EvRequest p c]. split; [|constructor; [cbn; tauto|constructor]].
    destruct O as [-> | ->]; cbn in H; destruct (w_driver w p c); injection H as <- <-; reflexivity.
  - exists []. split; [|constructor]. destruct O as [-> | ->]; cbn in H; injection H as <- <-; reflexivity.
Qed.

Lemma exec_log_drv n cs w : w_log (snd (exec (ODrvUpdate n cs) w)) = w_log w.
Proof. cbn. destruct (PyStr.sql_lit n); reflexivity. Qed.
Lemma exec_log_del n w : w_log (snd (exec (ODrvDel n) w)) = w_log w.
Proof. cbn. destruct (PyStr.sql_lit n); reflexivity. Qed.
Lemma keeps_update n cs : keeps (update_drv n cs).
Proof.
  apply keeps_bind; [|intros _].
  - apply (keeps_quiet (ODrvUpdate n cs)). intros w. apply exec_log_drv.
  - apply (keeps_quiet (ODrvGet n)). reflexivity.
Qed.
Lemma keeps_del n : keeps (del_drv n).
Proof.
  apply keeps_bind; [|intros _].
  - apply (keeps_quiet (ODrvDel n)). intros w. apply exec_log_del.
  - apply (keeps_quiet (ODrvGet n)). reflexivity.
Qed.

(** The check of a driver: [register] is sent if the answer is that there are no components. *)
Lemma keeps_check p t : keeps (drv_check p t).
Proof.
  intros w x w' H. unfold drv_check, act in H. rewrite run_bind, run_do in H. cbn [exec ask] in H.
  destruct (w_driver w p CStatus) as [r|] eqn:S.
  - destruct (World.dr_ok r) eqn:O.
    + rewrite run_bind in H. rewrite run_bind, run_lift in H.
      destruct (data_len (World.dr_data r)) as [n|e] eqn:L.
      * destruct (Z.eqb_spec n 0) as [->|N].
        -- rewrite run_bind, run_do in H. cbn [exec ask] in H. cbn [add_event w_driver] in H.
           exists [EvRequest p CRegister; EvRequest p CStatus]. split.
           ++ destruct (w_driver w p CRegister); cbn in H; injection H as <- <-; reflexivity.
           ++ constructor; [|constructor; [cbn; tauto|constructor]]. cbn. right. right. split; [reflexivity|].
              exists r. auto.
        -- cbn in H. injection H as <- <-. exists [EvRequest p CStatus].
           split; [reflexivity|constructor; [cbn; tauto|constructor]].
      * cbn in H. injection H as <- <-. exists [EvRequest p CStatus].
        split; [reflexivity|constructor; [cbn; tauto|constructor]].
    + cbn in H. injection H as <- <-. exists [EvRequest p CStatus].
      split; [reflexivity|constructor; [cbn; tauto|constructor]].
  - injection H as <- <-. exists [EvRequest p CStatus].
    split; [reflexivity|constructor; [cbn; tauto|constructor]].
Qed.
Lemma keeps_catch {A} (p : pgm A) h : keeps p -> (forall e q, h e = Some q -> keeps q) -> keeps (catch p h).
Proof.
  intros K1 K2 w x w' H. rewrite run_catch in H. destruct (run exec p w) as [r w1] eqn:E.
  destruct (K1 _ _ _ E) as (n1 & L1 & F1). pose proof (run_driver_eq p w r w1 E) as D.
  destruct r as [a|e]; [injection H as <- <-; exists n1; split; assumption|].
  destruct (h e) as [q|] eqn:Q; [|injection H as <- <-; exists n1; split; assumption].
  destruct (K2 e q Q _ _ _ H) as (n2 & L2 & F2). rewrite D in F2. exists (n2 ++ n1)%list.
  split; [rewrite L2, L1, app_assoc; reflexivity|]. apply Forall_app. split; assumption.
Qed.
Lemma keeps_checked d p t : keeps (drv_checked d p t).
Proof.
  unfold drv_checked. apply keeps_bind.
  - apply keeps_catch; [apply keeps_check|]. intros e q Q.
    destruct e; try discriminate Q; injection Q as <-; first [apply keeps_ret|apply keeps_raise].
  - intros cs. apply keeps_bind; [apply keeps_update|intros _; apply keeps_ret].
Qed.
Lemma keeps_one dm u d : keeps (drv_one dm u d).
Proof.
  unfold drv_one. apply keeps_bind; [apply (keeps_quiet OPerf); reflexivity|]. intros tN.
  destruct (negb _).
  - apply keeps_bind; [|intros _; apply keeps_bind; [apply keeps_del|intros _; apply keeps_ret]].
    destruct (dv_port d) as [p|]; [|apply keeps_ret].
    apply keeps_bind; [|intros _; apply keeps_ret]. apply (keeps_ask (ODriver (Some p) CStop) (Some p) CStop); [tauto|right; reflexivity].
  - destruct (dv_port d) as [p|].
    + destruct (_ || _); [apply keeps_checked|apply keeps_ret].
    + destruct (_ && _); [|apply keeps_ret]. apply keeps_bind.
      * intros w x w' H. unfold act in H. rewrite run_do in H. cbn in H. injection H as <- <-.
        eexists [_]. split; [reflexivity|]. constructor; [exact I|constructor].
      * intros _. apply keeps_bind; [apply keeps_update|intros _; apply keeps_ret].
Qed.
Lemma keeps_pass : keeps drv_pass.
Proof.
  unfold drv_pass. apply keeps_bind; [apply (keeps_quiet ODmGet); reflexivity|]. intros [dm|]; [|apply keeps_ret].
  apply keeps_bind; [apply (keeps_quiet ODrvsAll); reflexivity|]. intros l. apply keeps_forP. intros s a. apply keeps_one.
Qed.

(** ** The process *)

Lemma reply_status i x : reply_of i x CStatus = Some (mkDReply true (DdDict (List.length (known x)))).
Proof.
  destruct x as [h dn [v dm rt im ci ca lg]]. unfold known. destruct v; reflexivity.
Qed.
Lemma status_keeps h dn i s : exists r, handle h dn i (message CStatus) s = (s, Ok r).
Proof. destruct s as [v dm rt im ci ca lg]. destruct v; eexists; reflexivity. Qed.
Lemma stop_keeps h dn i s : exists r, handle h dn i (message CStop) s = (s, Ok r).
Proof. eexists. reflexivity. Qed.

(** A process that is only asked for its status and told to stop stays as it is. *)
Lemma deal_calm i : forall l n x, (forall c, In c l -> c = CStatus \/ c = CStop) -> deal i n x l = x.
Proof.
  induction l as [|c l IH]; intros n x H; [reflexivity|]. cbn [deal].
  assert (E : fst (handle (pr_hw x) (pr_name x) (i n) (message c) (pr_iface x)) = pr_iface x).
  { destruct (H c (or_introl eq_refl)) as [-> | ->].
    - destruct (status_keeps (pr_hw x) (pr_name x) (i n) (pr_iface x)) as [r ->]. reflexivity.
    - destruct (stop_keeps (pr_hw x) (pr_name x) (i n) (pr_iface x)) as [r ->]. reflexivity. }
  rewrite E. destruct x as [h dn s]. apply IH. intros c' I. apply H. right. exact I.
Qed.

Lemma pass_calm i w port x r w' new : status_from w port x -> known x <> [] ->
  run exec drv_pass w = (r, w') -> w_log w' = (new ++ w_log w)%list ->
  deal i 0 x (sent_to port new) = x.
Proof.
  intros [j S] N R L. rewrite reply_status in S.
  destruct (keeps_pass _ _ _ R) as (new' & L' & F). rewrite L in L'. apply app_inv_tail in L'. subst new'.
  apply deal_calm. intros c I. apply sent_In in I. rewrite Forall_forall in F. specialize (F _ I). cbn in F.
  destruct F as [F|[F|[_ (q & E & _ & Z)]]]; [left; exact F|right; exact F|].
  rewrite S in E. injection E as <-. cbn in Z. injection Z as Z.
  destruct (known x); [now destruct N|cbn in Z; lia].
Qed.

Lemma tended_known port x y : tended port x y -> known x <> [] -> known y = known x.
Proof.
  intros T N. induction T as [|y i w r w' new T IH S R L|y z T IH E]; [reflexivity| |congruence].
  rewrite (pass_calm i w port y r w' new S ltac:(congruence) R L). exact IH.
Qed.

(** ** Registration of the components of an empty process *)
Section Boot.
  Context (h : hw) (driver : string) (W : working h).

  (** A component that the driver's code can make is registered; the rest of the list does not
      matter. *)
  Lemma boot_makes c s : i_ver s = V21 -> dc_driver c = driver ->
    let k := (Some (dc_address c), Some (dc_channel c)) in
    (forall n, h_make h n k = Ok tt) -> (kget (i_devmap s) k <> None \/ retries_of s k <> 3) ->
    forall s', boot_component h driver c s = (s', Ok tt) -> kget (i_devmap s') k <> None.
  Proof.
    intros V D k M R s' H. unfold boot_component in H. rewrite D, String.eqb_refl in H. cbn [negb] in H.
    fold k in H. unfold mbind at 1, mget at 1 in H.
    destruct (kget (i_devmap s) k) as [d|] eqn:K; [injection H as <-; congruence|].
    destruct R as [R|R]; [now destruct R|]. rewrite V in H. destruct (Z.eqb_spec (retries_of s k) 3); [contradiction|].
    unfold mbind at 1, mput at 1 in H.
    unfold mbind at 1 in H.
    destruct (cmp_register h (mkRp None (Some (dc_address c)) (Some (dc_channel c)) None None None None None)
                (note (EvRegister true k) s)) as [s1 r1] eqn:G.
    assert (E : s1 = s') by (destruct r1; unfold ret in H; injection H as ->; reflexivity). subst s1.
    unfold cmp_register, log_errors in G. cbn [rp_address rp_channel rp_key need_arg is_some] in G.
    unfold mbind at 1 2 3, ret at 1 2, twice in G. cbn [i_ver note] in G. rewrite V in G.
    unfold mbind, call, mget, mput in G. fold k in G. rewrite M in G.
    destruct W as (_ & _ & CP & _).
    match type of G with context [h_caps h ?n k] => destruct (CP n k) as [caps Q]; rewrite Q in G end.
    injection G as <- _. cbn [i_devmap note set_retries set_devmap count_call]. rewrite kget_kset, key_eqb_refl. discriminate.
  Qed.

  Lemma boot_retries c s s' r k : i_ver s = V21 -> boot_component h driver c s = (s', r) ->
    k <> (Some (dc_address c), Some (dc_channel c)) ->
    kget (i_devmap s') k = kget (i_devmap s) k /\ retries_of s' k = retries_of s k /\ i_ver s' = i_ver s.
  Proof.
    intros V1 H N. unfold boot_component in H.
    destruct (negb (String.eqb (dc_driver c) driver)); [injection H as <- _; auto|].
    set (k0 := (Some (dc_address c), Some (dc_channel c))) in *. unfold mbind, mget, mput in H.
    destruct (kget (i_devmap s) k0) eqn:K0; [injection H as <- _; auto|].
    destruct (match i_ver s with V20 => false | V21 => _ end); [injection H as <- _; auto|].
    match type of H with context [cmp_register h ?p ?s1] => destruct (cmp_register h p s1) as [s2 rr] eqn:R end.
    assert (s2 = s') by (destruct rr; injection H as <- _; reflexivity). subst s2. clear H.
    pose proof R as R0. apply register_cases in R as (V & _ & _ & D & X). split; [exact (D k N)|]. split; [|exact V].
    change (key_of _) with k0 in X.
    destruct rr as [rep|e].
    - destruct X as [(_ & _ & X & _)|(_ & _ & _ & X)].
      + change (i_retries (note (EvRegister true k0) s)) with (i_retries s) in X. unfold retries_of. rewrite X.
        destruct (i_ver (note (EvRegister true k0) s)); [reflexivity|]. rewrite kget_kset.
        destruct (key_eqb k k0) eqn:E; [apply key_eqb_eq in E; contradiction|reflexivity].
      + change (i_retries (note (EvRegister true k0) s)) with (i_retries s) in X. unfold retries_of. rewrite X, kget_kset.
        destruct (key_eqb k k0) eqn:E; [apply key_eqb_eq in E; contradiction|reflexivity].
    - exfalso.
      destruct (register_total h W (mkRp None (Some (dc_address c)) (Some (dc_channel c)) None None None None None)
        (note (EvRegister true k0) s) V1 eq_refl ltac:(discriminate) ltac:(discriminate)) as (s3 & r3 & E & _).
      rewrite R0 in E. discriminate E.
  Qed.

  Lemma bootstrap_makes : forall l s c, i_ver s = V21 -> In c l -> dc_driver c = driver ->
    let k := (Some (dc_address c), Some (dc_channel c)) in
    (forall n, h_make h n k = Ok tt) -> retries_of s k <> 3 ->
    forall s' r, bootstrap h driver l s = (s', r) -> r = Ok tt /\ kget (i_devmap s') k <> None.
  Proof.
    intros l s c V I D k M R s' r H.
    destruct (bootstrap_total h W driver l s V) as (s2 & E & _). rewrite H in E. injection E as -> ->.
    split; [reflexivity|]. revert s V R H. induction l as [|c1 l IH]; intros s V R H; [destruct I|].
    unfold bootstrap in H. cbn [mfor] in H. unfold mbind in H.
    destruct (boot_total h W driver c1 s V) as (s1 & B & V1). rewrite B in H.
    destruct (String.string_dec (dc_driver c1) driver) as [D1|D1].
    - assert (KD : {(Some (dc_address c1), Some (dc_channel c1)) = k} + {(Some (dc_address c1), Some (dc_channel c1)) <> k})
        by (repeat decide equality).
      destruct KD as [KD|KD].
      + assert (X : kget (i_devmap s1) k <> None).
        { rewrite <- KD. apply (boot_makes c1 s V D1); [rewrite KD; exact M|rewrite KD; right; exact R|exact B]. }
        destruct (kget (i_devmap s1) k) as [d|] eqn:K1; [|now destruct X].
        rewrite (bootstrap_keeps h driver l s1 s2 (Ok tt) k d H K1). discriminate.
      + destruct I as [->|I]; [now destruct KD|].
        destruct (boot_retries c1 s s1 _ k V B (fun e => KD (eq_sym e))) as (_ & R1 & _).
        apply (IH I s1 V1); [rewrite R1; exact R|exact H].
    - destruct I as [->|I]; [contradiction|].
      unfold boot_component in B. rewrite (proj2 (String.eqb_neq _ _) D1) in B. cbn [negb] in B. injection B as <-.
      exact (IH I s V R H).
  Qed.

  (** A component that the driver's code cannot make is not registered. *)
  Lemma boot_fails c s s' r : 
    let k := (Some (dc_address c), Some (dc_channel c)) in
    (forall n, h_make h n k <> Ok tt) -> kget (i_devmap s) k = None ->
    boot_component h driver c s = (s', r) -> kget (i_devmap s') k = None.
  Proof.
    intros k M K H. unfold boot_component in H.
    destruct (negb (String.eqb (dc_driver c) driver)); [injection H as <- _; exact K|]. fold k in H.
    unfold mbind at 1, mget at 1 in H. rewrite K in H.
    destruct (match i_ver s with V20 => false | V21 => _ end); [injection H as <- _; exact K|].
    unfold mbind at 1, mput at 1 in H. unfold mbind at 1 in H.
    destruct (cmp_register h (mkRp None (Some (dc_address c)) (Some (dc_channel c)) None None None None None)
                (note (EvRegister true k) s)) as [s1 r1] eqn:G.
    assert (E : s1 = s') by (destruct r1; unfold ret in H; injection H as ->; reflexivity). subst s1.
    unfold cmp_register, log_errors in G. cbn [rp_address rp_channel rp_key need_arg is_some] in G.
    unfold mbind at 1 2 3, ret at 1 2, twice in G. cbn [i_ver note] in G.
    unfold mbind, call, mget, mput in G. fold k in G.
    match type of G with context [h_make h ?n k] => specialize (M n); destruct (h_make h n k) as [[]|e] end; [now destruct M|].
    destruct (i_ver s); destruct e; injection G as <- _; exact K.
  Qed.
  Lemma bootstrap_fails : forall l s k s' r, (forall n, h_make h n k <> Ok tt) -> kget (i_devmap s) k = None ->
    i_ver s = V21 -> bootstrap h driver l s = (s', r) -> kget (i_devmap s') k = None.
  Proof.
    induction l as [|c1 l IH]; intros s k s' r M K V H; [injection H as <- _; exact K|].
    unfold bootstrap in H. cbn [mfor] in H. unfold mbind in H.
    destruct (boot_total h W driver c1 s V) as (s1 & B & V1). rewrite B in H.
    apply (IH s1 k s' r M); [|exact V1|exact H].
    assert (KD : {(Some (dc_address c1), Some (dc_channel c1)) = k} + {(Some (dc_address c1), Some (dc_channel c1)) <> k})
        by (repeat decide equality).
    destruct KD as [KD|KD].
    - subst k. exact (boot_fails c1 s s1 _ M K B).
    - destruct (boot_retries c1 s s1 _ k V B (fun e => KD (eq_sym e))) as (E & _). rewrite E. exact K.
  Qed.
End Boot.

(** The check of a driver without components: the question, then the request to register. *)
Lemma check_registers d p t w x : status_from w p x -> known x = [] ->
  exists r w', run exec (drv_checked d p t) w = (r, w') /\
    w_log w' = (EvRequest p CRegister :: EvRequest p CStatus :: w_log w)%list.
Proof.
  intros [i S] N. rewrite reply_status, N in S. cbn [List.length] in S.
  destruct (run exec (drv_checked d p t) w) as [r w'] eqn:H. exists r, w'. split; [reflexivity|].
  unfold drv_checked in H. rewrite run_bind, run_catch in H. unfold drv_check, act in H.
  rewrite run_bind, run_do in H. cbn [exec ask] in H. rewrite S in H.
  cbn [World.dr_ok World.dr_data] in H.
  rewrite run_bind, run_bind, run_lift in H. cbn [data_len Z.of_nat Z.eqb] in H.
  rewrite run_bind, run_do in H. cbn [exec ask add_event w_driver] in H.
  assert (G : forall cs w1 r1 w2, run exec (update_drv (dv_name d) cs;;; Ret tt)%prog w1 = (r1, w2) -> w_log w2 = w_log w1).
  { intros cs w1 r1 w2 E. rewrite run_bind in E. unfold update_drv, act in E. rewrite run_bind, run_do in E.
    cbn [exec] in E. destruct (PyStr.sql_lit (dv_name d)); cbn in E; injection E as _ <-; reflexivity. }
  destruct (w_driver w p CRegister); cbn [run] in H; rewrite (G _ _ _ _ H); reflexivity.
Qed.

(** What a process does with these two requests. *)
Lemma deal_register i x : deal i 0 x [CStatus; CRegister] =
  mkProcess (pr_hw x) (pr_name x) (fst (bootstrap (pr_hw x) (pr_name x) (ti_comps (i 1%nat)) (pr_iface x))).
Proof.
  destruct x as [h dn s]. cbn [deal pr_hw pr_name pr_iface].
  destruct (status_keeps h dn (i 0%nat) s) as [r ->]. cbn [fst]. f_equal.
  unfold handle, message. cbn [rq_cmd rq_params]. cbn [String.eqb Ascii.eqb Bool.eqb].
  unfold mbind at 1. destruct (bootstrap h dn (ti_comps (i 1%nat)) s) as [s1 [[]|e]]; [|reflexivity].
  unfold mbind, mget. destruct (i_ver s1); reflexivity.
Qed.
