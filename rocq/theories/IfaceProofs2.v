(** * IfaceProofs2: unknown components, bad requests and idle measurements *)
From Coq Require Import List String ZArith Bool Lia.
From Verif Require Import Base BaseFacts Types AttrModel IfaceModel SpecIface IfaceProofs.
Import ListNotations.
Open Scope string_scope.
Open Scope Z_scope.

(** ** Unknown components *)

Lemma unknown_wrapped : forall f p s,
  i_ver s = V21 ->
  kget (i_devmap s) (match rp_key p with Some k => k | None => (rp_address p, rp_channel p) end) = None ->
  log_errors (in_devmap f p) s = (s, Ok (mkReply false RNone)).
Proof. intros f p s V K. unfold log_errors, in_devmap. rewrite K, V. reflexivity. Qed.

Lemma unknown_method : forall h name p s,
  i_ver s = V21 ->
  kget (i_devmap s) (match rp_key p with Some k => k | None => (rp_address p, rp_channel p) end) = None ->
  component_method h name p s = (s, Ok (mkReply false RNone)).
Proof.
  intros h name p s V K. unfold component_method. rewrite V. unfold method21.
  repeat match goal with |- context [if ?c then _ else _] => destruct c end;
  apply unknown_wrapped; assumption.
Qed.

(** In 2.0 the refusal cannot be sent, or fails itself. *)
Lemma unknown_method20 : forall h name p s,
  i_ver s = V20 ->
  kget (i_devmap s) (match rp_key p with Some k => k | None => (rp_address p, rp_channel p) end) = None ->
  component_method h name p s =
    (s, match rp_key p with Some _ => Err SystemExit | None => Ok (mkReply false RView) end).
Proof.
  intros h name p s V K.
  assert (W : forall f, log_errors (in_devmap f p) s =
    (s, match rp_key p with Some _ => Err SystemExit | None => Ok (mkReply false RView) end)).
  { intros f. unfold log_errors, in_devmap. rewrite K, V. destruct (rp_key p); reflexivity. }
  unfold component_method. rewrite V. unfold method20.
  repeat match goal with |- context [if ?c then _ else _] => destruct c end; apply W.
Qed.

Lemma component_dispatch : forall h driver i q name s, rq_cmd q = Some name ->
  In name component_methods ->
  handle h driver i q s =
    match component_method h name (match rq_params q with Some p => p | None => no_params end) s with
    | (s', Err ValueError) | (s', Err AttributeError) => (s', Ok (mkReply false RNone))
    | other => other
    end.
Proof.
  intros h driver i q name s C I. unfold handle. rewrite C.
  assert (M : mem name component_methods = true) by (apply mem_In; exact I).
  assert (N : forall x, mem x component_methods = false -> String.eqb name x = false).
  { intros x X. apply String.eqb_neq. intros ->. congruence. }
  rewrite (N "register"), (N "stop"), (N "settings"), (N "cmp_register") by reflexivity.
  unfold mbind, mget. unfold has_attribute. rewrite M. cbn [orb].
  unfold call_attribute. rewrite M. reflexivity.
Qed.

Lemma unknown_refused : forall h driver i q name s,
  i_ver s = V21 -> rq_cmd q = Some name -> In name component_methods ->
  ~ registered s (target q) ->
  handle h driver i q s = (s, Ok (mkReply false RNone)).
Proof.
  intros h driver i q name s V C I N.
  rewrite (component_dispatch _ _ _ _ _ _ C I). rewrite unknown_method; [reflexivity|exact V|].
  apply kget_registered. unfold target in N. destruct (rq_params q); exact N.
Qed.

(** ** The idle part of a turn *)

Lemma device_at_some : forall k s d, kget (i_devmap s) k = Some d -> device_at k s = (s, Ok d).
Proof. intros k s d H. unfold device_at. rewrite H. reflexivity. Qed.

Definition has_keys (l : list key) (s : iface) : Prop :=
  i_ver s = V21 /\ forall k, In k l -> kget (i_devmap s) k <> None.

Lemma measure_ok : forall h l k s, plain_measure h -> has_keys l s -> In k l ->
  exists s' r, component_method h "cmp_measure" (with_key k) s = (s', Ok r) /\ has_keys l s'.
Proof.
  intros h l k s PM [V HK] I. unfold component_method. rewrite V.
  change (method21 h "cmp_measure" (with_key k)) with (cmp_measure h (with_key k)).
  unfold cmp_measure, log_errors, in_devmap. cbn [rp_key with_key].
  destruct (kget (i_devmap s) k) as [d|] eqn:K; [|exfalso; apply (HK k I); exact K].
  unfold mbind, call. rewrite PM.
  assert (K1 : device_at k (count_call s) = (count_call s, Ok d)) by (apply device_at_some; exact K).
  rewrite K1.
  destruct (v_running d); [|destruct (v_tasks d)].
  - eexists _, _. split; [reflexivity|]. split; [exact V|exact HK].
  - eexists _, _. split; [reflexivity|]. split; [exact V|].
    intros k' I'. unfold mput, set_devmap. cbn [i_devmap count_call]. rewrite K. rewrite kget_kset.
    destruct (key_eqb k' k); [discriminate|apply HK; exact I'].
  - eexists _, _. split; [reflexivity|]. split; [exact V|exact HK].
Qed.

Lemma measures_ok : forall h l0 l s, plain_measure h -> has_keys l0 s -> incl l l0 ->
  exists s', mfor l (fun k => mbind (component_method h "cmp_measure" (with_key k)) (fun _ => ret tt)) s
             = (s', Ok tt) /\ has_keys l0 s'.
Proof.
  intros h l0. induction l as [|k l IH]; intros s PM HK IN.
  - exists s. split; [reflexivity|exact HK].
  - destruct (measure_ok h l0 k s PM HK (IN k (or_introl eq_refl))) as (s1 & r & E & HK1).
    destruct (IH s1 PM HK1) as (s2 & E2 & HK2); [intros x X; apply IN; right; exact X|].
    exists s2. split; [|exact HK2]. cbn. unfold mbind in *. rewrite E. cbn. exact E2.
Qed.

Lemma keys_known : forall A (d : list (key * A)) k, In k (map fst d) -> kget d k <> None.
Proof.
  induction d as [|[k0 a] r IH]; intros k I; [destruct I|]. cbn in *.
  destruct (key_eqb k k0) eqn:E; [discriminate|]. destruct I as [<-|I].
  - rewrite key_eqb_refl in E. discriminate.
  - apply IH. exact I.
Qed.

Lemma idle_ok : forall h now last s, plain_measure h -> i_ver s = V21 ->
  exists s' t, idle_measurements h now last s = (s', Ok t).
Proof.
  intros h now last s PM V. unfold idle_measurements. unfold mbind at 1, mget.
  destruct (interval_of s) as [d|]; [|eexists _, _; reflexivity].
  destruct (match last with Some t => _ | None => false end); [eexists _, _; reflexivity|].
  unfold mbind at 1, mput.
  assert (HK : has_keys (map fst (i_devmap s)) (note (EvRound now) s)).
  { split; [exact V|]. intros k I. apply (keys_known _ (i_devmap s)). exact I. }
  destruct (measures_ok h _ (map fst (i_devmap s)) _ PM HK (fun x X => X)) as (s' & E & _).
  exists s', (Some now). unfold mbind at 1. rewrite E. reflexivity.
Qed.

Lemma idle_serves : forall h i p, plain_measure h -> i_ver (dp_iface p) = V21 ->
  snd (idle_turn h i p) = DServing.
Proof.
  intros h i p PM V. unfold idle_turn.
  destruct (idle_ok h (ti_clock i) (dp_last p) (dp_iface p) PM V) as (s' & t & ->). reflexivity.
Qed.

(** ** Bad requests *)

Lemma senseless_reply : forall h driver i q s, senseless h (i_ver s) q ->
  exists d, handle h driver i q s = (s, Ok (mkReply false d)) /\ (d = RNone \/ d = ROther).
Proof.
  intros h driver i q s [N|(c & C & A & NI)]; unfold handle.
  - rewrite N. exists ROther. split; [reflexivity|right; reflexivity].
  - rewrite C. exists RNone. split; [|left; reflexivity].
    assert (E : forall x, In x ["register"; "stop"; "settings"; "cmp_register"] -> String.eqb c x = false).
    { intros x X. apply String.eqb_neq. intros ->. contradiction. }
    rewrite !E by (cbn; tauto). unfold mbind, mget. rewrite A. reflexivity.
Qed.

Lemma value_error_reply : forall h driver i q s, raises_value_error h s q ->
  exists s', handle h driver i q s = (s', Ok (mkReply false RNone)) /\ i_ver s' = i_ver s.
Proof.
  intros h driver i q s (c & p & s' & e & C & A & NI & -> & CA & E). exists s'. split.
  - unfold handle. rewrite C.
    assert (X : forall x, In x ["register"; "stop"; "settings"; "cmp_register"] -> String.eqb c x = false).
    { intros x X. apply String.eqb_neq. intros ->. contradiction. }
    rewrite !X by (cbn; tauto). unfold mbind, mget. rewrite A, CA.
    destruct E as [-> | ->]; reflexivity.
  - destruct (call_quiet _ _ _ _ _ _ CA) as [V _]. exact V.
Qed.

(** A failure reply that can be sent, to a request other than stop, is sent and the
    driver goes on to the idle part of the turn. *)
Lemma failure_serves : forall h driver i q p s d,
  plain_measure h -> ti_req i = Some q -> rq_cmd q <> Some "stop" ->
  handle h driver i q (dp_iface p) = (s, Ok (mkReply false d)) -> d <> RView -> i_ver s = V21 ->
  exists p', main_turn h driver p i = (p', Some (mkReply false d), DServing).
Proof.
  intros h driver i q p s d PM RQ NS H NV V. unfold main_turn. rewrite RQ, H.
  assert (P : picklable (mkReply false d) = true) by (destruct d; try reflexivity; congruence).
  rewrite P. cbn [negb].
  assert (S : (match rq_cmd q with Some c => String.eqb c "stop" | None => false end) = false).
  { destruct (rq_cmd q) as [c|]; [|reflexivity]. apply String.eqb_neq. congruence. }
  rewrite S. pose proof (idle_serves h i (mkProc s (dp_last p)) PM V) as F.
  destruct (idle_turn h i (mkProc s (dp_last p))) as [p' f]. cbn in F. subst f.
  exists p'. reflexivity.
Qed.

Lemma main_turn_survives : forall h driver i q p,
  plain_measure h -> i_ver (dp_iface p) = V21 -> ti_req i = Some q ->
  senseless h V21 q \/ raises_value_error h (dp_iface p) q ->
  exists p' d, main_turn h driver p i = (p', Some (mkReply false d), DServing).
Proof.
  intros h driver i q p PM V RQ [S|R].
  - rewrite <- V in S. destruct (senseless_reply h driver i q (dp_iface p) S) as (d & E & D).
    assert (NS : rq_cmd q <> Some "stop").
    { intros X. destruct S as [N|(c & C & _ & NI)]; [congruence|]. apply NI. cbn. rewrite C in X.
      injection X as ->. tauto. }
    assert (NV : d <> RView) by (destruct D; subst; discriminate).
    destruct (failure_serves h driver i q p _ d PM RQ NS E NV V) as (p' & T).
    exists p', d. exact T.
  - destruct (value_error_reply h driver i q (dp_iface p) R) as (s' & E & V').
    assert (NS : rq_cmd q <> Some "stop").
    { intros X. destruct R as (c & p0 & s0 & e & C & _ & NI & _). apply NI. rewrite C in X.
      injection X as ->. cbn. tauto. }
    destruct (failure_serves h driver i q p _ RNone PM RQ NS E ltac:(discriminate) ltac:(congruence)) as (p' & T).
    exists p', RNone. exact T.
Qed.

Lemma bad_request_survives : forall h driver i q p,
  plain_measure h -> i_ver (dp_iface p) = V21 -> ti_req i = Some q ->
  senseless h V21 q \/ raises_value_error h (worked (ti_work i) (dp_iface p)) q ->
  exists p' d, dturn h driver p i = (p', Some (mkReply false d), DServing).
Proof. intros h driver i q p PM V RQ S. unfold dturn. apply (main_turn_survives h driver i q); assumption. Qed.

(** A 2.0 driver does not survive the request to register its components. *)
Lemma main_register20_dies : forall h driver i p a p' f,
  i_ver (dp_iface p) = V20 -> asks "register" i ->
  main_turn h driver p i = (p', a, f) -> a = None /\ f <> DServing /\ f <> DLeft.
Proof.
  intros h driver i p a p' f V (q & RQ & C) H. unfold main_turn in H. rewrite RQ in H.
  assert (B : forall l s s' u, i_ver s = V20 -> bootstrap h driver l s = (s', Ok u) -> i_ver s' = V20).
  { unfold bootstrap. induction l as [|c l IH]; intros s s' u Vs E.
    - injection E as <- _. exact Vs.
    - cbn in E. unfold mbind in E. destruct (boot_component h driver c s) as [s1 [x|e]] eqn:BC; [|discriminate].
      refine (IH _ _ _ _ E). unfold boot_component in BC.
      destruct (negb _); [injection BC as <- _; exact Vs|].
      unfold mbind, mget, mput in BC. destruct (kget _ _); [injection BC as <- _; exact Vs|].
      rewrite Vs in BC.
      match type of BC with context [cmp_register h ?pp ?s0] => destruct (cmp_register h pp s0) as [s2 rr] eqn:R end.
      apply register_cases in R as (R & _).
      destruct rr; [|discriminate]. injection BC as <- _. rewrite R. exact Vs. }
  unfold handle in H. rewrite C in H.
  change (String.eqb "register" "register") with true in H. cbv iota in H.
  unfold mbind at 1 in H. destruct (bootstrap h driver (ti_comps i) (dp_iface p)) as [s1 [u|e]] eqn:E.
  - pose proof (B _ _ _ _ V E) as V1. unfold mbind, mget in H. cbv beta iota in H. rewrite V1 in H.
    cbn in H. injection H as <- <- <-. split; [reflexivity|]. split; discriminate.
  - injection H as <- <- <-. split; [reflexivity|]. unfold fate_of. destruct e; split; discriminate.
Qed.

Lemma register20_dies : forall h driver i p a p' f,
  i_ver (dp_iface p) = V20 -> asks "register" i ->
  dturn h driver p i = (p', a, f) -> a = None /\ f <> DServing /\ f <> DLeft.
Proof.
  intros h driver i p a p' f V A H. refine (main_register20_dies h driver i _ a p' f _ A H). exact V.
Qed.

(** ** Idle measurements *)

Fixpoint last_of (l : list Z) : option Z :=
  match l with [] => None | [a] => Some a | _ :: r => last_of r end.

Lemma last_of_app : forall l t, last_of (l ++ [t]) = Some t.
Proof.
  induction l as [|a l IH]; intros t; [reflexivity|].
  cbn. specialize (IH t). destruct (l ++ [t])%list eqn:E; [destruct l; discriminate|exact IH].
Qed.

Lemma spaced_app : forall d l t, spaced d l ->
  (forall u, last_of l = Some u -> d <= t - u) -> spaced d (l ++ [t]).
Proof.
  induction l as [|a l IH]; intros t S L; [exact I|].
  destruct l as [|b l].
  - cbn. split; [apply L; reflexivity|exact I].
  - destruct S as [S1 S2]. cbn [app]. split; [exact S1|]. apply IH; [exact S2|].
    intros u U. apply L. exact U.
Qed.

(** [t_last] is the time of the last round, and the rounds are spaced. *)
Definition timed (d : option Z) (p : dproc) : Prop :=
  interval_of (dp_iface p) = d /\
  match d with
  | None => rounds (dp_iface p) = []
  | Some x => spaced x (rounds (dp_iface p)) /\ dp_last p = last_of (rounds (dp_iface p))
  end.

Lemma no_round_timed : forall d s s' t, no_round s s' -> timed d (mkProc s t) -> timed d (mkProc s' t).
Proof.
  intros d s s' t (_ & A & B & C) [I T]. unfold timed in *. cbn in *. split.
  - rewrite <- I. unfold interval_of. rewrite A, B. reflexivity.
  - rewrite C. exact T.
Qed.

Lemma measures_no_round : forall h l, frame no_round
  (mfor l (fun k => mbind (component_method h "cmp_measure" (with_key k)) (fun _ => ret tt))).
Proof.
  intros h l. apply frame_mfor; [apply no_round_refl|apply no_round_trans|]. intros k.
  apply frame_bind; [apply no_round_trans|apply component_no_round|].
  intros _. apply frame_ret. apply no_round_refl.
Qed.

(** Without an overridden cmp_measure, an error in a round ends the process. *)
Definition fatal (e : exn) : Prop := e = SystemExit \/ e = Blocked.

Lemma measure20_fatal : forall h p s s' e, i_ver s = V20 ->
  component_method h "cmp_measure" p s = (s', Err e) -> fatal e.
Proof.
  intros h p s s' e V H. unfold component_method in H. rewrite V in H.
  change (method20 h "cmp_measure" p) with (cmp_measure20 h p) in H. unfold cmp_measure20 in H.
  unfold log_errors in H. rewrite V in H. destruct (in_devmap _ p s) as [s1 [x|x]].
  - discriminate.
  - destruct x; injection H as _ <-; unfold fatal; tauto.
Qed.

Lemma measures20_fatal : forall h l s s' e, i_ver s = V20 ->
  mfor l (fun k => mbind (component_method h "cmp_measure" (with_key k)) (fun _ => ret tt)) s = (s', Err e) ->
  fatal e.
Proof.
  intros h. induction l as [|k l IH]; intros s s' e V H; [discriminate|].
  cbn in H. unfold mbind in H.
  destruct (component_method h "cmp_measure" (with_key k) s) as [s1 [r|x]] eqn:E.
  - cbn in H. apply (IH _ _ _ ltac:(rewrite (proj1 (component_no_round _ _ _ _ _ _ E)); exact V) H).
  - injection H as _ <-. exact (measure20_fatal _ _ _ _ _ V E).
Qed.

Lemma idle_timed : forall h d i p p' f,
  (i_ver (dp_iface p) = V21 -> plain_measure h) -> timed d p ->
  idle_turn h i p = (p', f) ->
  i_ver (dp_iface p') = i_ver (dp_iface p) /\
  (match d with None => rounds (dp_iface p') = [] | Some x => spaced x (rounds (dp_iface p')) end) /\
  (f = DServing -> timed d p').
Proof.
  intros h d i [s last] p' f PM [I T] H. cbn in *. unfold idle_turn in H. cbn [dp_iface dp_last] in H.
  destruct (idle_measurements h (ti_clock i) last s) as [s1 r] eqn:E.
  unfold idle_measurements in E. unfold mbind at 1, mget in E. rewrite I in E.
  destruct d as [d|].
  2:{ injection E as <- <-. injection H as <- <-. cbn. split; [reflexivity|]. split; [exact T|].
      intros _. split; [exact I|exact T]. }
  destruct T as [S L].
  destruct (match last with Some t => ti_clock i - t <? d | None => false end) eqn:C.
  { injection E as <- <-. injection H as <- <-. cbn. split; [reflexivity|]. split; [exact S|].
    intros _. split; [exact I|split; [exact S|exact L]]. }
  unfold mbind at 1, mput in E.
  unfold mbind at 1 in E.
  destruct (mfor _ _ (note (EvRound (ti_clock i)) s)) as [s2 rr] eqn:F.
  pose proof (measures_no_round _ _ _ _ _ F) as (NV & NI & NC & NR).
  rewrite rounds_note in NR.
  assert (E' : s1 = s2 /\ r = match rr with Ok _ => Ok (Some (ti_clock i)) | Err e => Err e end).
  { destruct rr; injection E as <- <-; split; reflexivity. }
  destruct E' as [-> ->]. clear E.
  assert (S' : spaced d (rounds s2)).
  { rewrite NR. apply spaced_app; [exact S|]. intros u U. rewrite L, U in C.
    apply Z.ltb_ge in C. exact C. }
  assert (P' : dp_iface p' = s2) by (destruct rr as [?|[]]; injection H as <- _; reflexivity).
  rewrite P'. split; [exact NV|]. split; [exact S'|]. intros ->.
  destruct rr as [u|e].
  - injection H as <-. split.
    + cbn. rewrite <- I. unfold interval_of. rewrite NI, NC. reflexivity.
    + cbn. split; [exact S'|]. rewrite NR. symmetry. apply last_of_app.
  - exfalso. destruct (i_ver s) eqn:V.
    + assert (FE : fatal e) by (refine (measures20_fatal _ _ (note (EvRound (ti_clock i)) s) _ _ _ F); exact V).
      destruct FE as [-> | ->]; discriminate.
    + assert (HK : has_keys (map fst (i_devmap s)) (note (EvRound (ti_clock i)) s)).
      { split; [exact V|]. intros k IN. apply (keys_known _ (i_devmap s)). exact IN. }
      destruct (measures_ok h _ (map fst (i_devmap s)) _ (PM eq_refl) HK (fun x X => X)) as (s' & EE & _).
      cbv beta in F. rewrite EE in F. discriminate.
Qed.

Lemma boot_no_round : forall h driver c, frame no_round (boot_component h driver c).
Proof.
  intros h driver c s s' r H. unfold boot_component in H.
  destruct (negb _); [injection H as <- _; apply no_round_refl|].
  unfold mbind, mget, mput in H. destruct (kget _ _); [injection H as <- _; apply no_round_refl|].
  destruct (match i_ver s with V20 => false | V21 => _ end); [injection H as <- _; apply no_round_refl|].
  match type of H with context [cmp_register h ?pp ?s0] => destruct (cmp_register h pp s0) as [s2 rr] eqn:R end.
  assert (s2 = s') by (destruct rr; injection H as <- _; reflexivity). subst s2.
  apply register_cases in R as (R1 & R2 & R3 & _ & R5).
  split; [exact R1|]. split; [exact R2|]. split; [exact R3|].
  assert (RN : rounds (note (EvRegister true (Some (dc_address c), Some (dc_channel c))) s) = rounds s)
    by (rewrite rounds_note, app_nil_r; reflexivity).
  rewrite <- RN. unfold rounds at 1.
  destruct rr as [rep|e].
  - destruct R5 as [(_ & L & _)|(_ & L & _)]; rewrite L; [|reflexivity].
    rewrite flat_map_app. cbn [flat_map app]. rewrite app_nil_r. reflexivity.
  - rewrite R5. reflexivity.
Qed.

Lemma handle_no_round : forall h driver i q s s' r,
  handle h driver i q s = (s', r) -> rq_cmd q <> Some "settings" -> no_round s s'.
Proof.
  intros h driver i q s s' r H NS. unfold handle in H.
  destruct (rq_cmd q) as [cmd|]; [|injection H as <- _; apply no_round_refl].
  destruct (String.eqb cmd "register").
  { unfold mbind at 1 in H. destruct (bootstrap h driver (ti_comps i) s) as [s1 rr] eqn:B.
    assert (N : no_round s s1).
    { revert B. unfold bootstrap. apply (frame_mfor no_round no_round_refl no_round_trans).
      intros c. apply boot_no_round. }
    destruct rr; [|injection H as <- _; exact N].
    unfold mbind, mget in H. destruct (i_ver s1); injection H as <- _; exact N. }
  destruct (String.eqb cmd "stop"); [injection H as <- _; apply no_round_refl|].
  destruct (String.eqb cmd "settings") eqn:ES.
  { apply String.eqb_eq in ES. congruence. }
  destruct (String.eqb cmd "cmp_register").
  { destruct (rq_params q) as [p|]; [|injection H as <- _; apply no_round_refl].
    unfold manual_register, mbind, mput in H.
    destruct (cmp_register h p _) as [s1 rr] eqn:R.
    assert (s1 = s').
    { destruct rr as [rep|]; [|injection H as <- _; reflexivity].
      destruct (dr_ok rep); [|injection H as <- _; reflexivity].
      destruct (ti_answer i); injection H as <- _; reflexivity. }
    subst s1. apply register_cases in R as (R1 & R2 & R3 & _ & R5).
    split; [exact R1|]. split; [exact R2|]. split; [exact R3|].
    transitivity (rounds (note (EvRegister false (rp_address p, rp_channel p)) s));
      [|rewrite rounds_note, app_nil_r; reflexivity].
    unfold rounds at 1. destruct rr as [rep|e].
    - destruct R5 as [(_ & L & _)|(_ & L & _)]; rewrite L; [|reflexivity].
      rewrite flat_map_app. cbn [flat_map app]. rewrite app_nil_r. reflexivity.
    - rewrite R5. reflexivity. }
  unfold mbind, mget in H. destruct (has_attribute h (i_ver s) cmd);
    [|injection H as <- _; apply no_round_refl].
  destruct (call_attribute h cmd _ s) as [s1 r1] eqn:CA.
  assert (s1 = s') by (destruct r1 as [x|[]]; injection H as <- _; reflexivity). subst s1.
  exact (call_no_round _ _ _ _ _ _ CA).
Qed.

Definition rounds_ok (d : option Z) (s : iface) : Prop :=
  match d with None => rounds s = [] | Some x => spaced x (rounds s) end.

Lemma timed_ok : forall d p, timed d p -> rounds_ok d (dp_iface p).
Proof. intros [x|] p [_ T]; [exact (proj1 T)|exact T]. Qed.

Lemma main_turn_timed : forall h driver d p i p' a f,
  (i_ver (dp_iface p) = V21 -> plain_measure h) -> ~ asks "settings" i ->
  timed d p -> main_turn h driver p i = (p', a, f) ->
  rounds_ok d (dp_iface p') /\
  (f = DServing -> timed d p' /\ i_ver (dp_iface p') = i_ver (dp_iface p)).
Proof.
  intros h driver d p i p' a f PM NS T H. unfold main_turn in H.
  destruct (ti_req i) as [q|] eqn:RQ.
  - assert (NSq : rq_cmd q <> Some "settings") by (intros C; apply NS; exists q; split; assumption).
    destruct (handle h driver i q (dp_iface p)) as [s r] eqn:HD.
    pose proof (handle_no_round _ _ _ _ _ _ _ HD NSq) as N.
    assert (T1 : timed d (mkProc s (dp_last p))).
    { apply (no_round_timed d (dp_iface p)); [exact N|]. destruct p; exact T. }
    pose proof (timed_ok _ _ T1) as O1. cbn [dp_iface] in O1.
    destruct r as [rep|e].
    + destruct (negb (picklable rep)); [injection H as <- _ <-; split; [exact O1|discriminate]|].
      destruct (match rq_cmd q with Some c => _ | None => false end);
        [injection H as <- _ <-; split; [exact O1|discriminate]|].
      destruct (idle_turn h i (mkProc s (dp_last p))) as [p2 f2] eqn:IT.
      injection H as <- _ <-.
      assert (V : i_ver s = i_ver (dp_iface p)) by (destruct N as [N _]; exact N).
      assert (PM1 : i_ver (dp_iface (mkProc s (dp_last p))) = V21 -> plain_measure h) by (cbn; rewrite V; exact PM); destruct (idle_timed h d i _ _ _ PM1 T1 IT) as (V2 & O2 & T2).
      split; [exact O2|]. intros F. split; [exact (T2 F)|]. rewrite V2. exact V.
    + injection H as <- _ <-. split; [exact O1|]. unfold fate_of. destruct e; discriminate.
  - destruct (idle_turn h i p) as [p2 f2] eqn:IT. injection H as <- _ <-.
    destruct (idle_timed h d i _ _ _ PM T IT) as (V2 & O2 & T2).
    split; [exact O2|]. intros F. split; [exact (T2 F)|exact V2].
Qed.

Lemma dturn_timed : forall h driver d p i p' a f,
  (i_ver (dp_iface p) = V21 -> plain_measure h) -> ~ asks "settings" i ->
  timed d p -> dturn h driver p i = (p', a, f) ->
  rounds_ok d (dp_iface p') /\
  (f = DServing -> timed d p' /\ i_ver (dp_iface p') = i_ver (dp_iface p)).
Proof.
  intros h driver d p i p' a f PM NS T H.
  refine (main_turn_timed h driver d _ i p' a f _ NS _ H); [exact PM|].
  apply (no_round_timed d (dp_iface p)); [repeat split|]. destruct p. exact T.
Qed.

Lemma dturns_timed : forall h driver d l p p' a f,
  (i_ver (dp_iface p) = V21 -> plain_measure h) ->
  (forall i, In i l -> ~ asks "settings" i) ->
  timed d p -> dturns h driver p l = (p', a, f) -> rounds_ok d (dp_iface p').
Proof.
  intros h driver d. induction l as [|i l IH]; intros p p' a f PM NS T H.
  - injection H as <- _ _. apply timed_ok. exact T.
  - cbn in H. destruct (dturn h driver p i) as [[p1 a1] f1] eqn:D.
    destruct (dturn_timed _ _ _ _ _ _ _ _ PM (NS i (or_introl eq_refl)) T D) as [O1 T1].
    destruct f1; try (injection H as <- _ _; exact O1).
    destruct (dturns h driver p1 l) as [[p2 a2] f2] eqn:R. injection H as <- _ _.
    destruct (T1 eq_refl) as [T2 V2].
    assert (PM1 : i_ver (dp_iface p1) = V21 -> plain_measure h) by (rewrite V2; exact PM); exact (IH _ _ _ _ PM1 (fun j J => NS j (or_intror J)) T2 R).
Qed.

Lemma new_timed : forall v imi c, timed (match imi with Some x => x | None => c end) (new_proc v imi c).
Proof.
  intros v imi c. split; [reflexivity|].
  destruct (match imi with Some x => x | None => c end); [split; [exact I|reflexivity]|reflexivity].
Qed.
