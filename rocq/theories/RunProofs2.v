(** * RunProofs2: nothing measured is lost without stops (C93) *)
From Coq Require Import List String ZArith Bool Lia Arith.
From Verif Require Import Base Types Prog ProgFacts JobThreadModel DeviceModel SpecDevice DeviceProofs DeviceProofs2
  RunModel SpecRun RunProofs.
Import ListNotations.
Open Scope prog_scope.
Open Scope Z_scope.

(** Where the worker is with its task: nothing under way; sent; seen to run; seen to be
    over. *)
Inductive phase : Type := PIdle | PSent | PSeen | POver.
Definition next (ph : phase) (o : jop) (r : res (jresp o)) : phase :=
  match o as o' return res (jresp o') -> phase with
  | JSend _ => fun r => match r with Ok (BAnswer true) => PSent | _ => ph end
  | JStatus => fun r =>
      match r, ph with
      | Ok (SState _ true (Some true)), PSent => PSeen
      | Ok (SState _ false _), PSeen => POver
      | _, _ => ph
      end
  | JData => fun r => match ph with POver => PIdle | _ => ph end
  | _ => fun _ => ph
  end r.
Definition legal (ph : phase) (cur : option task) (o : jop) : Prop :=
  match o with
  | JCurrent _ => ph = PIdle
  | JSend t => ph = PIdle /\ cur = Some t
  | JData => ph = PSeen \/ ph = POver
  | JStop => False
  | JReset => ph = PIdle
  | _ => True
  end.
Definition plausible (ph : phase) (o : jop) (r : res (jresp o)) : Prop :=
  match o as o' return res (jresp o') -> Prop with
  | JStatus => fun r =>
      match r with
      | Ok (SState true b c) =>
          match ph with
          | PIdle | POver => b = false
          | PSent | PSeen => b = true -> c = Some true
          end
      | _ => False
      end
  | JSend _ => fun r => exists b, r = Ok (BAnswer b)
  | JData => fun r => exists l, r = Ok (data_answer l)
  | JReset => fun r => r = Ok (BAnswer true)
  | _ => fun r => exists a, r = Ok a
  end r.
Definition cur_after (cur : option task) (o : jop) : option task :=
  match o with JCurrent t => t | _ => cur end.

Fixpoint fits {A : Type} (Q : phase -> option task -> A -> Prop) (ph : phase) (cur : option task) (p : jpgm A) : Prop :=
  match p with
  | Ret a => Q ph cur a
  | Raise e => e = AttributeError -> ph = PIdle
  | Op o k => legal ph cur o /\ forall r, plausible ph o r -> fits Q (next ph o r) (cur_after cur o) (k r)
  end.
Lemma fits_bind {A B} (p : jpgm A) (f : A -> jpgm B) Q' : forall Q ph cur,
  fits Q ph cur p -> (forall ph cur a, Q ph cur a -> fits Q' ph cur (f a)) -> fits Q' ph cur (bind p f).
Proof.
  induction p as [a|e|o k IH]; intros Q ph cur H Hf; cbn in *; auto.
  destruct H as [H1 H2]. split; [exact H1|]. intros r Hr. eapply IH; eauto.
Qed.
Lemma fits_weaken {A} (p : jpgm A) : forall (Q Q' : _ -> _ -> A -> Prop) ph cur,
  fits Q ph cur p -> (forall ph cur a, Q ph cur a -> Q' ph cur a) -> fits Q' ph cur p.
Proof.
  induction p as [a|e|o k IH]; intros Q Q' ph cur H Hf; cbn in *; auto.
  destruct H as [H1 H2]. split; [exact H1|]. intros r Hr. eapply IH; eauto.
Qed.
(** An operation followed by the rest. *)
Lemma fits_act {A} o (f : jresp o -> jpgm A) Q ph cur : legal ph cur o ->
  (forall a, plausible ph o (Ok a) -> fits Q (next ph o (Ok a)) (cur_after cur o) (f a)) ->
  fits Q ph cur (bind (jact o) f).
Proof.
  intros Hl Hf. cbn. split; [exact Hl|]. intros [a|e] Hr; cbn.
  - apply Hf. exact Hr.
  - exfalso. destruct o; cbn in Hr; try contradiction; first [discriminate Hr | destruct Hr as [? Hr]; discriminate Hr].
Qed.
Definition stays {A : Type} (ph : phase) (cur : option task) : phase -> option task -> A -> Prop :=
  fun ph' cur' _ => ph' = ph /\ cur' = cur.

Lemma fits_crash {A} Q ph cur : fits Q ph cur (crash : jpgm A).
Proof. unfold crash. apply fits_act; [exact I|]. intros. cbn. discriminate. Qed.
Lemma fits_start f t ph cur : fits (stays ph cur) ph cur (wait_start f t).
Proof.
  induction f as [|f IH]; cbn [wait_start]; destruct (t_start_with t); try (split; reflexivity); [intros [=]|].
  apply fits_act; [exact I|]. intros l _. cbn [next cur_after]. destruct (mem s l); [split; reflexivity|exact IH].
Qed.
Lemma fits_ready f cur : fits (stays PIdle cur) PIdle cur (wait_ready f).
Proof.
  induction f as [|f IH]; cbn [wait_ready]; [intros [=]|].
  apply fits_act; [exact I|]. intros s Hs. cbn in Hs. destruct s as [| | |cs b c]; try contradiction.
  destruct cs; [|contradiction]. subst b. cbn. split; reflexivity.
Qed.
Lemma fits_running f t0 cur ph : ph = PSent \/ ph = PIdle -> fits (stays PSeen cur) ph cur (wait_running f t0).
Proof.
  intros Hph. induction f as [|f IH]; cbn [wait_running]; [intros [=]|].
  apply fits_act; [exact I|]. intros now _. cbn [next cur_after]. apply fits_act; [exact I|].
  intros s Hs. cbn in Hs. destruct s as [| | |cs b c]; try contradiction. destruct cs; [|contradiction].
  assert (Ha : fits (stays PSeen cur) ph cur (if MAX_TASK_WAIT <? now - t0 then crash else wait_running f t0))
    by (destruct (MAX_TASK_WAIT <? now - t0); [apply fits_crash|exact IH]).
  destruct Hph as [-> | ->].
  - destruct b.
    + rewrite (Hs eq_refl). cbn. split; reflexivity.
    + cbn [next cur_after]. exact Ha.
  - subst b. cbn [next cur_after]. exact Ha.
Qed.
Lemma fits_store cur ph l : fits (stays ph cur) ph cur (store (data_answer l)).
Proof.
  destruct l as [|x l]; [split; reflexivity|]. cbn. split; [exact I|]. intros [a|e] Hr; [split; reflexivity|].
  destruct Hr as [? Hr]; discriminate.
Qed.
Lemma fits_loop f pr t cur : t_stop_with t = None -> forall tp, fits (stays POver cur) PSeen cur (task_loop f pr t tp).
Proof.
  intros Ht. induction f as [|f IH]; intros tp; cbn [task_loop]; [intros [=]|].
  apply fits_act; [exact I|]. intros tn _. cbn [next cur_after].
  eapply fits_bind with (Q := stays PSeen cur).
  - destruct (pr <? tn - tp); [|split; reflexivity].
    apply fits_act; [now left|]. intros d Hd. destruct Hd as [l Hd]. injection Hd as ->. cbn [next cur_after].
    eapply fits_bind; [apply fits_store|]. intros ph c a [-> ->]. split; reflexivity.
  - intros ph c tp' [-> ->]. apply fits_act; [exact I|]. intros s Hs. cbn in Hs.
    destruct s as [| | |cs b c]; try contradiction. destruct cs; [|contradiction]. destruct b.
    + rewrite (Hs eq_refl). cbn [next cur_after]. rewrite Ht. apply IH.
    + cbn. split; reflexivity.
Qed.
Definition at_idle {A : Type} : phase -> option task -> A -> Prop := fun ph _ _ => ph = PIdle.
Lemma fits_one f pr c t cur : t_stop_with t = None -> fits at_idle PIdle cur (one_task f pr c t).
Proof.
  intros Ht. unfold one_task. apply fits_act; [reflexivity|]. intros a _. cbn [next cur_after].
  eapply fits_bind; [apply fits_start|]. intros ph cu u [-> ->].
  eapply fits_bind; [apply fits_ready|]. intros ph cu u' [-> ->].
  apply fits_act; [exact I|]. intros t0 _. cbn [next cur_after].
  apply fits_act; [split; reflexivity|]. intros b [ok Hb]. injection Hb as ->. cbn [cur_after].
  eapply fits_bind with (Q := stays PSeen (Some t)).
  { apply fits_running. destruct ok; [now left|now right]. }
  intros ph cu u'' [-> ->]. apply fits_act; [exact I|]. intros tp _. cbn [next cur_after].
  eapply fits_bind; [apply fits_loop; exact Ht|]. intros ph cu u3 [-> ->].
  apply fits_act; [now right|]. intros d [l Hd]. injection Hd as ->. cbn [next cur_after].
  eapply fits_bind; [apply fits_store|]. intros ph cu u4 [-> ->].
  destruct c; [|intros _; reflexivity]. apply fits_act; [reflexivity|]. intros. reflexivity.
Qed.
Lemma fits_tasks f pr ts : (forall t, In t ts -> t_stop_with t = None) -> forall c cur,
  fits at_idle PIdle cur (forP (one_task f pr) c ts).
Proof.
  induction ts as [|t ts IH]; intros Ht c cur; cbn [forP]; [reflexivity|].
  eapply fits_bind; [apply fits_one; apply Ht; now left|]. intros ph cu a ->. apply IH. intros x Hx. apply Ht. now right.
Qed.
Lemma fits_job f pr ts cur : (forall t, In t ts -> t_stop_with t = None) ->
  fits at_idle PIdle cur (job_thread f pr ts).
Proof.
  intros Ht. unfold job_thread. eapply fits_bind; [apply fits_tasks; exact Ht|]. intros ph cu a ->.
  apply fits_act; [reflexivity|]. intros b Hb. injection Hb as ->. cbn. reflexivity.
Qed.

(** ** The component in each phase *)
Definition predrop (w : wpc) : bool :=
  match w with WGot _ | WClear _ | WKind _ | WArm _ | WStart _ | WDrop _ _ => true | _ => false end.
Definition is_got (w : wpc) : bool := match w with WGot _ => true | _ => false end.
Definition only (i : nat) (o : option qitem) : Prop := match o with Some it => q_id it = i | None => True end.

Record during (i : nat) (d : dev) : Prop := mkDuring {
  du_queue : d_queue d = [] \/ exists it, d_queue d = [it] /\ q_id it = i /\ executing d = None /\ d_data d = [];
  du_exec : only i (executing d);
  du_drop : predrop (d_worker d) = true -> d_data d = []
}.
Definition dinv (ph : phase) (i : nat) (d : dev) : Prop :=
  match ph with
  | PIdle => d_queue d = [] /\ executing d = None /\ d_data d = []
  | POver => d_queue d = [] /\ executing d = None
  | PSent => during i d
  | PSeen => during i d /\ d_queue d = [] /\ is_got (d_worker d) = false
  end.

Lemma exec_worker d w : d_worker d = w -> executing d = executing (mkD [] None [] None None true true w MIdle 0 0 false []).
Proof. intros <-. reflexivity. Qed.

Lemma settled_work c f d d' : wstep c f d = Some d' -> (predrop (d_worker d) = true -> d_data d = []) ->
  settled (d_log d') = settled (d_log d).
Proof.
  intros H Hd. assert (S : dstep (Work c f) d = Some d') by exact H. clear H.
  match goal with H : dstep _ _ = _ |- _ => rename H into H0 end.
  cbn [dstep] in H0. unfold wstep in H0. destruct (d_worker d) eqn:Ew;
    repeat match type of H0 with context [match ?x with _ => _ end] => destruct x eqn:? end;
    try discriminate H0; injection H0 as <-; try reflexivity; cbn; rewrite ?Hd by reflexivity; rewrite ?app_nil_r; reflexivity.
Qed.
Lemma dinv_work ph i c f d d' : wstep c f d = Some d' -> dinv ph i d -> dinv ph i d'.
Proof.
  intros H0 D. unfold wstep in H0. destruct (d_worker d) eqn:Ew;
    repeat match type of H0 with context [match ?x with _ => _ end] => destruct x eqn:? end;
    try discriminate H0; injection H0 as <-;
    destruct ph; cbn [dinv] in *.
  all: repeat match goal with D : _ /\ _ |- _ => destruct D | D : during _ _ |- _ => destruct D end.
  all: unfold executing in *; rewrite Ew in *; devc; cbn [only predrop is_got] in *.
  all: repeat match goal with H : true = true -> _ |- _ => specialize (H eq_refl) end.
  all: try discriminate; try (repeat split; congruence).
  all: repeat match goal with H : _ \/ _ |- _ => destruct H | H : exists _, _ |- _ => destruct H | H : _ /\ _ |- _ => destruct H end; try congruence.
  all: repeat split; cbn [only predrop is_got executing]; devc; unfold executing; devc; try congruence; try tauto; try (left; congruence).
  all: try (intros; discriminate).
  all: try (right; eexists; repeat split; eauto; congruence).
  all: try congruence.
Qed.

Definition fetching (m : mpc) : bool :=
  match m with MLock | MRead | MClear _ | MUnlock _ => true | _ => false end.
Definition in_reset (m : mpc) : bool :=
  match m with MJoin _ => true | _ => resetting m end.
Lemma dinv_same ph i d d' : d_queue d' = d_queue d -> d_worker d' = d_worker d ->
  (d_data d' = d_data d \/ d_data d' = []) -> dinv ph i d -> dinv ph i d'.
Proof.
  intros E1 E2 E3 D. assert (E4 : executing d' = executing d) by (unfold executing; rewrite E2; reflexivity).
  assert (E5 : d_data d = [] -> d_data d' = []) by (destruct E3; congruence).
  destruct ph; cbn [dinv] in *; rewrite ?E1, ?E2, ?E4; intuition;
    match goal with D : during _ _ |- _ => destruct D as [A B C] end;
    constructor; rewrite ?E1, ?E2, ?E4; auto;
    destruct A as [A|(it & A1 & A2 & A3 & A4)]; auto; right; exists it; auto.
Qed.
Lemma fetch_go ph i d d' : mstep d = Some d' -> fetching (d_main d) = true -> dinv ph i d ->
  dinv ph i d' /\ settled (d_log d') = settled (d_log d) ++ given Go d /\
  (d_main d' = MIdle <-> exists l, d_main d = MUnlock l) /\ (fetching (d_main d') = true \/ d_main d' = MIdle).
Proof.
  intros H Hm D. unfold given. unfold mstep in H. destruct (d_main d) eqn:Em; try discriminate Hm.
  - destruct (d_lock d); [discriminate|]; injection H as <-. split; [eapply dinv_same; [..|exact D]; auto|]. cbn. rewrite app_nil_r.
    split; [reflexivity|]. split; [|now left]. split; [discriminate|intros [l K]; discriminate].
  - injection H as <-. split; [eapply dinv_same; [..|exact D]; auto|]. cbn. rewrite app_nil_r.
    split; [reflexivity|]. split; [|now left]. split; [discriminate|intros [l K]; discriminate].
  - injection H as <-. split; [eapply dinv_same; [..|exact D]; auto|]. cbn. rewrite app_nil_r.
    split; [reflexivity|]. split; [|now left]. split; [discriminate|intros [l K]; discriminate].
  - injection H as <-. split; [eapply dinv_same; [..|exact D]; auto|]. cbn.
    split; [reflexivity|]. split; [|now right]. split; eauto.
Qed.
Lemma reset_go i d d' : mstep d = Some d' -> in_reset (d_main d) = true -> dinv PIdle i d ->
  dinv PIdle i d' /\ settled (d_log d') = settled (d_log d) /\
  (d_main d' = MIdle <-> exists b, d_main d = MThread b) /\ (in_reset (d_main d') = true \/ d_main d' = MIdle).
Proof.
  intros H Hm (D1 & D2 & D3). unfold mstep in H. destruct (d_main d) eqn:Em; try discriminate Hm;
    repeat match type of H with context [match ?x with _ => _ end] => destruct x eqn:?; try discriminate H end;
    injection H as <-; cbn; rewrite ?D3, ?app_nil_r;
    (split; [repeat split; auto; try (unfold executing in *; cbn; assumption)|]);
    (split; [reflexivity|]); (split; [|auto]); (split; [discriminate || eauto|]); intros [b' K]; discriminate || reflexivity.
Qed.

(** ** The invariant of both *)
Definition waits (s : rsys) : Prop :=
  if r_wait s then
    match r_pgm s with
    | Op JData _ => fetching (d_main (r_dev s)) = true
    | Op JReset _ => in_reset (d_main (r_dev s)) = true
    | _ => False
    end
  else d_main (r_dev s) = MIdle.
Definition Iall (base : list nat) (s : rsys) : Prop :=
  exists ph i, can_reach (r_dev s) /\ keeps (received (r_hist s)) (r_pgm s) /\
    fits at_idle ph (r_cur s) (r_pgm s) /\
    settled (d_log (r_dev s)) = base ++ r_stored s ++ received (r_hist s) /\
    dinv ph i (r_dev s) /\
    (ph = PSent \/ ph = PSeen -> exists t, sent_task i (r_sent s) = Some t /\ r_cur s = Some t) /\
    waits s.

Lemma dinv_predrop ph i d : dinv ph i d -> predrop (d_worker d) = true -> d_data d = [].
Proof.
  intros D H. destruct ph; cbn [dinv] in D.
  - apply D.
  - exact (du_drop _ _ D H).
  - exact (du_drop _ _ (proj1 D) H).
  - destruct D as [_ D]. unfold executing in D. destruct (d_worker d); discriminate.
Qed.
(** The worker completes an operation. *)
Lemma done_all base s d o k r cur' sent' stored' ph ph' i' :
  r_pgm s = Op o k -> fits at_idle ph (r_cur s) (r_pgm s) -> keeps (received (r_hist s)) (r_pgm s) ->
  plausible ph o r -> ph' = next ph o r -> cur' = cur_after (r_cur s) o ->
  can_reach d -> d_main d = MIdle -> dinv ph' i' d ->
  (ph' = PSent \/ ph' = PSeen -> exists t, sent_task i' sent' = Some t /\ cur' = Some t) ->
  settled (d_log d) = base ++ stored' ++ received [Ev o r] ->
  Iall base (done_op s d cur' sent' stored' o k r).
Proof.
  intros Hp F K Hr -> -> R Hm D C S. rewrite Hp in F, K. destruct F as [_ F]. destruct K as [_ K].
  exists (next ph o r), i'. cbn [done_op r_dev r_pgm r_wait r_cur r_sent r_stored r_hist].
  split; [exact R|]. split; [exact (K r)|]. split; [exact (F r Hr)|]. split; [exact S|]. split; [exact D|].
  split; [exact C|]. unfold waits. cbn. exact Hm.
Qed.
Lemma all_step same base l s s' : (forall t, same t t = true) -> undisturbed l ->
  Iall base s -> rstep same l s = Some s' -> Iall base s'.
Proof.
  intros Hsame Hl (ph & i & R & K & F & S & D & C & W) H. destruct l as [c f|a| |c n b|]; try contradiction; cbn [rstep] in H.
  - destruct (wstep c f (r_dev s)) as [d|] eqn:E; inversion H. clear H. exists ph, i. cbn.
    assert (Em : d_main d = d_main (r_dev s)).
    { clear -E. unfold wstep in E. destruct (d_worker (r_dev s));
        repeat match type of E with context [match ?x with _ => _ end] => destruct x eqn:? end;
        try discriminate E; injection E as <-; reflexivity. }
    split; [exact (reach_step _ (Work c f) _ R E)|]. split; [exact K|]. split; [exact F|].
    split; [rewrite (settled_work _ _ _ _ E (dinv_predrop _ _ _ D)); exact S|].
    split; [eapply dinv_work; eauto|]. split; [exact C|].
    unfold waits in *. cbn [with_dev r_wait r_pgm r_dev]. rewrite Em. exact W.
  - destruct (mstep (r_dev s)) as [d|] eqn:E; [|discriminate]. cbn [option_map] in H. injection H as <-.
    unfold waits in W. destruct (r_wait s) eqn:Ew.
    2:{ unfold mstep in E. rewrite W in E. discriminate. }
    destruct (r_pgm s) as [a|e|o k] eqn:Ep; try contradiction.
    assert (R' : can_reach d) by exact (reach_step _ Go _ R E).
    unfold answer. cbn [with_dev r_pgm]. rewrite Ep. destruct o; try contradiction.
    + destruct (fetch_go ph i _ _ E W D) as (D' & S' & M1 & M2).
      destruct (d_main (r_dev s)) eqn:Em; try discriminate W.
      1,2,3: (assert (M3 : fetching (d_main d) = true)
          by (destruct M2 as [M2|M2]; [exact M2|apply M1 in M2; destruct M2; discriminate]);
        exists ph, i; cbn [with_dev r_dev r_pgm r_wait r_cur r_sent r_stored r_hist];
        (split; [exact R'|]); (split; [rewrite Ep; exact K|]); (split; [rewrite Ep; exact F|]);
        (split; [rewrite S'; unfold given; rewrite Em, app_nil_r; exact S|]); (split; [exact D'|]); (split; [exact C|]);
        unfold waits; cbn [with_dev r_dev r_pgm r_wait]; rewrite Ew, Ep; exact M3).
      assert (H0 : received (r_hist s) = []) by (destruct K; assumption).
      assert (Hl2 : ph = PSeen \/ ph = POver) by (destruct F; assumption).
      assert (Ed : d_data d = []).
      { unfold mstep in E. rewrite Em in E. injection E as <-. cbn.
        exact (D_unlock _ (Idata_reach _ R) ret Em). }
      eapply (done_all base (with_dev s d)) with (ph := ph) (i' := i); cbn [with_dev r_pgm r_cur r_hist r_sent r_stored r_dev].
      * exact Ep.
      * rewrite Ep. exact F.
      * rewrite Ep. exact K.
      * exists ret. reflexivity.
      * reflexivity.
      * reflexivity.
      * exact R'.
      * apply M1. eauto.
      * destruct Hl2 as [-> | ->]; [exact D'|]. cbn. destruct D' as [X Y]. auto.
      * destruct Hl2 as [-> | ->]; [exact C|]. cbn. intros [X|X]; discriminate.
      * rewrite S', S, H0, app_nil_r. unfold given. rewrite Em, <- app_assoc. f_equal. f_equal.
        destruct ret; reflexivity.
    + assert (Hl2 : ph = PIdle) by (destruct F; assumption). subst ph.
      destruct (reset_go i _ _ E W D) as (D' & S' & M1 & M2).
      destruct (d_main (r_dev s)) eqn:Em; try discriminate W.
      1,2,3,4,5: (assert (M3 : in_reset (d_main d) = true)
          by (destruct M2 as [M2|M2]; [exact M2|apply M1 in M2; destruct M2; discriminate]);
        exists PIdle, i; cbn [with_dev r_dev r_pgm r_wait r_cur r_sent r_stored r_hist];
        (split; [exact R'|]); (split; [rewrite Ep; exact K|]); (split; [rewrite Ep; exact F|]);
        (split; [rewrite S'; exact S|]); (split; [exact D'|]); (split; [exact C|]);
        unfold waits; cbn [with_dev r_dev r_pgm r_wait]; rewrite Ew, Ep; exact M3).
      assert (H0 : received (r_hist s) = []) by (destruct K; assumption).
      eapply (done_all base (with_dev s d)) with (ph := PIdle) (i' := i); cbn [with_dev r_pgm r_cur r_hist r_sent r_stored r_dev].
      * exact Ep.
      * rewrite Ep. exact F.
      * rewrite Ep. exact K.
      * reflexivity.
      * reflexivity.
      * reflexivity.
      * exact R'.
      * apply M1. eauto.
      * exact D'.
      * intros [X|X]; discriminate.
      * rewrite S', S, H0. reflexivity.
  - unfold job_step in H. unfold waits in W. destruct (r_wait s) eqn:Ew; [discriminate|].
    destruct (r_pgm s) as [a|e|o k] eqn:Ep; try discriminate.
    pose proof F as F0. pose proof K as K0. destruct F0 as [Hl2 _]. destruct K0 as [H0 _].
    assert (P : forall r, plausible ph o r -> received [Ev o r] = [] -> (forall l, o <> JStore l) ->
      forall cur', cur' = cur_after (r_cur s) o -> (cur' = r_cur s \/ ph = PIdle) -> next ph o r = ph ->
      Iall base (done_op s (r_dev s) cur' (r_sent s) (r_stored s) o k r)).
    { intros r Hr He Hns cur' -> Hc Hn.
      eapply (done_all base s) with (ph := ph) (ph' := ph) (i' := i); eauto; try (rewrite Ep; assumption).
      - intros Hph. destruct Hc as [-> | Hc]; [exact (C Hph)|]. subst ph. destruct Hph; discriminate.
      - rewrite S, He. f_equal. f_equal. destruct o; try exact H0. contradiction (Hns d eq_refl). }
    destruct o; cbn [same_state] in H; try contradiction Hl2.
    + injection H as <-. apply P; auto; try discriminate. cbn. eauto.
    + injection H as <-. apply P; auto; try discriminate. cbn. eauto.
    + (* status *)
      destruct (begin_request AStatus (r_dev s)) as [d|] eqn:E; [|discriminate]. injection H as <-.
      assert (R' : can_reach d) by exact (reach_step _ (Ask AStatus) _ R E).
      unfold begin_request in E. rewrite W in E. injection E as <-.
      pose proof (I_shown _ (Ictl_reach _ R)) as Hsh.
      assert (D' : forall ph, dinv ph i (r_dev s) -> dinv ph i
        (log (LStatus (match d_running (r_dev s) with Some _ => true | None => false end)) (r_dev s))).
      { intros p X. eapply dinv_same; [..|exact X]; auto. }
      assert (Ans : exists b0 c, status_answer same b s = SState true b0 c /\ b0 = match d_running (r_dev s) with Some _ => true | None => false end /\
          (b0 = true -> (ph = PSent \/ ph = PSeen) /\ c = Some true)).
      { unfold status_answer. destruct (d_running (r_dev s)) as [it|] eqn:Er.
        - do 2 eexists. split; [reflexivity|]. split; [reflexivity|]. intros _.
          assert (Ex : executing (r_dev s) = Some it).
          { unfold shown in Hsh. destruct (d_worker (r_dev s)) eqn:Ew2; try discriminate Hsh;
              rewrite (exec_worker _ _ Ew2); symmetry; exact Hsh. }
          assert (Ph : ph = PSent \/ ph = PSeen).
          { destruct ph; auto; cbn [dinv] in D; exfalso; [destruct D as (_ & D & _)|destruct D as (_ & D)]; congruence. }
          split; [exact Ph|]. destruct (C Ph) as (t & C1 & C2).
          assert (Ei : q_id it = i).
          { assert (Du : during i (r_dev s)) by (destruct Ph as [-> | ->]; cbn [dinv] in D; [exact D|apply D]).
            pose proof (du_exec _ _ Du) as X. rewrite Ex in X. exact X. }
          rewrite Ei, C1, C2, Hsame. reflexivity.
        - do 2 eexists. split; [reflexivity|]. split; [reflexivity|]. discriminate. }
      destruct Ans as (b0 & c0 & Ea & Eb & Ec). rewrite Ea.
      assert (Q : forall ph', ph' = next ph JStatus (Ok (SState true b0 c0)) -> plausible ph JStatus (Ok (SState true b0 c0)) ->
        dinv ph' i (r_dev s) -> (ph' = PSent \/ ph' = PSeen -> ph = PSent \/ ph = PSeen) ->
        Iall base (done_op s (log (LStatus (match d_running (r_dev s) with Some _ => true | None => false end)) (r_dev s))
                     (r_cur s) (r_sent s) (r_stored s) JStatus k (Ok (SState true b0 c0)))).
      { intros ph' E1 E2 E3 E4. eapply (done_all base s) with (ph := ph) (ph' := ph') (i' := i); eauto; try (rewrite Ep; assumption).
        cbn. rewrite S, H0. reflexivity. }
      destruct b0.
      * destruct (Ec eq_refl) as [Ph ->]. apply (Q PSeen).
        -- destruct Ph as [-> | ->]; reflexivity.
        -- destruct Ph as [-> | ->]; cbn; auto.
        -- assert (Eg : is_got (d_worker (r_dev s)) = false).
           { destruct (d_running (r_dev s)) eqn:Er; [|discriminate]. unfold shown in Hsh.
             destruct (d_worker (r_dev s)); try reflexivity. discriminate. }
           assert (Du : during i (r_dev s)) by (destruct Ph as [-> | ->]; cbn [dinv] in D; [exact D|apply D]).
           cbn [dinv]. split; [exact Du|]. split; [|exact Eg].
           destruct (du_queue _ _ Du) as [X|(it & _ & _ & X & _)]; [exact X|]. exfalso.
           destruct (d_running (r_dev s)) eqn:Er; [|discriminate]. unfold shown in Hsh.
           destruct (d_worker (r_dev s)) eqn:Ew2; try discriminate Hsh;
             rewrite (exec_worker _ _ Ew2) in X; rewrite X in Hsh; discriminate Hsh.
        -- auto.
      * destruct (d_running (r_dev s)) eqn:Er; [discriminate|]. destruct ph.
        -- apply (Q PIdle); cbn; auto.
        -- apply (Q PSent); cbn; auto. discriminate.
        -- apply (Q POver); cbn; auto; [discriminate|]. destruct D as (Du & D1 & D2). split; [exact D1|].
           unfold shown in Hsh. destruct (d_worker (r_dev s)) eqn:Ew2; try discriminate D2;
             rewrite (exec_worker _ _ Ew2); symmetry; exact Hsh.
        -- apply (Q POver); cbn; auto.
    + injection H as <-. apply P; auto; try discriminate. cbn. eauto.
    + (* send *)
      destruct Hl2 as [-> Hc]. destruct b.
      * destruct (begin_request _ (r_dev s)) as [d|] eqn:E; [|discriminate]. injection H as <-.
        assert (R' : can_reach d) by exact (reach_step _ (Ask _) _ R E).
        unfold begin_request in E. rewrite W in E. injection E as <-. destruct D as (D1 & D2 & D3).
        eapply (done_all base s) with (ph := PIdle) (ph' := PSent) (i' := d_items (r_dev s)); eauto; try (rewrite Ep; assumption).
        -- cbn. eauto.
        -- cbn [dinv]. constructor.
           ++ right. eexists. cbn. rewrite D1. split; [reflexivity|]. split; [reflexivity|]. split; [exact D2|exact D3].
           ++ replace (executing (put (KTask (t_interval t) (t_duration t)) (r_dev s))) with (executing (r_dev s)) by reflexivity.
              rewrite D2. exact I.
           ++ intros _. exact D3.
        -- intros _. exists t. cbn. rewrite Nat.eqb_refl. auto.
        -- cbn. rewrite S, H0. reflexivity.
      * destruct (d_main (r_dev s)); try discriminate W. injection H as <-. apply P; auto; try discriminate. cbn. eauto.
    + (* data *)
      unfold pass_on, begin_request in H. rewrite W in H. cbn [option_map] in H. injection H as <-.
      exists ph, i. cbn [r_dev r_pgm r_wait r_cur r_sent r_stored r_hist].
      split; [eapply reach_step with (m := Ask AData); [exact R|]; cbn; unfold begin_request; rewrite W; reflexivity|].
      rewrite Ep. split; [exact K|]. split; [exact F|]. split; [exact S|]. split; [eapply dinv_same; [..|exact D]; auto|].
      split; [exact C|]. unfold waits. cbn. reflexivity.
    + (* store *)
      injection H as <-.
      eapply (done_all base s) with (ph := ph) (ph' := ph) (i' := i); eauto; try (rewrite Ep; assumption).
      * cbn. eauto.
      * rewrite S, H0. cbn. rewrite app_nil_r. reflexivity.
    + (* reset *)
      unfold pass_on, begin_request in H. rewrite W in H. cbn [option_map] in H. injection H as <-.
      exists ph, i. cbn [r_dev r_pgm r_wait r_cur r_sent r_stored r_hist].
      split; [eapply reach_step with (m := Ask (AReset true)); [exact R|]; cbn; unfold begin_request; rewrite W; reflexivity|].
      rewrite Ep. split; [exact K|]. split; [exact F|]. split; [exact S|]. split; [eapply dinv_same; [..|exact D]; auto|].
      split; [exact C|]. unfold waits. cbn. reflexivity.
    + injection H as <-. apply P; auto; try discriminate. cbn. eauto.
Qed.
Lemma all_steps same base ls : (forall t, same t t = true) -> Forall undisturbed ls -> forall s s',
  Iall base s -> rsteps same ls s = Some s' -> Iall base s'.
Proof.
  intros Hs. induction ls as [|l ls IH]; intros Hl s s' I H; cbn in H; [congruence|].
  inversion Hl as [|x y H1 H2]. subst. destruct (rstep same l s) as [s1|] eqn:E; [|discriminate].
  eapply (IH H2); [|exact H]. eapply all_step; eauto.
Qed.
Lemma rest_outstanding d : d_main d = MIdle -> executing d = None -> d_data d = [] -> outstanding d = [].
Proof.
  intros Hm He Hd. unfold outstanding. rewrite Hm, Hd. cbn. destruct (d_taken d); cbn;
    unfold executing in He; destruct (d_worker d); auto; discriminate.
Qed.
Lemma all_start d f pr ts : at_rest d -> (forall t, In t ts -> t_stop_with t = None) ->
  Iall (measured (d_log d)) (run_start d (job_thread f pr ts)).
Proof.
  intros (R & Hm & Hq & He & Hd) Ht. exists PIdle, 0%nat. cbn [run_start r_dev r_pgm r_wait r_cur r_sent r_stored r_hist].
  split; [exact R|]. split; [apply keeps_job|]. split; [apply fits_job; exact Ht|].
  split.
  { rewrite (D_ledger _ (Idata_reach _ R)), (rest_outstanding _ Hm He Hd), !app_nil_r. reflexivity. }
  split; [cbn; auto|]. split; [intros [X|X]; discriminate|]. exact Hm.
Qed.
Lemma C93_lemma same d f pr ts ls s : (forall t, same t t = true) -> at_rest d ->
  (forall t, In t ts -> t_stop_with t = None) -> Forall undisturbed ls ->
  rsteps same ls (run_start d (job_thread f pr ts)) = Some s ->
  measured (d_log (r_dev s)) =
    measured (d_log d) ++ r_stored s ++ received (r_hist s) ++ outstanding (r_dev s) /\
  (r_pgm s = Ret tt \/ r_pgm s = Raise AttributeError ->
   measured (d_log (r_dev s)) = measured (d_log d) ++ r_stored s).
Proof.
  intros Hs Hd Ht Hl H.
  destruct (all_steps _ _ _ Hs Hl _ _ (all_start d f pr ts Hd Ht) H) as (ph & i & R & K & F & S & D & _ & W).
  pose proof (D_ledger _ (Idata_reach _ R)) as L. rewrite S in L. split.
  { rewrite L, <- !app_assoc. reflexivity. }
  intros Hp.
  assert (X : ph = PIdle /\ received (r_hist s) = [] /\ d_main (r_dev s) = MIdle).
  { unfold waits in W. destruct Hp as [Hp|Hp]; rewrite Hp in K, F, W; cbn in K, F; destruct (r_wait s); try contradiction; auto. }
  destruct X as (-> & X1 & X2). destruct D as (_ & D2 & D3).
  rewrite L, X1, (rest_outstanding _ X2 D2 D3), !app_nil_r. reflexivity.
Qed.
Lemma C93_order_lemma same d f pr ts ls s : can_reach d ->
  rsteps same ls (run_start d (job_thread f pr ts)) = Some s ->
  leaves_out (r_stored s) (measured (d_log (r_dev s))) /\ NoDup (r_stored s).
Proof.
  intros Hd H. destruct (order_steps _ _ _ _ (order_start d f pr ts Hd) H) as (R & _ & L).
  assert (X : leaves_out (r_stored s) (measured (d_log (r_dev s)))).
  { eapply lo_trans; [|apply returned_measured; exact R]. eapply lo_trans; [|exact L].
    rewrite <- (app_nil_r (r_stored s)) at 1. apply lo_app; [apply lo_refl|apply lo_nil_l]. }
  split; [exact X|]. eapply lo_nodup; [exact X|]. apply measured_nodup. exact R.
Qed.
