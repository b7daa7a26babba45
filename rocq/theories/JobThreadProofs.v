(** * JobThreadProofs: the events of a worker *)
From Coq Require Import List String ZArith Bool Lia.
From Verif Require Import Base BaseFacts Types Prog JobThreadModel SpecWorker.
Import ListNotations.
Open Scope prog_scope.
Open Scope Z_scope.

(** ** Executions of composed programs *)
Lemma leads_nil {A} (p : jpgm A) : leads p [] p.
Proof. destruct p; cbn; auto. Qed.

Lemma leads_bind {A B} (p : jpgm A) (f : A -> jpgm B) : forall l q,
  leads (bind p f) l q ->
  (exists p', leads p l p' /\ q = bind p' f /\ forall a, p' <> Ret a) \/
  (exists a l1 l2, l = l1 ++ l2 /\ leads p l1 (Ret a) /\ leads (f a) l2 q).
Proof.
  induction p as [a|e|o k IH]; intros l q H.
  - right. exists a, [], l. cbn. auto.
  - left. exists (Raise e). cbn in *. destruct H as [-> ->]. split; [auto|]. split; [auto | discriminate].
  - cbn in H. destruct H as [[-> ->]|(r & l' & -> & H)].
    + left. exists (Op o k). cbn. split; [auto|]. split; [auto | discriminate].
    + destruct (IH r _ _ H) as [(p' & H1 & -> & N)|(a & l1 & l2 & -> & H1 & H2)].
      * left. exists p'. split; [right; exists r, l'; auto | split; [reflexivity | exact N]].
      * right. exists a, (Ev o r :: l1), l2. split; [reflexivity|].
        split; [right; exists r, l1; auto | exact H2].
Qed.

Lemma leads_bind_ret {A B} (p : jpgm A) (f : A -> jpgm B) l b :
  leads (bind p f) l (Ret b) ->
  exists a l1 l2, l = l1 ++ l2 /\ leads p l1 (Ret a) /\ leads (f a) l2 (Ret b).
Proof.
  intros H. destruct (leads_bind _ _ _ _ H) as [(p' & H1 & E & _)|K]; [|exact K].
  destruct p' as [a|e|o k]; cbn in E; try discriminate E.
  exists a, l, []. rewrite app_nil_r. split; [reflexivity|]. split; [exact H1|].
  rewrite <- E. apply leads_nil.
Qed.

Lemma views_app l1 l2 : views (l1 ++ l2) = (views l1 ++ views l2)%list.
Proof. apply map_app. Qed.

(** A property of all partial executions, closed under sequencing: [D] for those that end
    normally, [N] for the others; its first argument tells whether there is more to do. *)
Definition is_op {A} (q : jpgm A) : bool := match q with Op _ _ => true | _ => false end.
Section Closed.
  Variables (N : bool -> list jview -> Prop) (D : list jview -> Prop).
  Hypothesis N_D : forall b l, D l -> N b l.
  Hypothesis D_nil : D [].
  Hypothesis DN : forall b l1 l2, D l1 -> N b l2 -> N b (l1 ++ l2)%list.
  Hypothesis DD : forall l1 l2, D l1 -> D l2 -> D (l1 ++ l2)%list.

  Definition holds {A} (p : jpgm A) : Prop :=
    forall l q, leads p l q -> N (is_op q) (views l) /\ forall a, q = Ret a -> D (views l).

  Lemma holds_ret {A} (a : A) : holds (Ret a).
  Proof. intros l q [-> ->]. cbn. auto. Qed.
  Lemma holds_raise {A} e : holds (Raise e : jpgm A).
  Proof. intros l q [-> ->]. cbn. split; [auto | intros a E; discriminate E]. Qed.
  Lemma holds_bind {A B} (p : jpgm A) (f : A -> jpgm B) :
    holds p -> (forall a, holds (f a)) -> holds (bind p f).
  Proof.
    intros Hp Hf l q H. split.
    - destruct (leads_bind _ _ _ _ H) as [(p' & H1 & -> & NR)|(a & l1 & l2 & -> & H1 & H2)].
      + destruct (Hp _ _ H1) as [X _]. destruct p' as [a|e|o k]; [exfalso; exact (NR a eq_refl) | exact X | exact X].
      + rewrite views_app. apply DN; [apply (proj2 (Hp _ _ H1) a eq_refl) | apply (Hf a _ _ H2)].
    - intros b ->. destruct (leads_bind_ret _ _ _ _ H) as (a & l1 & l2 & -> & H1 & H2).
      rewrite views_app. apply DD; [apply (proj2 (Hp _ _ H1) a eq_refl) | apply (proj2 (Hf a _ _ H2) b eq_refl)].
  Qed.
  Lemma holds_forP {S X} (f : S -> X -> jpgm S) s l :
    (forall s x, holds (f s x)) -> holds (forP f s l).
  Proof.
    intros Hf. revert s. induction l as [|x l IH]; intros s; cbn [forP].
    - apply holds_ret.
    - apply holds_bind; auto.
  Qed.
End Closed.

(** ** C63: an offline answer ends the worker *)
Definition crashy {A} (p : jpgm A) : Prop := forall l q, leads p l q ->
  (views l = [] \/ views l = [VCrash] \/ views l = [VFail]) /\ forall a, q <> Ret a.
Lemma leads_crash {A} : crashy (crash : jpgm A).
Proof.
  intros l q H. cbn in H. destruct H as [[-> ->]|(r & l' & -> & H)].
  - cbn. split; [auto | discriminate].
  - destruct r as [x|e]; cbn in H; destruct H as [-> ->]; cbn; (split; [auto | discriminate]).
Qed.

Lemma crashy_bind {A B} (p : jpgm A) (f : A -> jpgm B) : crashy p -> crashy (bind p f).
Proof.
  intros C l q H. destruct (leads_bind _ _ _ _ H) as [(p' & H1 & -> & _)|(a & l1 & l2 & -> & H1 & H2)].
  - destruct (C _ _ H1) as [V N]. split; [exact V|]. intros b E.
    destruct p' as [a|e|o k]; cbn in E; try discriminate E. exact (N a eq_refl).
  - exfalso. exact (proj2 (C _ _ H1) a eq_refl).
Qed.

Definition nooff (l : list jview) : Prop := forallb (fun v => negb (offline v)) l = true.

Lemma gives_up_app l1 l2 : nooff l1 -> gives_up l2 -> gives_up (l1 ++ l2)%list.
Proof.
  unfold nooff. induction l1 as [|e l IH]; cbn; intros H G; [exact G|].
  apply andb_prop in H as [H1 H2]. apply negb_true_iff in H1. rewrite H1. auto.
Qed.
Lemma nooff_app l1 l2 : nooff l1 -> nooff l2 -> nooff (l1 ++ l2)%list.
Proof. unfold nooff. rewrite forallb_app. intros -> ->. reflexivity. Qed.
Lemma nooff_gives_up l : nooff l -> gives_up l.
Proof. intros H. rewrite <- (app_nil_r l). apply gives_up_app; [exact H | exact I]. Qed.

Notation GU := (holds (fun _ => gives_up) nooff).
Lemma nooff_gives_up_ (b : bool) l : nooff l -> gives_up l.
Proof. exact (nooff_gives_up l). Qed.
Lemma gives_up_app_ (b : bool) l1 l2 : nooff l1 -> gives_up l2 -> gives_up (l1 ++ l2)%list.
Proof. exact (gives_up_app l1 l2). Qed.
Lemma GU_ret {A} (a : A) : GU (Ret a).
Proof. apply holds_ret; [exact nooff_gives_up_ | reflexivity]. Qed.
Lemma GU_raise {A} e : GU (Raise e : jpgm A).
Proof. apply holds_raise; [exact nooff_gives_up_ | reflexivity]. Qed.
Lemma GU_bind {A B} (p : jpgm A) (f : A -> jpgm B) : GU p -> (forall a, GU (f a)) -> GU (bind p f).
Proof. apply (holds_bind (fun _ => gives_up) nooff); [exact gives_up_app_ | exact nooff_app]. Qed.
Lemma GU_crash {A} : GU (crash : jpgm A).
Proof.
  intros l q H. destruct (leads_crash _ _ H) as [V N]. split.
  - destruct V as [->|[->| ->]]; cbn; auto.
  - intros a ->. exfalso; exact (N a eq_refl).
Qed.
(** An operation; if the answer is offline, the worker gives up at once. *)
Lemma GU_op {A} (o : jop) (k : jresp o -> jpgm A) :
  (forall x, offline (view (Ev o (Ok x))) = false -> GU (k x)) ->
  (forall x, offline (view (Ev o (Ok x))) = true -> crashy (k x)) ->
  GU (x <- jact o;; k x).
Proof.
  intros H1 H2 l q H. cbn in H. destruct H as [[-> ->]|(r & l' & -> & H)].
  - cbn. split; [exact I | intros a E; discriminate E].
  - destruct r as [x|e]; cbn in H.
    + destruct (offline (view (Ev o (Ok x)))) eqn:E.
      * destruct (H2 x E _ _ H) as [V N]. split.
        -- change (views (Ev o (Ok x) :: l')) with (view (Ev o (Ok x)) :: views l').
           cbn [gives_up]. rewrite E. exact V.
        -- intros a ->. exfalso; exact (N a eq_refl).
      * destruct (H1 x E _ _ H) as [G D].
        change (views (Ev o (Ok x) :: l')) with (view (Ev o (Ok x)) :: views l').
        split.
        -- cbn [gives_up]. rewrite E. exact G.
        -- intros a Ea. unfold nooff. cbn [forallb]. rewrite E. exact (D a Ea).
    + destruct H as [-> ->].
      assert (V : view (Ev o (Err e)) = VFail) by (destruct o; reflexivity).
      change (views [Ev o (Err e)]) with [view (Ev o (Err e))]. rewrite V. cbn.
      split; [exact I | intros a E; discriminate E].
Qed.
Lemma GU_act (o : jop) : (forall x, offline (view (Ev o (Ok x))) = false) -> GU (jact o).
Proof.
  intros H. assert (G : GU (x <- jact o;; Ret x)).
  { apply GU_op; [intros; apply GU_ret | intros x E; rewrite H in E; discriminate E]. }
  intros l q L. specialize (G l). cbn in G, L.
  destruct L as [[-> ->]|(r & l' & -> & L)].
  - cbn. split; [exact I | intros a E; discriminate E].
  - destruct (G q) as [G1 G2]; [right; exists r, l'; split; [reflexivity|]; destruct r; exact L|]. auto.
Qed.

Ltac gu :=
  repeat first
    [ apply GU_ret | apply GU_raise | apply GU_crash
    | apply GU_act; reflexivity
    | match goal with
      | |- GU (bind (jact ?o) _) =>
          apply GU_op; [ intros ? ?; try discriminate
                       | let x := fresh in let E := fresh in intros x E;
                         first [ discriminate E
                               | destruct x; cbn in E;
                                 first [discriminate E | exact leads_crash | apply crashy_bind; exact leads_crash] ] ]
      end
    | apply GU_bind; [|intros ?]
    | match goal with |- GU (match ?x with _ => _ end) => destruct x; cbn [offline view] in *; try discriminate end ];
  auto.

Lemma GU_wait_start f t : GU (wait_start f t).
Proof.
  induction f as [|f IH]; cbn [wait_start]; destruct (t_start_with t); gu.
Qed.
Lemma GU_wait_ready f : GU (wait_ready f).
Proof. induction f as [|f IH]; cbn [wait_ready]; gu. Qed.
Lemma GU_wait_running f t0 : GU (wait_running f t0).
Proof. induction f as [|f IH]; cbn [wait_running]; gu. Qed.
Lemma GU_store d : offline (VData d) = false -> GU (store d).
Proof.
  intros H. destruct d; cbn in H; [discriminate H | apply GU_ret | exact (GU_act (JStore d) (fun _ => eq_refl))].
Qed.
Lemma GU_task_loop f pr t : forall tp, GU (task_loop f pr t tp).
Proof.
  induction f as [|f IH]; intros tp; cbn [task_loop]; [apply GU_raise|].
  apply GU_op; [intros tn _|intros x E; discriminate E].
  apply GU_bind; [|intros tp'].
  - destruct (pr <? tn - tp); [|apply GU_ret].
    apply GU_op.
    + intros d E. apply GU_bind; [apply GU_store; exact E | intros _; apply GU_ret].
    + intros d E. destruct d; try discriminate E. apply crashy_bind, leads_crash.
  - apply GU_op.
    + intros s E.
      assert (G : GU (match t_stop_with t with
          | None => task_loop f pr t tp'
          | Some n =>
              l <- jact JNames;;
              if mem n (l : list string) then d <- jact JStop;; store d
              else task_loop f pr t tp'
          end)).
      { destruct (t_stop_with t) as [n|]; [|apply IH].
        apply GU_op; [intros l _ | intros x Ex; discriminate Ex].
        destruct (mem n l); [|apply IH].
        apply GU_op; [intros d Ed; apply GU_store; exact Ed | intros d Ed; destruct d; try discriminate Ed; exact leads_crash]. }
      destruct s as [| | |c r cur]; try exact G; try apply GU_ret; try apply GU_crash.
      destruct r; [|apply GU_ret]. destruct cur as [[|]|]; try exact G. apply GU_ret.
    + intros s E. destruct s; try discriminate E. exact leads_crash.
Qed.
Lemma GU_one_task f pr c t : GU (one_task f pr c t).
Proof.
  unfold one_task.
  apply GU_bind; [apply GU_act; reflexivity | intros _].
  apply GU_bind; [apply GU_wait_start | intros _].
  apply GU_bind; [apply GU_wait_ready | intros _].
  apply GU_bind; [apply GU_act; reflexivity | intros t0].
  apply GU_op; [|intros b E; destruct b; try discriminate E; exact leads_crash].
  intros b E. destruct b; [discriminate E|].
  apply GU_bind; [apply GU_wait_running | intros _].
  apply GU_bind; [apply GU_act; reflexivity | intros tp].
  apply GU_bind; [apply GU_task_loop | intros _].
  apply GU_op; [|intros d Ed; destruct d; try discriminate Ed; apply crashy_bind, leads_crash].
  intros d Ed. apply GU_bind; [apply GU_store; exact Ed | intros _].
  destruct c; [|apply GU_raise].
  apply GU_bind; [apply GU_act; reflexivity | intros _; apply GU_ret].
Qed.
Lemma GU_job_thread f pr ts : GU (job_thread f pr ts).
Proof.
  unfold job_thread. apply GU_bind.
  - apply (holds_forP (fun _ => gives_up) nooff); [exact nooff_gives_up_ | reflexivity | exact gives_up_app_ | exact nooff_app |].
    intros; apply GU_one_task.
  - intros _. apply GU_op; intros b E; destruct b; try discriminate E; [apply GU_ret | exact leads_crash].
Qed.
Theorem worker_gives_up f pr ts l q : leads (job_thread f pr ts) l q -> gives_up (views l).
Proof. intros H. exact (proj1 (GU_job_thread _ _ _ _ _ H)). Qed.

(** ** C61: data received is stored *)
Definition balanced (l : list jview) : Prop := received l = stored l.
Definition carries (v : jview) : Prop := (exists d, v = VData (DData d)) \/ exists d, v = VStop (DData d).
Definition unstored (more : bool) (l : list jview) : Prop :=
  exists l' x, balanced l' /\ carries x /\ ((more = true /\ l = l' ++ [x]) \/ l = l' ++ [x; VFail])%list.
Definition balanced_or more l := balanced l \/ unstored more l.

Lemma received_app l1 l2 : received (l1 ++ l2) = (received l1 ++ received l2)%list.
Proof.
  induction l1 as [|e l IH]; [reflexivity|].
  cbn [app received]. destruct e as [ | | | | |[| |d]|[| |d]| | | | ]; try exact IH; rewrite IH; apply app_assoc.
Qed.
Lemma stored_app l1 l2 : stored (l1 ++ l2) = (stored l1 ++ stored l2)%list.
Proof.
  induction l1 as [|e l IH]; [reflexivity|].
  cbn [app stored]. destruct e; try exact IH; rewrite IH; apply app_assoc.
Qed.
Lemma balanced_app l1 l2 : balanced l1 -> balanced l2 -> balanced (l1 ++ l2)%list.
Proof. unfold balanced. rewrite received_app, stored_app. intros -> ->. reflexivity. Qed.
Lemma balanced_or_app b l1 l2 : balanced l1 -> balanced_or b l2 -> balanced_or b (l1 ++ l2)%list.
Proof.
  intros B [B2|(l' & x & B2 & C & E)].
  - left. apply balanced_app; assumption.
  - right. exists (l1 ++ l')%list, x. split; [apply balanced_app; assumption|]. split; [exact C|].
    rewrite <- !app_assoc. destruct E as [[-> ->] | ->]; auto.
Qed.
Notation BA := (holds balanced_or balanced).
Lemma BA_ret {A} (a : A) : BA (Ret a).
Proof. apply holds_ret; [intros b l H; left; exact H | reflexivity]. Qed.
Lemma BA_raise {A} e : BA (Raise e : jpgm A).
Proof. apply holds_raise; [intros b l H; left; exact H | reflexivity]. Qed.
Lemma BA_bind {A B} (p : jpgm A) (f : A -> jpgm B) : BA p -> (forall a, BA (f a)) -> BA (bind p f).
Proof. apply holds_bind; [exact balanced_or_app | exact balanced_app]. Qed.
(** Operations that bring and store no data. *)
Definition dataless (o : jop) : bool := match o with JData | JStop | JStore _ => false | _ => true end.
Lemma BA_act o : dataless o = true -> BA (jact o).
Proof.
  intros N l q H. cbn in H. destruct H as [[-> ->]|(r & l' & -> & H)].
  - cbn. split; [left; reflexivity | intros a E; discriminate E].
  - assert (V : balanced (views (Ev o r :: l'))).
    { destruct r; cbn in H; destruct H as [-> ->]; destruct o; try discriminate N; reflexivity. }
    split; [left; exact V | intros; exact V].
Qed.
Lemma BA_crash {A} : BA (crash : jpgm A).
Proof. unfold crash. apply BA_bind; [apply BA_act; reflexivity | intros; apply BA_raise]. Qed.
(** Data fetched and then stored. *)
Lemma BA_store_rest x d : carries x -> (match d with DData _ => True | _ => False end) ->
  received [x] = (match d with DData l => l | _ => [] end) ->
  forall l q, leads (store d) l q ->
  balanced_or (is_op q) (x :: views l) /\ forall a, q = Ret a -> balanced (x :: views l).
Proof.
  intros C D R l q H. destruct d as [| |d]; try contradiction.
  cbn [store] in H. cbn in H. destruct H as [[-> ->]|(r & l' & -> & H)].
  - split; [|intros a E; discriminate E]. right. exists [], x. split; [reflexivity|]. auto.
  - destruct r as [u|e]; cbn in H; destruct H as [-> ->].
    + assert (B : balanced (x :: views [Ev (JStore d) (Ok u)])).
      { change (x :: views [Ev (JStore d) (Ok u)]) with ([x] ++ [VStore d])%list.
        unfold balanced. rewrite received_app, stored_app, R.
        assert (S : stored [x] = []) by (destruct C as [[? ->]|[? ->]]; reflexivity).
        rewrite S. cbn. rewrite !app_nil_r. reflexivity. }
      split; [left; exact B | intros; exact B].
    + split; [|intros a E; discriminate E]. right. exists [], x. split; [reflexivity|]. split; [exact C|].
      right. reflexivity.
Qed.
Lemma BA_data : BA (d <- jact JData;; store d).
Proof.
  intros l q H. cbn [bind] in H. cbn in H. destruct H as [[-> ->]|(r & l' & -> & H)].
  - cbn. split; [left; reflexivity | intros a E; discriminate E].
  - destruct r as [d|e].
    + cbn in H. change (views (Ev JData (Ok d) :: l')) with (VData d :: views l').
      destruct d as [| |d].
      * destruct (@BA_crash unit _ _ H) as [N D]. split; [|exact D].
        apply (balanced_or_app _ [VData DOffline]); [reflexivity | exact N].
      * destruct (BA_ret tt _ _ H) as [N D]. split; [apply (balanced_or_app _ [VData DNothing]); [reflexivity | exact N] | exact D].
      * apply (BA_store_rest (VData (DData d)) (DData d)); [left; eauto | exact I | cbn; apply app_nil_r | exact H].
    + cbn in H. destruct H as [-> ->]. cbn. split; [left; reflexivity | intros a E; discriminate E].
Qed.
Lemma BA_stop : BA (d <- jact JStop;; store d).
Proof.
  intros l q H. cbn [bind] in H. cbn in H. destruct H as [[-> ->]|(r & l' & -> & H)].
  - cbn. split; [left; reflexivity | intros a E; discriminate E].
  - destruct r as [d|e].
    + cbn in H. change (views (Ev JStop (Ok d) :: l')) with (VStop d :: views l').
      destruct d as [| |d].
      * destruct (@BA_crash unit _ _ H) as [N D]. split; [|exact D].
        apply (balanced_or_app _ [VStop DOffline]); [reflexivity | exact N].
      * destruct (BA_ret tt _ _ H) as [N D]. split; [apply (balanced_or_app _ [VStop DNothing]); [reflexivity | exact N] | exact D].
      * apply (BA_store_rest (VStop (DData d)) (DData d)); [right; eauto | exact I | cbn; apply app_nil_r | exact H].
    + cbn in H. destruct H as [-> ->]. cbn. split; [left; reflexivity | intros a E; discriminate E].
Qed.

(** Executions of a composed program do not depend on how it is bracketed. *)
Lemma leads_assoc {A B C} (p : jpgm A) (f : A -> jpgm B) (g : B -> jpgm C) : forall l q,
  leads (x <- p;; (y <- f x;; g y)) l q -> exists q', leads (y <- (x <- p;; f x);; g y) l q' /\
    is_op q' = is_op q /\ forall c, q = Ret c -> q' = Ret c.
Proof.
  induction p as [a|e|o k IH]; intros l q H; cbn in *.
  - exists q. auto.
  - exists q. auto.
  - destruct H as [[-> ->]|(r & l' & -> & H)].
    + eexists. split; [left; split; reflexivity|]. split; [reflexivity | intros c E; discriminate E].
    + destruct (IH r _ _ H) as (q' & H1 & H2). exists q'. split; [right; exists r, l'; auto | exact H2].
Qed.
Lemma BA_assoc {A B C} (p : jpgm A) (f : A -> jpgm B) (g : B -> jpgm C) :
  BA (y <- (x <- p;; f x);; g y) -> BA (x <- p;; (y <- f x;; g y)).
Proof.
  intros G l q H. destruct (leads_assoc p f g l q H) as (q' & H1 & O & H2).
  destruct (G _ _ H1) as [N D]. rewrite <- O. split; [exact N|]. intros c E. exact (D c (H2 c E)).
Qed.

Lemma BA_wait_start f t : BA (wait_start f t).
Proof.
  induction f as [|f IH]; cbn [wait_start]; (destruct (t_start_with t); [|apply BA_ret]); [apply BA_raise|].
  apply BA_bind; [apply BA_act; reflexivity | intros l]. destruct (mem s l); [apply BA_ret | exact IH].
Qed.
Lemma BA_wait_ready f : BA (wait_ready f).
Proof.
  induction f as [|f IH]; cbn [wait_ready]; [apply BA_raise|].
  apply BA_bind; [apply BA_act; reflexivity | intros s].
  destruct s as [| | |[|] ? ?]; try exact IH; [apply BA_crash | apply BA_ret].
Qed.
Lemma BA_wait_running f t0 : BA (wait_running f t0).
Proof.
  induction f as [|f IH]; cbn [wait_running]; [apply BA_raise|].
  apply BA_bind; [apply BA_act; reflexivity | intros now].
  apply BA_bind; [apply BA_act; reflexivity | intros s].
  assert (G : BA (if MAX_TASK_WAIT <? now - t0 then crash else wait_running f t0)).
  { destruct (MAX_TASK_WAIT <? now - t0); [apply BA_crash | exact IH]. }
  cbv zeta.
  destruct s as [| | |? [|] [[|]|]]; try exact G; first [apply BA_crash | apply BA_ret].
Qed.
Lemma BA_task_loop f pr t : forall tp, BA (task_loop f pr t tp).
Proof.
  induction f as [|f IH]; intros tp; cbn [task_loop]; [apply BA_raise|].
  apply BA_bind; [apply BA_act; reflexivity | intros tn].
  apply BA_bind; [|intros tp'].
  - destruct (pr <? tn - tp); [|apply BA_ret].
    apply (BA_assoc (jact JData) store (fun _ => Ret (tp + pr))).
    apply BA_bind; [exact BA_data | intros; apply BA_ret].
  - apply BA_bind; [apply BA_act; reflexivity | intros s].
    assert (G : BA (match t_stop_with t with
          | None => task_loop f pr t tp'
          | Some n =>
              l <- jact JNames;;
              if mem n (l : list string) then d <- jact JStop;; store d
              else task_loop f pr t tp'
          end)).
    { destruct (t_stop_with t) as [n|]; [|apply IH].
      apply BA_bind; [apply BA_act; reflexivity | intros l].
      destruct (mem n l); [exact BA_stop | apply IH]. }
    destruct s as [| | |? [|] [[|]|]]; try exact G; first [apply BA_crash | apply BA_ret].
Qed.
Lemma BA_one_task f pr c t : BA (one_task f pr c t).
Proof.
  unfold one_task.
  apply BA_bind; [apply BA_act; reflexivity | intros _].
  apply BA_bind; [apply BA_wait_start | intros _].
  apply BA_bind; [apply BA_wait_ready | intros _].
  apply BA_bind; [apply BA_act; reflexivity | intros t0].
  apply BA_bind; [apply BA_act; reflexivity | intros b].
  destruct b; [apply BA_crash|].
  apply BA_bind; [apply BA_wait_running | intros _].
  apply BA_bind; [apply BA_act; reflexivity | intros tp].
  apply BA_bind; [apply BA_task_loop | intros _].
  apply (BA_assoc (jact JData) store (fun _ => match c with
      | None => Raise AttributeError
      | Some _ => jact (JCurrent None);;; Ret None
      end)).
  apply BA_bind; [exact BA_data | intros _].
  destruct c; [|apply BA_raise].
  apply BA_bind; [apply BA_act; reflexivity | intros _; apply BA_ret].
Qed.
Lemma BA_job_thread f pr ts : BA (job_thread f pr ts).
Proof.
  unfold job_thread. apply BA_bind.
  - apply holds_forP; [intros b l H; left; exact H | reflexivity | exact balanced_or_app | exact balanced_app |].
    intros; apply BA_one_task.
  - intros _. apply BA_bind; [apply BA_act; reflexivity | intros b].
    destruct b; [apply BA_crash | apply BA_ret].
Qed.

(** ** C60: when tasks are sent *)
Lemma sends_app l1 l2 : sends (l1 ++ l2) = (sends l1 ++ sends l2)%list.
Proof. induction l1 as [|e l IH]; [reflexivity|]. cbn. destruct e; try exact IH. cbn. rewrite IH. reflexivity. Qed.
Notation NS := (holds (fun _ l => sends l = []) (fun l => sends l = [])).
Lemma ns_app_ (b : bool) l1 l2 : sends l1 = [] -> sends l2 = [] -> sends (l1 ++ l2) = [].
Proof. rewrite sends_app. intros -> ->. reflexivity. Qed.
Lemma ns_app l1 l2 : sends l1 = [] -> sends l2 = [] -> sends (l1 ++ l2) = [].
Proof. rewrite sends_app. intros -> ->. reflexivity. Qed.
Lemma NS_ret {A} (a : A) : NS (Ret a).
Proof. apply holds_ret; auto. Qed.
Lemma NS_raise {A} e : NS (Raise e : jpgm A).
Proof. apply holds_raise; auto. Qed.
Lemma NS_bind {A B} (p : jpgm A) (f : A -> jpgm B) : NS p -> (forall a, NS (f a)) -> NS (bind p f).
Proof. apply (holds_bind (fun _ l => sends l = []) (fun l => sends l = [])); [exact ns_app_ | exact ns_app]. Qed.
Definition sendless (o : jop) : bool := match o with JSend _ => false | _ => true end.
Lemma NS_act o : sendless o = true -> NS (jact o).
Proof.
  intros N l q H. cbn in H. destruct H as [[-> ->]|(r & l' & -> & H)].
  - cbn. auto.
  - assert (V : sends (views (Ev o r :: l')) = []).
    { destruct r; cbn in H; destruct H as [-> ->]; destruct o; try discriminate N; reflexivity. }
    auto.
Qed.
Lemma NS_crash {A} : NS (crash : jpgm A).
Proof. unfold crash. apply NS_bind; [apply NS_act; reflexivity | intros; apply NS_raise]. Qed.
Lemma NS_wait_start f t : NS (wait_start f t).
Proof.
  induction f as [|f IH]; cbn [wait_start]; (destruct (t_start_with t); [|apply NS_ret]); [apply NS_raise|].
  apply NS_bind; [apply NS_act; reflexivity | intros l]. destruct (mem s l); [apply NS_ret | exact IH].
Qed.
Lemma NS_wait_ready f : NS (wait_ready f).
Proof.
  induction f as [|f IH]; cbn [wait_ready]; [apply NS_raise|].
  apply NS_bind; [apply NS_act; reflexivity | intros s].
  destruct s as [| | |[|] ? ?]; try exact IH; [apply NS_crash | apply NS_ret].
Qed.
Lemma NS_wait_running f t0 : NS (wait_running f t0).
Proof.
  induction f as [|f IH]; cbn [wait_running]; [apply NS_raise|].
  apply NS_bind; [apply NS_act; reflexivity | intros now].
  apply NS_bind; [apply NS_act; reflexivity | intros s].
  assert (G : NS (if MAX_TASK_WAIT <? now - t0 then crash else wait_running f t0)).
  { destruct (MAX_TASK_WAIT <? now - t0); [apply NS_crash | exact IH]. }
  cbv zeta.
  destruct s as [| | |? [|] [[|]|]]; try exact G; first [apply NS_crash | apply NS_ret].
Qed.
Lemma NS_store d : NS (store d).
Proof. destruct d; [apply NS_crash | apply NS_ret | exact (NS_act (JStore d) eq_refl)]. Qed.
Lemma NS_task_loop f pr t : forall tp, NS (task_loop f pr t tp).
Proof.
  induction f as [|f IH]; intros tp; cbn [task_loop]; [apply NS_raise|].
  apply NS_bind; [apply NS_act; reflexivity | intros tn].
  apply NS_bind; [|intros tp'].
  - destruct (pr <? tn - tp); [|apply NS_ret].
    apply NS_bind; [apply NS_act; reflexivity | intros d].
    apply NS_bind; [apply NS_store | intros; apply NS_ret].
  - apply NS_bind; [apply NS_act; reflexivity | intros s].
    assert (G : NS (match t_stop_with t with
          | None => task_loop f pr t tp'
          | Some n =>
              l <- jact JNames;;
              if mem n (l : list string) then d <- jact JStop;; store d
              else task_loop f pr t tp'
          end)).
    { destruct (t_stop_with t) as [n|]; [|apply IH].
      apply NS_bind; [apply NS_act; reflexivity | intros l].
      destruct (mem n l); [|apply IH].
      apply NS_bind; [apply NS_act; reflexivity | intros d; apply NS_store]. }
    destruct s as [| | |? [|] [[|]|]]; try exact G; first [apply NS_crash | apply NS_ret].
Qed.

(** What the phases of a task have seen when they are over. *)
Lemma leads_act {B} o (k : jresp o -> jpgm B) l q : leads (x <- jact o;; k x) l q ->
  (l = [] /\ forall b, q <> Ret b) \/
  (exists e, l = [Ev o (Err e)] /\ q = Raise e) \/
  (exists x l', l = Ev o (Ok x) :: l' /\ leads (k x) l' q).
Proof.
  cbn. intros [[-> ->]|(r & l' & -> & H)].
  - left. split; [reflexivity | discriminate].
  - right. destruct r as [x|e]; cbn in H.
    + right. exists x, l'. auto.
    + left. destruct H as [-> ->]. exists e. auto.
Qed.
Ltac act H x := let l := fresh "l'" in
  let N := fresh "N" in let Q := fresh "Q" in let K := fresh "K" in
  destruct (leads_act _ _ _ _ H) as [[-> N]|[(? & -> & Q)|(x & l & -> & K)]];
  [try (exfalso; exact (N _ eq_refl)) | try discriminate Q | clear H; rename K into H].

Lemma wait_start_seen f t : forall l, leads (wait_start f t) l (Ret tt) ->
  forall n, t_start_with t = Some n -> exists ns, In (VNames ns) (views l) /\ In n ns.
Proof.
  induction f as [|f IH]; intros l H n E; cbn [wait_start] in H; rewrite E in H.
  - destruct H as [_ H]; discriminate H.
  - act H ns. destruct (mem n ns) eqn:M.
    + exists ns. split; [left; reflexivity|]. apply mem_In. exact M.
    + destruct (IH _ H n E) as (ms & I1 & I2). exists ms. split; [right; exact I1 | exact I2].
Qed.
Lemma wait_ready_seen f : forall l, leads (wait_ready f) l (Ret tt) ->
  exists l' r c, views l = (l' ++ [VStatus (SState true r c)])%list.
Proof.
  induction f as [|f IH]; intros l H; cbn [wait_ready] in H.
  - destruct H as [_ H]; discriminate H.
  - act H s.
    assert (G : leads (wait_ready f) l' (Ret tt) -> exists m r c,
      views (Ev JStatus (Ok s) :: l') = (m ++ [VStatus (SState true r c)])%list).
    { intros K. destruct (IH _ K) as (m & r & c & E). exists (VStatus s :: m), r, c. cbn.
      fold (views l'). rewrite E. reflexivity. }
    destruct s as [| | |[|] r c]; try (exact (G H)).
    + exfalso. exact (proj2 (leads_crash _ _ H) tt eq_refl).
    + destruct H as [-> _]. exists [], r, c. reflexivity.
Qed.
Lemma wait_running_seen f t0 : forall l, leads (wait_running f t0) l (Ret tt) ->
  exists l' s, views l = (l' ++ [s])%list /\ shows_running s.
Proof.
  induction f as [|f IH]; intros l H; cbn [wait_running] in H.
  - destruct H as [_ H]; discriminate H.
  - act H now. act H s. cbv zeta in H.
    assert (G : leads (if MAX_TASK_WAIT <? now - t0 then crash else wait_running f t0) l'0 (Ret tt) ->
      exists m v, views (Ev JClock (Ok now) :: Ev JStatus (Ok s) :: l'0) = (m ++ [v])%list /\ shows_running v).
    { intros K. destruct (MAX_TASK_WAIT <? now - t0).
      - exfalso. exact (proj2 (leads_crash _ _ K) tt eq_refl).
      - destruct (IH _ K) as (m & v & E & S). exists (VClock now :: VStatus s :: m), v. cbn.
        fold (views l'0). rewrite E. auto. }
    destruct s as [| | |? [|] [[|]|]]; try (exact (G H));
      try (exfalso; exact (proj2 (leads_crash _ _ H) tt eq_refl));
      destruct H as [-> _]; exists [VClock now]; eexists; (split; [reflexivity | exact I]).
Qed.
Definition over_or_refused (v : jview) : Prop := shows_end v \/ shows_refusal v.
Lemma store_offline d l : leads (store d) l (Ret tt) -> d <> DOffline.
Proof. intros H ->. exact (proj2 (leads_crash _ _ H) tt eq_refl). Qed.
Lemma task_loop_seen f pr t : forall tp l, leads (task_loop f pr t tp) l (Ret tt) ->
  exists l1 e l2, views l = (l1 ++ e :: l2)%list /\ over_or_refused e.
Proof.
  induction f as [|f IH]; intros tp l H; cbn [task_loop] in H.
  - destruct H as [_ H]; discriminate H.
  - act H tn.
    destruct (leads_bind_ret _ _ _ _ H) as (tp' & la & lb & -> & Ha & Hb). clear H.
    act Hb s. rename Hb into H.
    assert (G : forall m, leads (task_loop f pr t tp') m (Ret tt) -> forall pre,
      exists l1 e l2, (pre ++ views m)%list = (l1 ++ e :: l2)%list /\ over_or_refused e).
    { intros m K pre. destruct (IH _ _ K) as (l1 & e & l2 & E & O). exists (pre ++ l1)%list, e, l2.
      rewrite E, <- app_assoc. auto. }
    assert (G2 : leads (match t_stop_with t with
          | None => task_loop f pr t tp'
          | Some n =>
              l <- jact JNames;;
              if mem n (l : list string) then d <- jact JStop;; store d
              else task_loop f pr t tp'
          end) l' (Ret tt) -> forall pre,
      exists l1 e l2, (pre ++ views l')%list = (l1 ++ e :: l2)%list /\ over_or_refused e).
    { intros K pre. destruct (t_stop_with t) as [n|]; [|apply G; exact K].
      act K ns. destruct (mem n ns).
      - act K d. exists (pre ++ [VNames ns])%list, (VStop d), (views l').
        split; [rewrite <- app_assoc; reflexivity|]. left. cbn. apply (store_offline _ _ K).
      - destruct (G _ K (pre ++ [VNames ns])%list) as (l1 & e & l2 & E & O). exists l1, e, l2.
        split; [|exact O]. rewrite <- E, <- app_assoc. reflexivity. }
    assert (V : forall b, views (Ev JClock b :: la ++ Ev JStatus (Ok s) :: l') =
       ((view (Ev JClock b) :: views la ++ [VStatus s]) ++ views l')%list).
    { intros b. cbn. rewrite views_app. cbn. f_equal. rewrite <- app_assoc. reflexivity. }
    rewrite V.
    assert (G3 : over_or_refused (VStatus s) -> exists l1 e l2,
      ((view (Ev JClock (Ok tn)) :: views la ++ [VStatus s]) ++ views l')%list = (l1 ++ e :: l2)%list /\ over_or_refused e).
    { intros O. exists (VClock tn :: views la), (VStatus s), (views l'). split; [|exact O].
      cbn. rewrite <- app_assoc. reflexivity. }
    destruct s as [| | |? [|] [[|]|]]; try (exact (G2 H _));
      try (exfalso; exact (proj2 (leads_crash _ _ H) tt eq_refl)); apply G3;
      unfold over_or_refused, shows_refusal; cbn; auto.
Qed.
