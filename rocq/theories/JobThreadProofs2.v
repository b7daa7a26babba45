(** * JobThreadProofs2: when tasks are sent, how a worker ends *)
From Coq Require Import List String ZArith Bool Lia.
From Verif Require Import Base BaseFacts Types Prog JobThreadModel SpecWorker JobThreadProofs.
Import ListNotations.
Open Scope prog_scope.
Open Scope Z_scope.

(** What follows the submission of a task. *)
Definition after_send (f : nat) (pr : Z) (c : option (list task)) (t : task) (t0 : Z) : jpgm (option (list task)) :=
  wait_running f t0;;;
  tp <- jact JClock;;
  task_loop f pr t tp;;;
  d <- jact JData;;
  store d;;;
  match c with
  | None => Raise AttributeError
  | Some _ => jact (JCurrent None);;; Ret None
  end.

Lemma NS_after_send f pr c t t0 : NS (after_send f pr c t t0).
Proof.
  unfold after_send.
  apply NS_bind; [apply NS_wait_running | intros _].
  apply NS_bind; [apply NS_act; reflexivity | intros tp].
  apply NS_bind; [apply NS_task_loop | intros _].
  apply NS_bind; [apply NS_act; reflexivity | intros d].
  apply NS_bind; [apply NS_store | intros _].
  destruct c; [|apply NS_raise].
  apply NS_bind; [apply NS_act; reflexivity | intros _; apply NS_ret].
Qed.

Lemma bind_not_ret {A B} (p : jpgm A) (f : A -> jpgm B) :
  (forall a, p <> Ret a) -> forall b, bind p f <> Ret b.
Proof. intros N b E. destruct p as [a|e|o k]; cbn in E; try discriminate E. exact (N a eq_refl). Qed.

Lemma leads_bind2 {A B} (p : jpgm A) (f : A -> jpgm B) : forall l q,
  leads (bind p f) l q ->
  (exists p', leads p l p' /\ (forall b, q <> Ret b) /\ forall e, q = Raise e -> p' = Raise e) \/
  (exists a l1 l2, l = l1 ++ l2 /\ leads p l1 (Ret a) /\ leads (f a) l2 q)%list.
Proof.
  induction p as [a|e|o k IH]; intros l q H.
  - right. exists a, [], l. cbn. auto.
  - left. exists (Raise e). cbn in *. destruct H as [-> ->].
    split; [auto|]. split; [discriminate | intros e' E; injection E as ->; reflexivity].
  - cbn in H. destruct H as [[-> ->]|(r & l' & -> & H)].
    + left. exists (Op o k). cbn. split; [auto|]. split; [discriminate | intros e E; discriminate E].
    + destruct (IH r _ _ H) as [(p' & H1 & H2)|(a & l1 & l2 & -> & H1 & H2)].
      * left. exists p'. split; [right; exists r, l'; auto | exact H2].
      * right. exists a, (Ev o r :: l1), l2. split; [reflexivity|].
        split; [right; exists r, l1; auto | exact H2].
Qed.

Lemma leads_one o l x : leads (jact o) l (Ret x) -> l = [Ev o (Ok x)].
Proof.
  cbn. intros [[_ E]|(r & l' & -> & H)]; [discriminate E|].
  destruct r as [y|e]; cbn in H; destruct H as [-> E]; [|discriminate E].
  injection E as ->. reflexivity.
Qed.

(** ** How a worker ends *)
Definition why (l : list jview) (e : exn) : Prop := e = OutOfFuel \/ In VFail l \/ In VCrash l.
Definition EN {A} (p : jpgm A) : Prop := forall l e, leads p l (Raise e) -> why (views l) e.
Lemma why_app x l e : why l e -> why (x ++ l)%list e.
Proof. intros [H|[H|H]]; unfold why; rewrite !in_app_iff; auto. Qed.
Lemma EN_ret {A} (a : A) : EN (Ret a).
Proof. intros l e [_ E]. discriminate E. Qed.
Lemma EN_fuel {A} : EN (Raise OutOfFuel : jpgm A).
Proof. intros l e [_ E]. injection E as ->. left. reflexivity. Qed.
Lemma EN_act o : EN (jact o).
Proof.
  intros l e H. cbn in H. destruct H as [[_ E]|(r & l' & -> & H)]; [discriminate E|].
  destruct r as [x|e']; cbn in H; destruct H as [-> E]; [discriminate E|].
  right. left. left. destruct o; reflexivity.
Qed.
Lemma EN_bind {A B} (p : jpgm A) (f : A -> jpgm B) : EN p -> (forall a, EN (f a)) -> EN (bind p f).
Proof.
  intros Hp Hf l e H. destruct (leads_bind2 _ _ _ _ H) as [(p' & H1 & _ & R)|(a & l1 & l2 & -> & H1 & H2)].
  - rewrite (R e eq_refl) in H1. exact (Hp _ _ H1).
  - rewrite views_app. apply why_app, (Hf _ _ _ H2).
Qed.
Lemma EN_crash {A} : EN (crash : jpgm A).
Proof.
  intros l e H. cbn in H. destruct H as [[_ E]|(r & l' & -> & H)]; [discriminate E|].
  destruct r as [x|e']; cbn in H; destruct H as [-> E].
  - right. right. left. reflexivity.
  - right. left. left. reflexivity.
Qed.
Lemma EN_wait_start f t : EN (wait_start f t).
Proof.
  induction f as [|f IH]; cbn [wait_start]; (destruct (t_start_with t); [|apply EN_ret]); [apply EN_fuel|].
  apply EN_bind; [apply EN_act | intros l]. destruct (mem s l); [apply EN_ret | exact IH].
Qed.
Lemma EN_wait_ready f : EN (wait_ready f).
Proof.
  induction f as [|f IH]; cbn [wait_ready]; [apply EN_fuel|].
  apply EN_bind; [apply EN_act | intros s].
  destruct s as [| | |[|] ? ?]; try exact IH; [apply EN_crash | apply EN_ret].
Qed.
Lemma EN_wait_running f t0 : EN (wait_running f t0).
Proof.
  induction f as [|f IH]; cbn [wait_running]; [apply EN_fuel|].
  apply EN_bind; [apply EN_act | intros now].
  apply EN_bind; [apply EN_act | intros s].
  assert (G : EN (if MAX_TASK_WAIT <? now - t0 then crash else wait_running f t0)).
  { destruct (MAX_TASK_WAIT <? now - t0); [apply EN_crash | exact IH]. }
  cbv zeta.
  destruct s as [| | |? [|] [[|]|]]; try exact G; first [apply EN_crash | apply EN_ret].
Qed.
Lemma EN_store d : EN (store d).
Proof. destruct d; [apply EN_crash | apply EN_ret | exact (EN_act (JStore d))]. Qed.
Lemma EN_task_loop f pr t : forall tp, EN (task_loop f pr t tp).
Proof.
  induction f as [|f IH]; intros tp; cbn [task_loop]; [apply EN_fuel|].
  apply EN_bind; [apply EN_act | intros tn].
  apply EN_bind; [|intros tp'].
  - destruct (pr <? tn - tp); [|apply EN_ret].
    apply EN_bind; [apply EN_act | intros d].
    apply EN_bind; [apply EN_store | intros; apply EN_ret].
  - apply EN_bind; [apply EN_act | intros s].
    assert (G : EN (match t_stop_with t with
          | None => task_loop f pr t tp'
          | Some n =>
              l <- jact JNames;;
              if mem n (l : list string) then d <- jact JStop;; store d
              else task_loop f pr t tp'
          end)).
    { destruct (t_stop_with t) as [n|]; [|apply IH].
      apply EN_bind; [apply EN_act | intros l].
      destruct (mem n l); [|apply IH].
      apply EN_bind; [apply EN_act | intros d; apply EN_store]. }
    destruct s as [| | |? [|] [[|]|]]; try exact G; first [apply EN_crash | apply EN_ret].
Qed.

(** One task: either it was not sent, or it was sent once, after the component was seen to
    accept tasks and the name waited for was announced. *)
Lemma one_task_cases f pr c t l q : leads (one_task f pr c t) l q ->
  (sends (views l) = [] /\ (forall a, q <> Ret a) /\ (forall e, q = Raise e -> why (views l) e)) \/
  exists pre z b post, l = (pre ++ Ev JClock (Ok z) :: Ev (JSend t) (Ok b) :: post)%list
    /\ sends (views pre) = [] /\ sends (views post) = []
    /\ (exists m r c', views pre = (VCurrent (Some t) :: m ++ [VStatus (SState true r c')])%list)
    /\ (forall n, t_start_with t = Some n -> exists ns, In (VNames ns) (views pre) /\ In n ns)
    /\ ((b = BOffline /\ leads (crash : jpgm (option (list task))) post q)
        \/ exists s, b = BAnswer s /\ leads (after_send f pr c t z) post q).
Proof.
  unfold one_task. intros H.
  destruct (leads_bind2 _ _ _ _ H) as [(p' & H1 & N & R)|(u & l1 & m1 & -> & H1 & H2)]; clear H.
  { left. split; [apply (NS_act (JCurrent (Some t)) eq_refl _ _ H1)|]. split; [exact N|].
    intros e E. rewrite (R e E) in H1. exact (EN_act _ _ _ H1). }
  apply leads_one in H1. subst l1.
  destruct (leads_bind2 _ _ _ _ H2) as [(p' & H1 & N & R)|(u2 & l2 & m2 & -> & W1 & H3)]; clear H2.
  { left. split; [apply (NS_wait_start _ _ _ _ H1)|]. split; [exact N|].
    intros e E. rewrite (R e E) in H1. rewrite views_app. apply why_app, (EN_wait_start _ _ _ _ H1). }
  pose proof (proj1 (NS_wait_start _ _ _ _ W1)) as S1.
  destruct u2. pose proof (wait_start_seen _ _ _ W1) as W2.
  destruct (leads_bind2 _ _ _ _ H3) as [(p' & H1 & N & R)|(u3 & l3 & m3 & -> & R1 & H4)]; clear H3.
  { left. split; [|split; [exact N|]].
    - cbn [app views map sends view]. change (map view) with views.
      rewrite views_app, sends_app, S1. apply (NS_wait_ready _ _ _ H1).
    - intros e E. rewrite (R e E) in H1. rewrite !views_app. apply why_app, why_app, (EN_wait_ready _ _ _ H1). }
  pose proof (proj1 (NS_wait_ready _ _ _ R1)) as S2.
  destruct u3. destruct (wait_ready_seen _ _ R1) as (m & r & c' & R2).
  set (pre := Ev (JCurrent (Some t)) (Ok u) :: l2 ++ l3).
  assert (SP : sends (views pre) = []).
  { subst pre. cbn [views map sends view]. change (map view) with views.
    rewrite views_app, sends_app, S1. exact S2. }
  assert (EP : forall x, ([Ev (JCurrent (Some t)) (Ok u)] ++ l2 ++ l3 ++ x)%list = (pre ++ x)%list).
  { intros x. subst pre. cbn. rewrite <- app_assoc. reflexivity. }
  rewrite EP.
  assert (WF : forall o e, why (views [Ev o (Err e)]) e).
  { intros o e. right. left. left. destruct o; reflexivity. }
  assert (NR : forall A (p : jpgm A) o k, p = Op o k -> (forall a, p <> Ret a) /\ (forall e, p = Raise e -> False)).
  { intros A p o k ->. split; [discriminate | intros e E; discriminate E]. }
  cbn in H4. destruct H4 as [[-> ->]|(z' & m4 & -> & H5)].
  { left. rewrite app_nil_r. split; [exact SP|]. split; [discriminate | intros e E; discriminate E]. }
  destruct z' as [z|e].
  2:{ cbn in H5. destruct H5 as [-> ->]. left. rewrite views_app, sends_app, SP. split; [reflexivity|].
      split; [discriminate|]. intros e' E. injection E as ->. apply why_app, WF. }
  cbn in H5. destruct H5 as [[-> ->]|(b' & m5 & -> & H6)].
  { left. rewrite views_app, sends_app, SP. split; [reflexivity|]. split; [discriminate | intros e E; discriminate E]. }
  destruct b' as [b|e].
  2:{ cbn in H6. destruct H6 as [-> ->]. left. rewrite views_app, sends_app, SP. split; [reflexivity|].
      split; [discriminate|]. intros e' E. injection E as ->. apply why_app.
      apply (why_app [VClock z] [VFail]). apply (WF (JSend t)). }
  cbn [bind] in H6.
  right. exists pre, z, b, m5. split; [reflexivity|]. split; [exact SP|].
  assert (PP : (sends (views m5) = []) /\ ((b = BOffline /\ leads (crash : jpgm (option (list task))) m5 q)
        \/ exists s, b = BAnswer s /\ leads (after_send f pr c t z) m5 q)).
  { destruct b as [|s].
    - split; [apply (NS_crash _ _ H6) | left; auto].
    - split; [apply (NS_after_send _ _ _ _ _ _ _ H6) | right; exists s; auto]. }
  destruct PP as [P1 P2]. split; [exact P1|]. split; [|split; [|exact P2]].
  - exists (views l2 ++ m)%list, r, c'. subst pre. cbn [views map view app].
    change (map view) with views. rewrite views_app, R2, app_assoc. reflexivity.
  - intros n E. destruct (W2 n E) as (ns & I1 & I2). exists ns. split; [|exact I2].
    subst pre. cbn [views map view]. change (map view) with views. rewrite views_app.
    right. apply in_or_app. left. exact I1.
Qed.

(** After a task has been sent and dealt with, it was seen running and later over. *)
Lemma after_send_seen f pr c t t0 l a : leads (after_send f pr c t t0) l (Ret a) ->
  seen_over over_or_refused (rev (views l)) /\ c <> None.
Proof.
  unfold after_send. intros H.
  destruct (leads_bind_ret _ _ _ _ H) as (u1 & l1 & m1 & -> & H1 & H2). clear H.
  destruct (leads_bind_ret _ _ _ _ H2) as (tp & l2 & m2 & -> & K2 & H3). clear H2.
  destruct (leads_bind_ret _ _ _ _ H3) as (u3 & l3 & m3 & -> & H4 & H5). clear H3.
  destruct u1, u3.
  destruct (wait_running_seen _ _ _ H1) as (x & s & E1 & R).
  destruct (task_loop_seen _ _ _ _ _ H4) as (y1 & e & y2 & E2 & O).
  split.
  - rewrite !views_app, E1, E2.
    exists (rev (y2 ++ views m3))%list, e, (rev (views l2 ++ y1))%list, s, (rev x).
    split; [|split; [exact O | exact R]].
    repeat (rewrite rev_app_distr; cbn [rev]). repeat (rewrite <- app_assoc; cbn [app]). reflexivity.
  - intros ->. act H5 d. destruct (leads_bind_ret _ _ _ _ H5) as (u & l5 & m5 & _ & _ & H6).
    destruct H6 as [_ H6]. discriminate H6.
Qed.

Lemma sends_ok_skip over first l2 : forall l1 past, sends l1 = [] ->
  sends_ok over first past (l1 ++ l2) <-> sends_ok over first (rev l1 ++ past) l2.
Proof.
  induction l1 as [|e l1 IH]; intros past S; [reflexivity|].
  cbn [rev]. rewrite <- app_assoc. cbn [app].
  destruct e; try discriminate S; cbn [sends_ok app]; apply IH; exact S.
Qed.
Lemma sends_ok_none over first : forall l past, sends l = [] -> sends_ok over first past l.
Proof.
  intros l past S. rewrite <- (app_nil_r l). apply sends_ok_skip; [exact S | exact I].
Qed.
Lemma seen_over_more over x past : seen_over over past -> seen_over over (x ++ past)%list.
Proof.
  intros (a & e & b & s & c & -> & O & R). exists (x ++ a)%list, e, b, s, c.
  rewrite <- app_assoc. auto.
Qed.

Definition prefix {X} (a b : list X) : Prop := exists r, b = (a ++ r)%list.

(** C60 and C59 for the loop over the tasks. *)
Lemma tasks_sent f pr : forall ts c first past l q,
  (first = false -> seen_over over_or_refused past) ->
  leads (forP (one_task f pr) c ts) l q ->
  sends_ok over_or_refused first past (views l) /\ prefix (sends (views l)) ts
  /\ (forall a, q = Ret a -> sends (views l) = ts).
Proof.
  induction ts as [|t ts IH]; intros c first past l q F H; cbn [forP] in H.
  - destruct H as [-> ->]. cbn. split; [exact I|]. split; [exists []; reflexivity | reflexivity].
  - assert (TASK : forall pre z b post rest,
      sends (views pre) = [] -> sends (views post) = [] ->
      (exists m r c', views pre = (VCurrent (Some t) :: m ++ [VStatus (SState true r c')])%list) ->
      (forall n, t_start_with t = Some n -> exists ns, In (VNames ns) (views pre) /\ In n ns) ->
      sends_ok over_or_refused false (rev (views post)) rest ->
      sends_ok over_or_refused first past
        (views (pre ++ Ev JClock (Ok z) :: Ev (JSend t) (Ok b) :: post) ++ rest)
      /\ sends (views (pre ++ Ev JClock (Ok z) :: Ev (JSend t) (Ok b) :: post) ++ rest) = t :: sends rest).
    { intros pre z b post rest S1 S2 (m & r & c' & E) W R.
      rewrite views_app, <- app_assoc. split.
      - apply sends_ok_skip; [exact S1|]. cbn [views map view app sends_ok].
        split.
        + split; [|split].
          * exists z, r, c', ((rev m ++ [VCurrent (Some t)]) ++ past)%list. rewrite E. cbn [rev].
            rewrite rev_app_distr. cbn. reflexivity.
          * intros n En. destruct (W n En) as (ns & I1 & I2). exists ns. split; [|exact I2].
            right. apply in_or_app. left. rewrite <- in_rev. exact I1.
          * intros Ef. exists (VClock z :: rev (m ++ [VStatus (SState true r c')]))%list, past.
            split; [|apply F, Ef]. rewrite E. cbn [rev app]. rewrite <- app_assoc. reflexivity.
        + change (map view) with views.
          apply sends_ok_skip; [exact S2|]. rewrite app_nil_r. exact R.
      - rewrite sends_app, S1. cbn [views map view app sends]. change (map view) with views.
        rewrite sends_app, S2. reflexivity. }
    destruct (leads_bind2 _ _ _ _ H) as [(p' & H1 & N & _)|(c2 & l1 & l2 & -> & H1 & H2)]; clear H.
    + destruct (one_task_cases _ _ _ _ _ _ H1) as [(S & _)|(pre & z & b & post & -> & S1 & S2 & R1 & W & _)].
      * split; [apply sends_ok_none; exact S|]. rewrite S.
        split; [exists (t :: ts); reflexivity | intros a E; exfalso; exact (N a E)].
      * destruct (TASK pre z b post [] S1 S2 R1 W I) as [T1 T2]. rewrite app_nil_r in T1, T2.
        split; [exact T1|]. rewrite T2. split; [exists ts; reflexivity | intros a E; exfalso; exact (N a E)].
    + destruct (one_task_cases _ _ _ _ _ _ H1) as [(_ & S & _)|(pre & z & b & post & -> & S1 & S2 & R1 & W & K)].
      * exfalso; exact (S c2 eq_refl).
      * destruct K as [[_ K]|(s & -> & K)]; [exfalso; exact (proj2 (leads_crash _ _ K) c2 eq_refl)|].
        destruct (after_send_seen _ _ _ _ _ _ _ K) as [SO _].
        destruct (IH c2 false (rev (views post)) l2 q (fun _ => SO) H2) as (I1 & (x & I2) & I3).
        destruct (TASK pre z (BAnswer s) post (views l2) S1 S2 R1 W I1) as [T1 T2].
        rewrite (views_app _ l2).
        split; [exact T1|]. rewrite T2. split.
        -- exists x. rewrite I2. reflexivity.
        -- intros a E. rewrite (I3 a E). reflexivity.
Qed.

Lemma NS_reset : NS (b <- jact JReset;; match (b : bans) with BOffline => crash | BAnswer _ => Ret tt end).
Proof. apply NS_bind; [apply NS_act; reflexivity | intros b; destruct b; [apply NS_crash | apply NS_ret]]. Qed.

Lemma worker_sends f pr ts l q : leads (job_thread f pr ts) l q ->
  sends_ok over_or_refused true [] (views l) /\ prefix (sends (views l)) ts
  /\ (q = Ret tt -> sends (views l) = ts).
Proof.
  unfold job_thread. intros H.
  destruct (leads_bind2 _ _ _ _ H) as [(p' & H1 & N & _)|(a & l1 & l2 & -> & H1 & H2)]; clear H.
  - destruct (tasks_sent f pr ts (Some []) true [] l p') as (A & B & _); [discriminate | exact H1 |].
    split; [exact A|]. split; [exact B|]. intros E. exfalso; exact (N tt E).
  - destruct (tasks_sent f pr ts (Some []) true [] l1 (Ret a)) as (A & B & C); [discriminate | exact H1 |].
    pose proof (proj1 (NS_reset _ _ H2)) as S2.
    rewrite views_app, sends_app, S2, app_nil_r.
    split; [|split; [exact B | intros _; exact (C a eq_refl)]].
    clear -A S2. revert A. generalize true, (@nil jview). induction (views l1) as [|e m IH]; intros b p A.
    + apply sends_ok_none. exact S2.
    + destruct e; cbn [app sends_ok] in *; try (apply IH; exact A).
      destruct A as [A1 A2]. split; [exact A1 | apply IH; exact A2].
Qed.

(** A task ends with an exception for one of these reasons, or because it is not the
    first of its worker. *)
Lemma after_send_ends f pr c t t0 l e : leads (after_send f pr c t t0) l (Raise e) ->
  why (views l) e \/ (c = None /\ e = AttributeError).
Proof.
  destruct c as [c|].
  - intros H. left. revert l e H. change (EN (after_send f pr (Some c) t t0)). unfold after_send.
    apply EN_bind; [apply EN_wait_running | intros _].
    apply EN_bind; [apply EN_act | intros tp].
    apply EN_bind; [apply EN_task_loop | intros _].
    apply EN_bind; [apply EN_act | intros d].
    apply EN_bind; [apply EN_store | intros _].
    apply EN_bind; [apply EN_act | intros; apply EN_ret].
  - unfold after_send. intros H.
    destruct (leads_bind2 _ _ _ _ H) as [(p' & H1 & _ & R)|(a & l1 & l2 & -> & _ & H2)]; clear H.
    { rewrite (R e eq_refl) in H1. left. exact (EN_wait_running _ _ _ _ H1). }
    destruct (leads_bind2 _ _ _ _ H2) as [(p' & H1 & _ & R)|(a2 & l3 & l4 & -> & _ & H3)]; clear H2.
    { rewrite (R e eq_refl) in H1. left. rewrite views_app. apply why_app, (EN_act _ _ _ H1). }
    destruct (leads_bind2 _ _ _ _ H3) as [(p' & H1 & _ & R)|(a3 & l5 & l6 & -> & _ & H4)]; clear H3.
    { rewrite (R e eq_refl) in H1. left. rewrite !views_app. apply why_app, why_app, (EN_task_loop _ _ _ _ _ _ H1). }
    destruct (leads_bind2 _ _ _ _ H4) as [(p' & H1 & _ & R)|(a4 & l7 & l8 & -> & _ & H5)]; clear H4.
    { rewrite (R e eq_refl) in H1. left. rewrite !views_app. apply why_app, why_app, why_app, (EN_act _ _ _ H1). }
    destruct (leads_bind2 _ _ _ _ H5) as [(p' & H1 & _ & R)|(a5 & l9 & l10 & -> & _ & H6)]; clear H5.
    { rewrite (R e eq_refl) in H1. left. rewrite !views_app.
      do 4 apply why_app. exact (EN_store _ _ _ H1). }
    destruct H6 as [_ E]. injection E as ->. right. auto.
Qed.
Lemma after_send_ret f pr c t t0 l a : leads (after_send f pr c t t0) l (Ret a) -> a = None.
Proof.
  unfold after_send. intros H.
  destruct (leads_bind_ret _ _ _ _ H) as (u1 & l1 & m1 & -> & _ & H2). clear H.
  destruct (leads_bind_ret _ _ _ _ H2) as (tp & l2 & m2 & -> & _ & H3). clear H2.
  destruct (leads_bind_ret _ _ _ _ H3) as (u3 & l3 & m3 & -> & _ & H5). clear H3.
  destruct (leads_bind_ret _ _ _ _ H5) as (u4 & l4 & m4 & -> & _ & H6). clear H5.
  destruct (leads_bind_ret _ _ _ _ H6) as (u5 & l5 & m5 & -> & _ & H7). clear H6.
  destruct c; [|destruct H7 as [_ H7]; discriminate H7].
  destruct (leads_bind_ret _ _ _ _ H7) as (u6 & l6 & m6 & -> & _ & [_ E]).
  injection E as ->. reflexivity.
Qed.
Lemma one_task_ends f pr c t l e : leads (one_task f pr c t) l (Raise e) ->
  why (views l) e \/ (c = None /\ e = AttributeError /\ sends (views l) = [t]).
Proof.
  intros H. destruct (one_task_cases _ _ _ _ _ _ H) as
    [(S & _ & N)|(pre & z & b & post & -> & S1 & S2 & _ & _ & [[-> K]|(s & -> & K)])].
  - left. apply N. reflexivity.
  - left. rewrite views_app. apply why_app.
    apply (why_app [VClock z; VSend t BOffline] (views post)). exact (EN_crash _ _ K).
  - destruct (after_send_ends _ _ _ _ _ _ _ K) as [W|[-> ->]].
    + left. rewrite views_app. apply why_app. apply (why_app [VClock z; VSend t (BAnswer s)] (views post)). exact W.
    + right. split; [reflexivity|]. split; [reflexivity|].
      rewrite views_app, sends_app, S1. cbn [views map view app sends]. change (map view) with views.
      rewrite S2. reflexivity.
Qed.
Lemma one_task_ret f pr c t l a : leads (one_task f pr c t) l (Ret a) -> c <> None /\ a = None.
Proof.
  intros H. destruct (one_task_cases _ _ _ _ _ _ H) as
    [(S & N & _)|(pre & z & b & post & -> & S1 & S2 & _ & _ & [[-> K]|(s & -> & K)])].
  - exfalso; exact (N a eq_refl).
  - exfalso; exact (proj2 (leads_crash _ _ K) a eq_refl).
  - split; [apply (after_send_seen _ _ _ _ _ _ _ K) | apply (after_send_ret _ _ _ _ _ _ _ K)].
Qed.

(** A worker ends in one of these ways: all tasks sent and no exception (only with at most
    one task); an operation raised, the crash flag was set, or it is still waiting; or an
    AttributeError after exactly two tasks. *)
Lemma worker_end f pr ts l e : leads (job_thread f pr ts) l (Raise e) ->
  why (views l) e \/
  (e = AttributeError /\ exists t1 t2 r, ts = t1 :: t2 :: r /\ sends (views l) = [t1; t2]).
Proof.
  unfold job_thread. intros H.
  destruct (leads_bind2 _ _ _ _ H) as [(p' & H1 & _ & R)|(a & l1 & l2 & -> & H1 & H2)]; clear H.
  2:{ left. rewrite views_app. apply why_app. revert l2 e H2.
      change (EN (b <- jact JReset;; match (b : bans) with BOffline => crash | BAnswer _ => Ret tt end)).
      apply EN_bind; [apply EN_act | intros b; destruct b; [apply EN_crash | apply EN_ret]]. }
  rewrite (R e eq_refl) in H1. clear R p'.
  destruct ts as [|t1 ts]; cbn [forP] in H1; [destruct H1 as [_ E]; discriminate E|].
  destruct (leads_bind2 _ _ _ _ H1) as [(p' & H2 & _ & R)|(c1 & l1 & l2 & -> & H2 & H3)]; clear H1.
  { rewrite (R e eq_refl) in H2. destruct (one_task_ends _ _ _ _ _ _ H2) as [W|(E & _)]; [left; exact W | discriminate E]. }
  destruct (one_task_ret _ _ _ _ _ _ H2) as [_ ->].
  destruct (tasks_sent f pr [t1] (Some []) true [] l1 (Ret None)) as (_ & _ & S1); [discriminate| |].
  { cbn [forP]. clear -H2. remember (one_task f pr (Some []) t1) as p. clear Heqp. revert l1 H2.
    induction p as [a|e|o k IH]; intros l1 H2; cbn in *.
    - destruct H2 as [-> E]. injection E as ->. auto.
    - destruct H2 as [_ E]; discriminate E.
    - destruct H2 as [[_ E]|(r & l' & -> & H)]; [discriminate E|]. right. exists r, l'. auto. }
  specialize (S1 None eq_refl).
  destruct ts as [|t2 ts]; cbn [forP] in H3; [destruct H3 as [_ E]; discriminate E|].
  destruct (leads_bind2 _ _ _ _ H3) as [(p' & H4 & _ & R)|(c2 & l3 & l4 & -> & H4 & _)]; clear H3.
  - rewrite (R e eq_refl) in H4. rewrite views_app, sends_app, S1.
    destruct (one_task_ends _ _ _ _ _ _ H4) as [W|(_ & E & S2)].
    + left. apply why_app. exact W.
    + right. split; [exact E|]. exists t1, t2, ts. rewrite S2. auto.
  - exfalso. exact (proj1 (one_task_ret _ _ _ _ _ _ H4) eq_refl).
Qed.
Lemma worker_ret f pr ts l u : leads (job_thread f pr ts) l (Ret u) ->
  (List.length ts <= 1)%nat /\ sends (views l) = ts /\ exists s, In (VReset (BAnswer s)) (views l).
Proof.
  intros H. pose proof (worker_sends _ _ _ _ _ H) as (_ & _ & S). destruct u. specialize (S eq_refl).
  unfold job_thread in H. destruct (leads_bind_ret _ _ _ _ H) as (a & l1 & l2 & -> & H1 & H2). clear H.
  split; [|split; [exact S|]].
  - destruct ts as [|t1 [|t2 ts]]; cbn; try lia. exfalso.
    cbn [forP] in H1. destruct (leads_bind_ret _ _ _ _ H1) as (c1 & l3 & l4 & -> & H3 & H4).
    destruct (one_task_ret _ _ _ _ _ _ H3) as [_ ->].
    destruct (leads_bind_ret _ _ _ _ H4) as (c2 & l5 & l6 & -> & H5 & _).
    exact (proj1 (one_task_ret _ _ _ _ _ _ H5) eq_refl).
  - act H2 b. destruct b as [|s]; [exfalso; exact (proj2 (leads_crash _ _ H2) tt eq_refl)|].
    exists s. rewrite views_app. apply in_or_app. right. left. reflexivity.
Qed.
