(** * SnapProofs2: when snapshots are made (C106) *)
From Coq Require Import List String ZArith Bool Lia.
From Verif Require Import Base BaseFacts Types Prog JobThreadModel SnapModel SpecSnap.
Import ListNotations.
Open Scope prog_scope.
Open Scope Z_scope.

Lemma mleads_nil {A} (p : mpgm A) : mleads p [] p.
Proof. destruct p; cbn; auto. Qed.
Lemma mleads_bind {A B} (p : mpgm A) (f : A -> mpgm B) : forall l q,
  mleads (bind p f) l q ->
  (exists p', mleads p l p' /\ q = bind p' f /\ forall a, p' <> Ret a) \/
  (exists a l1 l2, l = l1 ++ l2 /\ mleads p l1 (Ret a) /\ mleads (f a) l2 q).
Proof.
  induction p as [a|e|o k IH]; intros l q H.
  - right. exists a, [], l. cbn. auto.
  - left. exists (Raise e). cbn in *. destruct H as [-> ->]. split; [auto|]. split; [auto | discriminate].
  - cbn in H. destruct H as [[-> ->]|(r & l' & -> & H)].
    + left. exists (Op o k). cbn. split; [auto|]. split; [auto | discriminate].
    + destruct (IH r _ _ H) as [(p' & H1 & -> & N)|(a & l1 & l2 & -> & H1 & H2)].
      * left. exists p'. split; [right; exists r, l'; auto | split; [reflexivity | exact N]].
      * right. exists a, (MEv o r :: l1), l2. split; [reflexivity|].
        split; [right; exists r, l1; auto | exact H2].
Qed.
Lemma mleads_more {A} (p q r : mpgm A) l l' : mleads p l q -> mleads q l' r -> mleads p (l ++ l') r.
Proof.
  revert l. induction p as [a|e|o k IH]; intros l H K; cbn in H.
  - destruct H as [-> ->]. exact K.
  - destruct H as [-> ->]. exact K.
  - destruct H as [[-> ->]|(x & l1 & -> & H)]; [exact K|]. cbn. right. exists x, (l1 ++ l')%list.
    split; [reflexivity|]. exact (IH x _ H K).
Qed.
(** Every execution of the job gives such events of its main thread. *)
Lemma jsteps_mleads s s' : jsteps s s' -> exists l, mleads (s_main s) l (s_main s').
Proof.
  intros H. induction H as [s|a b c H [l IH] S]; [exists []; apply mleads_nil|].
  destruct S as [l0 m i k o kont r E P A|l0 l1 o kont r E]; cbn in *; [exists l; exact IH|].
  exists (l ++ [MEv o r])%list. apply (mleads_more _ _ _ _ _ IH). cbn. right. exists r, []. split; [reflexivity|].
  apply mleads_nil.
Qed.

Fixpoint quiet {A} (p : mpgm A) : Prop :=
  match p with
  | Op o k => (match o with MClock | MSnapshot => False | _ => True end) /\ forall r, quiet (k r)
  | _ => True
  end.
Lemma quiet_ticks {A} (p : mpgm A) : quiet p -> forall l q, mleads p l q -> ticks l = [].
Proof.
  induction p as [a|e|o k IH]; intros Q l q H; cbn in H.
  - destruct H as [-> _]. reflexivity.
  - destruct H as [-> _]. reflexivity.
  - destruct H as [[-> _]|(r & l' & -> & H)]; [reflexivity|]. destruct Q as [Q1 Q2]. unfold ticks. cbn [flat_map].
    fold (ticks l'). rewrite (IH r (Q2 r) _ _ H). destruct o; try reflexivity; destruct Q1.
Qed.
Lemma quiet_bind {A B} (p : mpgm A) (f : A -> mpgm B) : quiet p -> (forall a, quiet (f a)) -> quiet (bind p f).
Proof.
  intros Q F. induction p as [a|e|o k IH]; cbn; [apply F|exact I|]. destruct Q as [Q1 Q2]. split; [exact Q1|].
  intros r. apply IH, Q2.
Qed.
Lemma quiet_do o : match o with MClock | MSnapshot => False | _ => True end -> quiet (mact o).
Proof. intros H. cbn. split; [exact H|]. intros [x|e]; exact I. Qed.
Lemma quiet_forP {S A} (f : S -> A -> mpgm S) : (forall s a, quiet (f s a)) -> forall l s, quiet (forP f s l).
Proof. intros F. induction l as [|a l IH]; intros s; cbn; [exact I|]. apply quiet_bind; [apply F|exact IH]. Qed.

(** The events, given how many snapshots were made before. *)
Fixpoint paced (iv t0 n : Z) (l : list tick) : Prop :=
  match l with
  | [] => True
  | TSnap _ :: _ => False
  | TClock z :: r =>
      match r with
      | [] => True
      | TSnap true :: r' => (n + 1) * iv < z - t0 /\ paced iv t0 (n + 1) r'
      | TSnap false :: r' => (n + 1) * iv < z - t0 /\ r' = []
      | TClock _ :: _ => z - t0 <= (n + 1) * iv /\ paced iv t0 n r
      end
  end.
Definition never (l : list tick) : Prop := forall b, ~ In (TSnap b) l.

Lemma ticks_app l1 l2 : ticks (l1 ++ l2) = (ticks l1 ++ ticks l2)%list.
Proof. apply flat_map_app. Qed.

Definition rest (f : nat) (snap : option Z) (ids : list nat) (ts' : Z) (names : list string) : mpgm bool :=
  names' <- forP (fun acc i => o <- mact (MCurrent i);;
                                   Ret (match (o : option string) with
                                        | Some n => if mem n acc then acc else (acc ++ [n])%list
                                        | None => acc
                                        end)) names ids;;
  forP (fun _ i => mact (MPush i names')) tt ids;;;
  crashed <- forP (fun acc i => b <- mact (MCrashed i);; Ret (acc ++ [b : bool])%list) [] ids;;
  joined <- forP (fun acc i => b <- is_joined i;; Ret (acc ++ [b : bool])%list) [] ids;;
  if forallb (fun b => b) joined then Ret (existsb (fun b => b) crashed)
  else main_loop f snap ids ts' names'.

(** After the quiet part the loop goes on, or the program ends or is stuck in it. *)
Lemma rest_ticks f snap ids ts names l q : mleads (rest f snap ids ts names) l q ->
  ticks l = [] \/ exists l1 l2 names', l = (l1 ++ l2)%list /\ ticks l1 = [] /\ mleads (main_loop f snap ids ts names') l2 q.
Proof.
  intros H. unfold rest in H.
  apply mleads_bind in H as [(p' & H & _)|(n' & l1 & l2 & -> & H1 & H)].
  { left. eapply quiet_ticks; [|exact H]. apply quiet_forP. intros s a. apply quiet_bind; [apply quiet_do; exact I|intros; exact I]. }
  assert (T1 : ticks l1 = []).
  { eapply quiet_ticks; [|exact H1]. apply quiet_forP. intros s a. apply quiet_bind; [apply quiet_do; exact I|intros; exact I]. }
  clear H1.
  apply mleads_bind in H as [(p' & H & _)|(u & l3 & l4 & -> & H1 & H)].
  { left. rewrite ticks_app, T1. cbn [app]. eapply quiet_ticks; [|exact H]. apply quiet_forP. intros s a. apply quiet_do. exact I. }
  assert (T2 : ticks l3 = []).
  { eapply quiet_ticks; [|exact H1]. apply quiet_forP. intros s a. apply quiet_do. exact I. }
  clear H1.
  apply mleads_bind in H as [(p' & H & _)|(cr & l5 & l6 & -> & H1 & H)].
  { left. rewrite !ticks_app, T1, T2. cbn [app]. eapply quiet_ticks; [|exact H]. apply quiet_forP. intros s a.
    apply quiet_bind; [apply quiet_do; exact I|intros; exact I]. }
  assert (T3 : ticks l5 = []).
  { eapply quiet_ticks; [|exact H1]. apply quiet_forP. intros s a. apply quiet_bind; [apply quiet_do; exact I|intros; exact I]. }
  clear H1.
  assert (QJ : forall s a, quiet (b <- is_joined a;; Ret (s ++ [b : bool])%list)).
  { intros s a. apply quiet_bind; [|intros; exact I]. unfold is_joined. apply quiet_bind; [apply quiet_do; exact I|].
    intros [|]; [apply quiet_do; exact I|exact I]. }
  apply mleads_bind in H as [(p' & H & _)|(jn & l7 & l8 & -> & H1 & H)].
  { left. rewrite !ticks_app, T1, T2, T3. cbn [app]. eapply quiet_ticks; [|exact H]. apply quiet_forP. exact QJ. }
  assert (T4 : ticks l7 = []) by (eapply quiet_ticks; [|exact H1]; apply quiet_forP; exact QJ).
  destruct (forallb (fun b => b) jn).
  - left. cbn in H. destruct H as [-> _]. rewrite !ticks_app, T1, T2, T3, T4. reflexivity.
  - right. exists (l1 ++ l3 ++ l5 ++ l7)%list, l8, n'. split; [rewrite <- !app_assoc; reflexivity|].
    split; [rewrite !ticks_app, T1, T2, T3, T4; reflexivity|exact H].
Qed.

Lemma loop_unfold f snap ids ts names : main_loop (S f) snap ids ts names =
  bind (mact MClock) (fun tn => bind (match snap with
              | Some iv => if iv <? (tn : Z) - ts then mact MSnapshot;;; Ret (ts + iv) else Ret ts
              | None => Ret ts
              end) (fun ts' => rest f snap ids ts' names)).
Proof. reflexivity. Qed.

(** The loop begins with a reading of the clock. *)
Lemma loop_head f snap ids ts names l q : mleads (main_loop f snap ids ts names) l q ->
  match ticks l with TSnap _ :: _ => False | _ => True end.
Proof.
  destruct f as [|f]; cbn [main_loop]; intros H; [destruct H as [-> _]; exact I|].
  apply mleads_bind in H as [(p' & H & _)|(z & l1 & l2 & -> & H & _)]; cbn in H.
  - destruct H as [[-> _]|(r & l' & -> & H)]; [exact I|]. destruct r as [z|e]; destruct H as [-> _]; exact I.
  - destruct H as [[-> H]|(r & l' & -> & H)]; [discriminate H|]. destruct r as [x|e]; destruct H as [-> H]; [exact I|discriminate H].
Qed.

Lemma loop_paced iv ids t0 : forall f n ts names l q, ts = t0 + n * iv ->
  mleads (main_loop f (Some iv) ids ts names) l q -> paced iv t0 n (ticks l).
Proof.
  induction f as [|f IH]; intros n ts names l q E H; [cbn in H; destruct H as [-> _]; exact I|].
  rewrite loop_unfold in H.
  apply mleads_bind in H as [(p' & H & _)|(z & l1 & l2 & -> & H1 & H)].
  { cbn in H. destruct H as [[-> _]|(r & l' & -> & H)]; [exact I|]. destruct r as [z|e]; destruct H as [-> _]; exact I. }
  assert (T1 : ticks l1 = [TClock z]).
  { cbn in H1. destruct H1 as [[-> H1]|(r & l' & -> & H1)]; [discriminate H1|].
    destruct r as [x|e]; destruct H1 as [-> H1]; [injection H1 as ->; reflexivity|discriminate H1]. }
  clear H1. rewrite ticks_app, T1. cbn [app].
  destruct (Z.ltb_spec iv (z - ts)) as [L|L].
  - apply mleads_bind in H as [(p' & H & _)|(ts' & l3 & l4 & -> & H1 & H)].
    + cbn in H. destruct H as [[-> _]|(r & l' & -> & H)]; [exact I|].
      destruct r as [u|e]; destruct H as [-> _]; cbn [ticks flat_map tick_of app paced]; split; try exact I; try reflexivity; lia.
    + cbn in H1. destruct H1 as [[-> H1]|(r & l' & -> & H1)]; [discriminate H1|].
      destruct r as [u|e]; destruct H1 as [-> H1]; [|discriminate H1]. injection H1 as ->. rewrite ticks_app.
      cbn [ticks flat_map tick_of app paced]. split; [lia|].
      apply rest_ticks in H as [T|(l5 & l6 & names' & -> & T & H)]; [rewrite T; exact I|].
      rewrite ticks_app, T. cbn [app]. eapply (IH (n + 1)); [|exact H]; lia.
  - cbn [bind] in H.
    apply rest_ticks in H as [T|(l5 & l6 & names' & -> & T & H)]; [rewrite T; exact I|].
    rewrite ticks_app, T. cbn [app]. pose proof (IH n _ _ _ _ E H) as P. apply loop_head in H.
    destruct (ticks l6) as [|[z'|b] r]; [exact I| |destruct H]. cbn [paced] in *. split; [lia|exact P].
Qed.
Lemma loop_never ids : forall f ts names l q, mleads (main_loop f None ids ts names) l q -> never (ticks l).
Proof.
  induction f as [|f IH]; intros ts names l q H; [cbn in H; destruct H as [-> _]; intros b []|].
  rewrite loop_unfold in H.
  apply mleads_bind in H as [(p' & H & _)|(z & l1 & l2 & -> & H1 & H)].
  { cbn in H. destruct H as [[-> _]|(r & l' & -> & H)]; [intros b []|].
    destruct r as [z|e]; destruct H as [-> _]; intros b; cbn; intuition discriminate. }
  assert (T1 : ticks l1 = [TClock z]).
  { cbn in H1. destruct H1 as [[-> H1]|(r & l' & -> & H1)]; [discriminate H1|].
    destruct r as [x|e]; destruct H1 as [-> H1]; [injection H1 as ->; reflexivity|discriminate H1]. }
  clear H1. rewrite ticks_app, T1. cbn [bind] in H.
  apply rest_ticks in H as [T|(l5 & l6 & names' & -> & T & H)].
  - rewrite T. intros b [X|[]]. discriminate X.
  - rewrite ticks_app, T. intros b [X|X]; [discriminate X|]. exact (IH _ _ _ _ H b X).
Qed.

(** ** Consequences *)
Lemma snaps_app l1 l2 : snaps (l1 ++ l2) = snaps l1 + snaps l2.
Proof. induction l1 as [|[z|b] r IH]; cbn [app snaps]; lia. Qed.
Lemma paced_ind2 (P : Z -> list tick -> Prop) iv t0 :
  (forall n, P n []) -> (forall n z, P n [TClock z]) ->
  (forall n z, (n + 1) * iv < z - t0 -> P n [TClock z; TSnap false]) ->
  (forall n z r, (n + 1) * iv < z - t0 -> P (n + 1) r -> P n (TClock z :: TSnap true :: r)) ->
  (forall n z z' r, z - t0 <= (n + 1) * iv -> P n (TClock z' :: r) -> P n (TClock z :: TClock z' :: r)) ->
  forall l n, paced iv t0 n l -> P n l.
Proof.
  intros H0 H1 Hf Ht Hc l. remember (List.length l) as k eqn:K. assert (L : (List.length l <= k)%nat) by lia. clear K.
  revert l L. induction k as [|k IH]; intros l L n Pc.
  - destruct l; [apply H0|cbn in L; lia].
  - destruct l as [|[z|b] r]; [apply H0| |destruct Pc]. destruct r as [|[z'|[|]] r'].
    + apply H1.
    + destruct Pc as [A B]. apply Hc; [exact A|]. apply IH; [cbn in *; lia|exact B].
    + destruct Pc as [A B]. apply Ht; [exact A|]. apply IH; [cbn in *; lia|exact B].
    + destruct Pc as [A ->]. apply Hf. exact A.
Qed.
Lemma paced_snap iv t0 l n l1 b l2 : paced iv t0 n l -> l = (l1 ++ TSnap b :: l2)%list ->
  exists l0 z, l1 = (l0 ++ [TClock z])%list /\ (n + snaps l1 + 1) * iv < z - t0 /\ (b = false -> l2 = []).
Proof.
  intros H. revert l1 b l2.
  refine (paced_ind2 (fun n l => forall l1 b l2, l = (l1 ++ TSnap b :: l2)%list ->
    exists l0 z, l1 = (l0 ++ [TClock z])%list /\ (n + snaps l1 + 1) * iv < z - t0 /\ (b = false -> l2 = [])) iv t0 _ _ _ _ _ l n H); clear.
  - intros n l1 b l2 E. destruct l1; discriminate E.
  - intros n z l1 b l2 E. destruct l1 as [|a [|c l1]]; discriminate E.
  - intros n z L l1 b l2 E. destruct l1 as [|a [|c l1]]; [discriminate E| |].
    + injection E as <- <- <-. exists [], z. cbn. repeat split; auto. lia.
    + destruct l1; discriminate E.
  - intros n z r L IH l1 b l2 E. destruct l1 as [|a [|c l1]]; [discriminate E| |].
    + injection E as <- <- <-. exists [], z. cbn. repeat split; [lia|discriminate].
    + injection E as <- <- E. destruct (IH l1 b l2 E) as (l0 & y & -> & A & B). exists (TClock z :: TSnap true :: l0), y.
      split; [reflexivity|]. split; [|exact B]. cbn [snaps app] in *. lia.
  - intros n z z' r L IH l1 b l2 E. destruct l1 as [|a l1]; [discriminate E|]. injection E as <- E.
    destruct (IH l1 b l2 E) as (l0 & y & -> & A & B). exists (TClock z :: l0), y. split; [reflexivity|].
    split; [exact A|exact B].
Qed.
Lemma paced_due iv t0 l n l1 z z' l2 : paced iv t0 n l -> l = (l1 ++ TClock z :: TClock z' :: l2)%list ->
  z - t0 <= (n + snaps l1 + 1) * iv.
Proof.
  intros H. revert l1 z z' l2.
  refine (paced_ind2 (fun n l => forall l1 z z' l2, l = (l1 ++ TClock z :: TClock z' :: l2)%list ->
    z - t0 <= (n + snaps l1 + 1) * iv) iv t0 _ _ _ _ _ l n H); clear.
  - intros n l1 z z' l2 E. destruct l1; discriminate E.
  - intros n x l1 z z' l2 E. destruct l1 as [|a [|c l1]]; discriminate E.
  - intros n x L l1 z z' l2 E. destruct l1 as [|a [|c [|d l1]]]; discriminate E.
  - intros n x r L IH l1 z z' l2 E. destruct l1 as [|a [|c l1]]; [discriminate E|discriminate E|].
    injection E as <- <- E. specialize (IH _ _ _ _ E). cbn [snaps]. lia.
  - intros n x x' r L IH l1 z z' l2 E. destruct l1 as [|a l1].
    + injection E as <- <- <-. cbn [snaps]. lia.
    + injection E as <- E. exact (IH _ _ _ _ E).
Qed.
Lemma paced_time iv t0 g : g <= iv -> forall l n y l1 z b l2, paced iv t0 n l -> brisk g y l -> y - t0 <= (n + 1) * iv ->
  l = (l1 ++ TClock z :: TSnap b :: l2)%list -> z - t0 <= (n + snaps l1 + 1) * iv + g.
Proof.
  intros G l n y l1 z b l2 H. revert y l1 z b l2.
  refine (paced_ind2 (fun n l => forall y l1 z b l2, brisk g y l -> y - t0 <= (n + 1) * iv ->
    l = (l1 ++ TClock z :: TSnap b :: l2)%list -> z - t0 <= (n + snaps l1 + 1) * iv + g) iv t0 _ _ _ _ _ l n H); clear H n.
  - intros n y l1 z b l2 _ _ E. destruct l1; discriminate E.
  - intros n x y l1 z b l2 _ _ E. destruct l1 as [|a [|c l1]]; discriminate E.
  - intros n x L y l1 z b l2 [B _] Y E. destruct l1 as [|a [|c [|d l1]]]; try discriminate E.
    injection E as -> _ _. cbn [snaps]. lia.
  - intros n x r L IH y l1 z b l2 [B1 B2] Y E. cbn [brisk] in B2. destruct l1 as [|a [|c l1]]; [|discriminate E|].
    + injection E as -> _ _. cbn [snaps]. lia.
    + injection E as <- <- E. specialize (IH x l1 z b l2 B2 ltac:(lia) E). cbn [snaps]. lia.
  - intros n x x' r L IH y l1 z b l2 [B1 B2] Y E. destruct l1 as [|a l1]; [discriminate E|].
    injection E as <- E. exact (IH x l1 z b l2 B2 L E).
Qed.
(** A snapshot that fails ends the loop. *)
Fixpoint strict {A} (p : mpgm A) : Prop :=
  match p with
  | Op o k => match o as o' return (res (mresp o') -> mpgm A) -> Prop with
              | MSnapshot => fun k => forall e, k (Err e) = Raise e
              | _ => fun _ => True
              end k /\ forall r, strict (k r)
  | _ => True
  end.
Lemma strict_bind {A B} (p : mpgm A) (f : A -> mpgm B) : strict p -> (forall a, strict (f a)) -> strict (bind p f).
Proof.
  intros Q F. induction p as [a|e|o k IH]; cbn; [apply F|exact I|]. destruct Q as [Q1 Q2]. split.
  - destruct o; try exact I. intros e. rewrite Q1. reflexivity.
  - intros r. apply IH, Q2.
Qed.
Lemma strict_do o : strict (mact o).
Proof. cbn. split; [destruct o; try exact I; reflexivity|]. intros [x|e]; exact I. Qed.
Lemma strict_forP {S A} (f : S -> A -> mpgm S) : (forall s a, strict (f s a)) -> forall l s, strict (forP f s l).
Proof. intros F. induction l as [|a l IH]; intros s; cbn; [exact I|]. apply strict_bind; [apply F|exact IH]. Qed.
Lemma strict_ends {A} e (p : mpgm A) : strict p -> forall l1 l2 q, mleads p (l1 ++ MEv MSnapshot (Err e) :: l2) q -> l2 = [] /\ q = Raise e.
Proof.
  induction p as [a|x|o k IH]; intros Q l1 l2 q H; cbn in H.
  - destruct H as [H _]. destruct l1; discriminate H.
  - destruct H as [H _]. destruct l1; discriminate H.
  - destruct H as [[H _]|(r & l' & E & H)]; [destruct l1; discriminate H|]. destruct Q as [Q1 Q2].
    destruct l1 as [|c l1]; cbn in E.
    + assert (X : match o as o' return res (mresp o') -> Prop with MSnapshot => fun r => r = Err e | _ => fun _ => False end r).
      { change (match MEv o r with MEv o' r' =>
          match o' as o'' return res (mresp o'') -> Prop with MSnapshot => fun r => r = Err e | _ => fun _ => False end r' end).
        pose proof (f_equal (hd (MEv MSnapshot (Err e))) E) as E0. cbn [hd] in E0. rewrite <- E0. reflexivity. }
      apply (f_equal (@tl mev)) in E. cbn [tl] in E. subst l'. destruct o; try (destruct X; fail). subst r. rewrite Q1 in H. cbn in H. exact H.
    + apply (f_equal (@tl mev)) in E. cbn [tl] in E. subst l'. exact (IH r (Q2 r) l1 l2 q H).
Qed.
Lemma loop_strict snap ids : forall f ts names, strict (main_loop f snap ids ts names).
Proof.
  induction f as [|f IH]; intros ts names; [exact I|]. rewrite loop_unfold.
  apply strict_bind; [apply strict_do|]. intros tn. apply strict_bind.
  { destruct snap as [iv|]; [|exact I]. destruct (_ <? _); [|exact I]. apply strict_bind; [apply strict_do|intros; exact I]. }
  intros ts'. unfold rest. apply strict_bind.
  { apply strict_forP. intros s a. apply strict_bind; [apply strict_do|intros; exact I]. }
  intros names'. apply strict_bind; [apply strict_forP; intros s a; exact (strict_do (MPush a names'))|]. intros _. apply strict_bind.
  { apply strict_forP. intros s a. apply strict_bind; [apply strict_do|intros; exact I]. }
  intros cr. apply strict_bind.
  { apply strict_forP. intros s a. apply strict_bind; [|intros; exact I]. unfold is_joined.
    apply strict_bind; [apply strict_do|]. intros [|]; [exact (strict_do (MCrashed a))|exact I]. }
  intros jn. destruct (forallb _ jn); [exact I|apply IH].
Qed.

(** The last reading of a loop that ended. *)
Lemma snoc_inv {A} (a b : A) : forall l l', (a :: l)%list = (l' ++ [b])%list -> (l = [] /\ l' = [] /\ a = b) \/ exists l0, l' = a :: l0 /\ l = (l0 ++ [b])%list.
Proof. intros l [|c l'] E; cbn in E; injection E as -> E; [left; auto|right; exists l'; auto]. Qed.
Lemma loop_last iv ids t0 b : forall f n ts names l l1 z, ts = t0 + n * iv ->
  mleads (main_loop f (Some iv) ids ts names) l (Ret b) -> ticks l = (l1 ++ [TClock z])%list ->
  z - t0 <= (n + snaps l1 + 1) * iv.
Proof.
  induction f as [|f IH]; intros n ts names l m y E H T0; [cbn in H; destruct H as [_ X]; discriminate X|].
  rewrite loop_unfold in H.
  apply mleads_bind in H as [(p' & _ & H & N)|(z & l1 & l2 & -> & H1 & H)].
  { destruct p'; [destruct (N _ eq_refl)|discriminate H|discriminate H]. }
  assert (T1 : ticks l1 = [TClock z]).
  { cbn in H1. destruct H1 as [[-> H1]|(r & l' & -> & H1)]; [discriminate H1|].
    destruct r as [x|e]; destruct H1 as [-> H1]; [injection H1 as ->; reflexivity|discriminate H1]. }
  clear H1. rewrite ticks_app, T1 in T0. cbn [app] in T0.
  destruct (Z.ltb_spec iv (z - ts)) as [L|L].
  - apply mleads_bind in H as [(p' & _ & H & N)|(ts' & l3 & l4 & -> & H1 & H)].
    { destruct p'; [destruct (N _ eq_refl)|discriminate H|discriminate H]. }
    cbn in H1. destruct H1 as [[-> H1]|(r & l' & -> & H1)]; [discriminate H1|].
    destruct r as [u|e]; destruct H1 as [-> H1]; [|discriminate H1]. injection H1 as ->. rewrite ticks_app in T0.
    cbn [ticks flat_map tick_of app] in T0.
    apply snoc_inv in T0 as [(X & _)|(m' & -> & T0)]; [discriminate X|].
    apply snoc_inv in T0 as [(_ & _ & X)|(m'' & -> & T0)]; [discriminate X|].
    apply rest_ticks in H as [T|(l5 & l6 & names' & -> & T & H)].
    + fold (ticks l4) in T0. rewrite T in T0. destruct m''; discriminate T0.
    + fold (ticks (l5 ++ l6)) in T0. rewrite ticks_app, T in T0. cbn [app] in T0.
      eapply (IH (n + 1)) in H; [|lia|exact T0]. cbn [snaps]. lia.
  - cbn [bind] in H. apply snoc_inv in T0 as [(_ & -> & X)|(m' & -> & T0)].
    { injection X as ->. cbn [snaps]. lia. }
    apply rest_ticks in H as [T|(l5 & l6 & names' & -> & T & H)].
    + rewrite T in T0. destruct m'; discriminate T0.
    + rewrite ticks_app, T in T0. cbn [app] in T0. cbn [snaps]. exact (IH n _ _ _ _ _ E H T0).
Qed.
