(** * P_Snap: snapshots of a running job (C106, C107) *)
From Coq Require Import List String Ascii ZArith Bool Lia.
From Verif Require Import Base Types PyStr Prog IoModel JobThreadModel SnapModel SpecSnap IoProofs SnapProofs SnapProofs2.
Import ListNotations.
Open Scope Z_scope.

(** ** C106: when snapshots are made *)

(** The k-th snapshot is made right after a reading of the clock by which more than k
    intervals have passed since the start; nothing follows a snapshot that failed. *)
Theorem C106_not_early fuel iv ids t0 names l q l1 b l2 :
  mleads (main_loop fuel (Some iv) ids t0 names) l q -> ticks l = (l1 ++ TSnap b :: l2)%list ->
  exists l0 z, l1 = (l0 ++ [TClock z])%list /\ (snaps l1 + 1) * iv < z - t0 /\ (b = false -> l2 = []).
Proof.
  intros H E. pose proof (loop_paced iv ids t0 fuel 0 t0 names l q ltac:(lia) H) as P.
  exact (paced_snap iv t0 _ 0 l1 b l2 P E).
Qed.
Print Assumptions C106_not_early.

(** At every other reading, also at the last one, no snapshot is overdue. *)
Theorem C106_due fuel iv ids t0 names l q l1 z l2 :
  mleads (main_loop fuel (Some iv) ids t0 names) l q -> ticks l = (l1 ++ TClock z :: l2)%list ->
  (exists z' r, l2 = TClock z' :: r) \/ (l2 = [] /\ exists b, q = Ret b) ->
  z - t0 <= (snaps l1 + 1) * iv.
Proof.
  intros H E [(z' & r & ->)|(-> & b & ->)].
  - pose proof (loop_paced iv ids t0 fuel 0 t0 names l q ltac:(lia) H) as P.
    exact (paced_due iv t0 _ 0 l1 z z' r P E).
  - exact (loop_last iv ids t0 b fuel 0 t0 names l l1 z ltac:(lia) H E).
Qed.
Print Assumptions C106_due.

(** If the clock is read at least every [g], no more than the interval, the k-th snapshot is
    made between k intervals after the start and [g] later. *)
Theorem C106_on_time fuel iv g ids t0 names l q l1 z b l2 :
  mleads (main_loop fuel (Some iv) ids t0 names) l q -> 0 <= iv -> g <= iv -> brisk g t0 (ticks l) ->
  ticks l = (l1 ++ TClock z :: TSnap b :: l2)%list ->
  let k := snaps l1 + 1 in t0 + k * iv < z <= t0 + k * iv + g.
Proof.
  intros H I G B E k. split.
  - assert (E' : ticks l = ((l1 ++ [TClock z]) ++ TSnap b :: l2)%list) by (rewrite <- app_assoc; exact E).
    destruct (C106_not_early _ _ _ _ _ _ _ _ _ _ H E') as (l0 & z0 & Q & L & _). apply app_inj_tail in Q as [_ Q].
    injection Q as ->. rewrite snaps_app in L. cbn [snaps] in L. unfold k. lia.
  - pose proof (loop_paced iv ids t0 fuel 0 t0 names l q ltac:(lia) H) as P.
    pose proof (paced_time iv t0 g G _ 0 t0 l1 z b l2 P B ltac:(lia) E). unfold k. lia.
Qed.
Print Assumptions C106_on_time.

(** None is made unless requested. *)
Theorem C106_none fuel ids t0 names l q : mleads (main_loop fuel None ids t0 names) l q ->
  forall b, ~ In (TSnap b) (ticks l).
Proof. exact (loop_never ids fuel t0 names l q). Qed.
Print Assumptions C106_none.

(** A snapshot that fails ends the loop with the same exception. *)
Theorem C106_failure fuel snap ids t0 names e l1 l2 q :
  mleads (main_loop fuel snap ids t0 names) (l1 ++ MEv MSnapshot (Err e) :: l2) q -> l2 = [] /\ q = Raise e.
Proof. apply strict_ends, loop_strict. Qed.
Print Assumptions C106_failure.

(** These are the events of all executions of a job with its workers. *)
Theorem C106_executions s s' : jsteps s s' -> exists l, mleads (s_main s) l (s_main s').
Proof. exact (jsteps_mleads s s'). Qed.
Print Assumptions C106_executions.

(** The events of a main thread that is answered from a list. *)
Fixpoint feed {A} (n : nat) (p : mpgm A) (clock : list Z) (fin : bool) : list mev * mpgm A :=
  match n, p with
  | S m, Op o k =>
      match o as o' return (res (mresp o') -> mpgm A) -> list mev * mpgm A with
      | MClock => fun k => match clock with
                           | z :: r => let (l, q) := feed m (k (Ok z)) r (match r with [] => true | _ => false end) in
                                       (MEv MClock (Ok z) :: l, q)
                           | [] => ([], Op MClock k)
                           end
      | MAlive i => fun k => let (l, q) := feed m (k (Ok (negb fin))) clock fin in (MEv (MAlive i) (Ok (negb fin)) :: l, q)
      | MCrashed i => fun k => let (l, q) := feed m (k (Ok false)) clock fin in (MEv (MCrashed i) (Ok false) :: l, q)
      | MCurrent i => fun k => let (l, q) := feed m (k (Ok None)) clock fin in (MEv (MCurrent i) (Ok None) :: l, q)
      | MPush i x => fun k => let (l, q) := feed m (k (Ok tt)) clock fin in (MEv (MPush i x) (Ok tt) :: l, q)
      | MSnapshot => fun k => let (l, q) := feed m (k (Ok tt)) clock fin in (MEv MSnapshot (Ok tt) :: l, q)
      end k
  | _, _ => ([], p)
  end.
Lemma feed_leads {A} : forall n (p : mpgm A) clock fin, mleads p (fst (feed n p clock fin)) (snd (feed n p clock fin)).
Proof.
  induction n as [|n IH]; intros p clock fin; [cbn [feed fst snd]; apply mleads_nil|].
  destruct p as [a|e|o k]; [cbn; auto|cbn; auto|].
  assert (X : forall r c f, mleads (Op o k) (MEv o r :: fst (feed n (k r) c f)) (snd (feed n (k r) c f))).
  { intros r c f. cbn. right. exists r, (fst (feed n (k r) c f)). split; [reflexivity|apply IH]. }
  destruct o; cbn [feed];
    [specialize (X (Ok None) clock fin)|specialize (X (Ok tt) clock fin)|specialize (X (Ok false) clock fin)|
     specialize (X (Ok (negb fin)) clock fin)| |specialize (X (Ok tt) clock fin)];
    try (match type of X with context [feed n ?p clock fin] => destruct (feed n p clock fin); exact X end).
  destruct clock as [|z r]; [apply mleads_nil|]. specialize (X (Ok z) r (match r with [] => true | _ => false end)).
  destruct (feed n (k (Ok z)) r _); exact X.
Qed.
Lemma fed {A} n (p : mpgm A) clock t : ticks (fst (feed n p clock false)) = t ->
  exists l, mleads p l (snd (feed n p clock false)) /\ ticks l = t.
Proof. intros H. exists (fst (feed n p clock false)). split; [apply feed_leads|exact H]. Qed.

(** Interval 3, readings every 1 from 100: the snapshots at 104 and 107; the job ends. *)
Example C106_ex :
  exists l, mleads (main_loop 9 (Some 3) [0; 1]%nat 100 []) l (Ret false) /\
    ticks l = [TClock 100; TClock 101; TClock 102; TClock 103; TClock 104; TSnap true; TClock 105; TClock 106;
               TClock 107; TSnap true; TClock 108].
Proof.
  pose (f := feed 200 (main_loop 9 (Some 3) [0; 1]%nat 100 []) [100; 101; 102; 103; 104; 105; 106; 107; 108] false).
  assert (E : snd f = Ret false) by (vm_compute; reflexivity). rewrite <- E. apply fed. vm_compute. reflexivity.
Qed.
(** A reading that comes late is followed by several snapshots one after the other. *)
Example C106_ex_burst :
  exists l, mleads (main_loop 9 (Some 3) [0; 1]%nat 100 []) l (Ret false) /\
    ticks l = [TClock 100; TClock 112; TSnap true; TClock 113; TSnap true; TClock 114; TSnap true; TClock 115; TSnap true;
               TClock 116; TSnap true].
Proof.
  pose (f := feed 200 (main_loop 9 (Some 3) [0; 1]%nat 100 []) [100; 112; 113; 114; 115; 116] false).
  assert (E : snd f = Ret false) by (vm_compute; reflexivity). rewrite <- E. apply fed. vm_compute. reflexivity.
Qed.
(** An interval shorter than the loop: the k-th snapshot is later and later. *)
Example C106_ex_short :
  exists l, mleads (main_loop 9 (Some 3) [0; 1]%nat 100 []) l (Ret false) /\
    ticks l = [TClock 100; TClock 110; TSnap true; TClock 120; TSnap true; TClock 130; TSnap true].
Proof.
  pose (f := feed 200 (main_loop 9 (Some 3) [0; 1]%nat 100 []) [100; 110; 120; 130] false).
  assert (E : snd f = Ret false) by (vm_compute; reflexivity). rewrite <- E. apply fed. vm_compute. reflexivity.
Qed.

(** ** C107: what a snapshot of a running job contains *)

(** For all interleavings of the merge with the stores of the workers: it fails only with
    [EOFError]; if it succeeds, the output has, for every role, the data of the role at some
    moment, and at least what its file held, complete, when the merge began. *)
Theorem C107_partial ws held out s c1 c2 :
  NoDup (map fst ws) -> Forall (fun rb => has_char "/"%char (fst rb) = false) ws ->
  holds held s -> csteps (c_start s out ws) c1 -> c_merge c1 = merge out -> csteps c1 c2 ->
  (forall e, c_merge c2 = Raise e -> e = EOFError) /\
  (c_merge c2 = Ret tt -> exists g, dget (f_out (c_fs c2)) out = Some g /\
     (forall r pts, dget g r = Some pts -> moment ws held r pts) /\
     (forall r ds, dget (f_folder (c_fs c1)) (role_file r) = Some (PValue (Some ds)) ->
        exists more, dget g r = Some (ds_points ds ++ more)%list)).
Proof. intros N F. exact (C107_lemma ws held out N F s c1 c2). Qed.
Print Assumptions C107_partial.

(** Executions by a list of turns: [None] is the merge, [Some i] the i-th worker. *)
Fixpoint turn_of (i : nat) (l : list (fpgm unit)) (s : fsys) : option (list (fpgm unit) * fsys) :=
  match l, i with
  | [], _ => None
  | w :: r, O => match fstep w s with Some (w', s') => Some (w' :: r, s') | None => None end
  | w :: r, S j => match turn_of j r s with Some (r', s') => Some (w :: r', s') | None => None end
  end.
Lemma turn_ok : forall i l s l' s', turn_of i l s = Some (l', s') ->
  exists l1 w l2 w', l = (l1 ++ w :: l2)%list /\ l' = (l1 ++ w' :: l2)%list /\ fstep w s = Some (w', s').
Proof.
  induction i as [|i IH]; intros [|w r] s l' s' H; cbn in H; try discriminate H.
  - destruct (fstep w s) as [[w' x]|] eqn:E; [|discriminate H]. injection H as <- <-. exists [], w, r, w'. auto.
  - destruct (turn_of i r s) as [[r' x]|] eqn:E; [|discriminate H]. injection H as <- <-.
    destruct (IH _ _ _ _ E) as (l1 & a & l2 & a' & -> & -> & Q). exists (w :: l1), a, l2, a'. auto.
Qed.
Fixpoint cplay (l : list (option nat)) (c : cjob) : cjob :=
  match l with
  | [] => c
  | None :: r => match fstep (c_merge c) (c_fs c) with
                 | Some (m, s) => cplay r (mkCjob s m (c_workers c))
                 | None => cplay r c
                 end
  | Some i :: r => match turn_of i (c_workers c) (c_fs c) with
                   | Some (ws, s) => cplay r (mkCjob s (c_merge c) ws)
                   | None => cplay r c
                   end
  end.
Lemma csteps_trans a b c : csteps a b -> csteps b c -> csteps a c.
Proof. intros H K. induction K as [|x y z K IH S]; [exact H|]. exact (cs_more _ _ _ (IH H) S). Qed.
Lemma cplay_ok : forall l c, csteps c (cplay l c).
Proof.
  induction l as [|[i|] r IH]; intros c; cbn [cplay]; [apply cs_refl| |].
  - destruct (turn_of i (c_workers c) (c_fs c)) as [[ws s]|] eqn:E; [|apply IH].
    apply turn_ok in E as (l1 & w & l2 & w' & E1 & -> & E2). eapply csteps_trans; [|apply IH].
    destruct c as [fs m wk]. cbn in *. subst wk. exact (cs_more _ _ _ (cs_refl _) (cs_worker fs m l1 w l2 w' s E2)).
  - destruct (fstep (c_merge c) (c_fs c)) as [[m s]|] eqn:E; [|apply IH]. eapply csteps_trans; [|apply IH].
    destruct c as [fs m0 wk]. exact (cs_more _ _ _ (cs_refl _) (cs_merge fs m0 wk m s E)).
Qed.

Definition two_roles : list (string * list (list nat)) := [("a", [[1]; [2; 3]]%nat); ("b", [[7]]%nat)]%string.
Definition empty_fs : fsys := mkFs [] [].
Definition in_turn (n : nat) (w : option nat) : list (option nat) := repeat w n.

Lemma empty_holds : holds (fun _ => None) empty_fs.
Proof. split; [constructor|]. intros r. reflexivity. Qed.

(** A snapshot while the other worker's file is being written fails; the data that had been
    stored by then was complete. *)
Definition hit : cjob := cplay (in_turn 3 (Some 0) ++ in_turn 2 (Some 1) ++ in_turn 9 None)%list%nat (c_start empty_fs "out" two_roles).
Theorem C107_refuted : exists c,
  csteps (c_start empty_fs "out" two_roles) c /\ c_merge c = Raise EOFError /\
  dget (f_folder (c_fs c)) "a.pkl" = Some (PValue (Some (mkDs (Some "a"%string) [1%nat]))) /\ f_out (c_fs c) = [].
Proof.
  exists hit. split; [apply cplay_ok|]. split; [vm_compute; reflexivity|]. split; vm_compute; reflexivity.
Qed.
Print Assumptions C107_refuted.

(** A snapshot interleaved with the second batch of [a]: made, with the first batch of [a]. *)
Definition miss : cjob :=
  cplay (in_turn 3 (Some 0) ++ in_turn 3 (Some 1) ++ in_turn 2 None ++ in_turn 9 (Some 0) ++ in_turn 9 None)%list%nat
        (c_start empty_fs "out" two_roles).
Example C107_ex : exists c,
  csteps (c_start empty_fs "out" two_roles) c /\ c_merge c = Ret tt /\
  dget (f_out (c_fs c)) "out" = Some [("a", [1]); ("b", [7])]%nat%string /\
  dget (f_folder (c_fs c)) "a.pkl" = Some (PValue (Some (mkDs (Some "a"%string) [1; 2; 3]%nat))).
Proof.
  exists miss. split; [apply cplay_ok|]. split; [vm_compute; reflexivity|]. split; vm_compute; reflexivity.
Qed.
