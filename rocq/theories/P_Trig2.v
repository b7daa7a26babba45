(** * P_Trig2: triggers after the main loop of a job has failed (C111) *)
From Coq Require Import List String ZArith Bool Lia.
From Verif Require Import Base BaseFacts Types Prog JobThreadModel SpecWorker SpecTrig
  JobThreadProofs3 TrigProofs TrigProofs2 TrigProofs3 P_Worker P_Trig.
Import ListNotations.
Open Scope string_scope.
Open Scope Z_scope.

Lemma over_trace s tr2 s2 e : s_main s = Raise e -> tsteps s tr2 s2 ->
  s_main s2 = Raise e /\ forall x, In x tr2 -> exists i ev, x = OWork i ev.
Proof.
  intros M H. induction H as [|tr2 l m j k' o kont r H2 IH En P A|tr2 l l' o kont r H2 IH MX].
  - split; [exact M|]. intros x [].
  - destruct IH as [IH1 IH2]. split; [exact IH1|]. intros x I. apply in_app_or in I as [I|[<-|[]]]; eauto.
  - destruct IH as [IH1 _]. discriminate IH1.
Qed.
Lemma over_names s tr2 s2 e i n tr : s_main s = Raise e -> tsteps s tr2 s2 ->
  announced i n (tr ++ tr2) <-> announced i n tr.
Proof.
  intros M H. destruct (over_trace _ _ _ _ M H) as [_ W]. clear H. split; [|apply announced_more].
  revert W. induction tr2 as [|x tr2 IH] using rev_ind; intros W; [rewrite app_nil_r; auto|].
  rewrite app_assoc, announced_snoc. intros [A|[T _]].
  - apply IH; [|exact A]. intros y I. apply W, in_or_app. now left.
  - destruct (W x) as (j & ev & ->); [apply in_or_app; right; now left|]. discriminate T.
Qed.

(** A snapshot that fails ends the main loop with its exception (job.py:798, see C107).
    The workers go on, and from then on no name is announced to any of them: those that
    hold for their start trigger do so for ever, those that run a task never learn that
    they are to stop it, and the process with them does not end. *)
Theorem C111_dead f snap ts ws tr s e : tsteps (job_start f snap ts ws) tr s -> s_main s = Raise e ->
  forall tr2 s2, tsteps s tr2 s2 ->
  (forall i n, announced i n (tr ++ tr2) <-> announced i n tr) /\
  (forall i k n, nth_error (s_wk s) i = Some k -> holding n k -> ~ announced i n tr ->
   exists k2, nth_error (s_wk s2) i = Some k2 /\ holding n k2 /\ alive k2 = true /\
     sends (views (k_events k2)) = sends (views (k_events k))).
Proof.
  intros H M tr2 s2 H2. split; [intros i n; eapply over_names; eassumption|].
  intros i k n E K NA.
  assert (NA2 : ~ announced i n (tr ++ tr2)) by (intros X; apply NA; eapply over_names; eassumption).
  destruct (C111_partial _ _ _ _ _ _ _ _ _ _ _ H E K H2 NA2) as [(k2 & E2 & K2 & A2 & _ & S2) _]. eauto.
Qed.
Print Assumptions C111_dead.

(** Role y holds for "first", the first snapshot fails, and role x then does its task
    "first" to the end.  Role y never goes on. *)
Definition before_snap : list mv := [W 1 AU; W 1 AU; M 5].
Definition after_snap : list mv := (one 0 ++ [W 0 AU; W 0 (AB (BAnswer true))])%list.
Definition snap_from : jsys := job_start 5 (Some 1) 0 ws2.
Definition failed_snap (s : jsys) : jsys :=
  mkJsys (s_wk s) (match s_main s with
                   | Op o kont => match o as o' return (res (mresp o') -> mpgm bool) -> mpgm bool with
                                  | MSnapshot => fun kont => kont (Err EOFError)
                                  | _ => fun _ => Ret true
                                  end kont
                   | p => p
                   end).
Lemma failed_snap_step s tr s1 kont : tsteps s tr s1 -> s_main s1 = Op MSnapshot kont ->
  tsteps s (tr ++ [OMain MSnapshot (Err EOFError)]) (failed_snap s1).
Proof.
  destruct s1 as [l m]. cbn. intros H ->. unfold failed_snap. cbn.
  eapply (ts_main s tr l l MSnapshot kont (Err EOFError)); [exact H|reflexivity].
Qed.
Definition snap_mid : list obs * jsys := match tmoves snap_from before_snap with Some p => p | None => ([], snap_from) end.
Definition snap_end : list obs * jsys :=
  match tmoves (failed_snap (snd snap_mid)) after_snap with Some p => p | None => ([], failed_snap (snd snap_mid)) end.
Theorem C111_snapshot_refuted : exists ws tr s k0,
  tsteps (job_start 5 (Some 1) 0 ws) tr s /\ In (OMain MSnapshot (Err EOFError)) tr /\
  nth_error (s_wk s) 0 = Some k0 /\ k_prog k0 = Ret tt /\ k_crashed k0 = false /\
  map t_name (sends (views (k_events k0))) = [Some "first"] /\
  map (fun w => map t_start_with (wk_tasks w)) ws = [[None]; [Some "first"]] /\
  forall tr2 s2, tsteps s tr2 s2 ->
    exists k, nth_error (s_wk s2) 1 = Some k /\ alive k = true /\ sends (views (k_events k)) = [].
Proof.
  assert (T1 : tsteps snap_from (fst snap_mid) (snd snap_mid)).
  { unfold snap_mid. destruct (tmoves snap_from before_snap) as [[tr s]|] eqn:E; [|constructor].
    eapply tmoves_tsteps. exact E. }
  assert (T2 : tsteps snap_from (fst snap_mid ++ [OMain MSnapshot (Err EOFError)]) (failed_snap (snd snap_mid))).
  { destruct (s_main (snd snap_mid)) as [a|e|o kont] eqn:E; try (vm_compute in E; discriminate E).
    assert (O : match s_main (snd snap_mid) with Op MSnapshot _ => true | _ => false end = true) by (vm_compute; reflexivity).
    rewrite E in O. destruct o; try discriminate O. exact (failed_snap_step _ _ _ _ T1 E). }
  assert (T3 : tsteps (failed_snap (snd snap_mid)) (fst snap_end) (snd snap_end)).
  { unfold snap_end. destruct (tmoves (failed_snap (snd snap_mid)) after_snap) as [[tr s]|] eqn:E; [|constructor].
    eapply tmoves_tsteps. exact E. }
  pose proof (tsteps_trans _ _ _ _ _ T2 T3) as T.
  set (s := snd snap_end) in *.
  destruct (nth_error (s_wk s) 0) as [k0|] eqn:E0; [|vm_compute in E0; discriminate E0].
  destruct (nth_error (s_wk s) 1) as [k1|] eqn:E1; [|vm_compute in E1; discriminate E1].
  exists ws2. eexists. exists s, k0. split; [exact T|].
  split. { apply in_or_app. left. apply in_or_app. right. now left. }
  split; [exact E0|].
  assert (F0 : option_map (fun k => (match k_prog k with Ret u => Some u | _ => None end, k_crashed k,
             map t_name (sends (views (k_events k))))) (nth_error (s_wk s) 0)
          = Some (Some tt, false, [Some "first"])) by (vm_compute; reflexivity).
  rewrite E0 in F0. cbn [option_map] in F0. injection F0 as F1 F2 F3.
  split; [destruct (k_prog k0); try discriminate F1; injection F1 as ->; reflexivity|].
  split; [exact F2|]. split; [exact F3|]. split; [reflexivity|].
  assert (V1 : option_map (fun k => views (k_events k)) (nth_error (s_wk s) 1)
          = Some [VCurrent (Some (tkw "y" "B" "first")); VNames []]) by (vm_compute; reflexivity).
  rewrite E1 in V1. cbn [option_map] in V1. injection V1 as V1.
  assert (M : s_main s = Raise EOFError) by (vm_compute; reflexivity).
  intros tr2 s2 H2. destruct (C111_dead _ _ _ _ _ _ _ T M _ _ H2) as [_ D].
  destruct (D 1%nat k1 "first" E1) as (k2 & K1 & _ & K2 & K3).
  - exists (tkw "y" "B" "first"). split; [reflexivity|]. rewrite V1. cbn. auto.
  - assert (L : forallb (fun x => match tells x with None => true | Some _ => false end)
                  ((fst snap_mid ++ [OMain MSnapshot (Err EOFError)]) ++ fst snap_end)%list = true)
      by (vm_compute; reflexivity).
    intros (a & x & b & E & X & _). rewrite E, forallb_app in L. apply andb_prop in L as [_ L]. cbn in L.
    rewrite X in L. discriminate L.
  - exists k2. split; [exact K1|]. split; [exact K2|]. rewrite K3, V1. reflexivity.
Qed.
Print Assumptions C111_snapshot_refuted.
