(** * P_Trig: start and stop triggers of tasks (C110, C111) *)
From Coq Require Import List String ZArith Bool Lia.
From Verif Require Import Base BaseFacts Types Prog JobThreadModel SpecWorker SpecTrig
  JobThreadProofs3 TrigProofs TrigProofs2 TrigProofs3 P_Worker.
Import ListNotations.
Open Scope string_scope.
Open Scope Z_scope.

(** The executions with traces are the executions. *)
Theorem C110_traces s s' : jsteps s s' <-> exists tr, tsteps s tr s'.
Proof. exact (jsteps_tsteps s s'). Qed.
Print Assumptions C110_traces.

(** ** C110: triggers fire only after the named task has begun *)

(** Missing from the statement: that the named task has been sent to its component (refuted
    below).  What holds: a task with a start trigger is sent only after the main thread has
    seen a worker at a task of that name, and has told this worker. *)
Theorem C110_partial f snap ts ws tr s' a i e b t n : tsteps (job_start f snap ts ws) tr s' ->
  tr = (a ++ OWork i e :: b)%list -> starts e = Some t -> t_start_with t = Some n -> announced i n a.
Proof. exact (start_announced f snap ts ws tr s' a i e b t n). Qed.
Print Assumptions C110_partial.
(** A worker stops its task only if that has a stop trigger, likewise announced. *)
Theorem C110_stop_partial f snap ts ws tr s' a i e b : tsteps (job_start f snap ts ws) tr s' ->
  tr = (a ++ OWork i e :: b)%list -> stops e = true ->
  exists t n, busy i a = Some t /\ t_stop_with t = Some n /\ announced i n a.
Proof. exact (stop_announced f snap ts ws tr s' a i e b). Qed.
Print Assumptions C110_stop_partial.
(** When a worker looks for a name, it finds exactly the names announced to it so far. *)
Theorem C110_look f snap ts ws tr s' a i e b ns n : tsteps (job_start f snap ts ws) tr s' ->
  tr = (a ++ OWork i e :: b)%list -> view e = VNames ns -> (In n ns <-> announced i n a).
Proof. exact (look_announced f snap ts ws tr s' a i e b ns n). Qed.
Print Assumptions C110_look.
(** What a worker does about triggers is described by [trig]: it holds until the first look
    that shows the name of its start trigger; after each look that shows the name of the stop
    trigger it stops the task, and at no other time. *)
Theorem C110_worker f snap ts ws s' i k : jsteps (job_start f snap ts ws) s' -> nth_error (s_wk s') i = Some k ->
  exists st, trigs fresh (views (k_events k)) st.
Proof. intros H E. destruct (worker_trigs _ _ _ _ _ _ _ H E) as (st & T & _). exists st. exact T. Qed.
Print Assumptions C110_worker.

(** Two tasks that wait for each other. *)
Definition both : list worker :=
  [mkWorker "x" [mkTask "x" "A" None (Some "a") (Some "b") None 1 1] (cmp1 "c1") dev1 (Some 7);
   mkWorker "y" [mkTask "y" "B" None (Some "b") (Some "a") None 1 1] (cmp1 "c2") dev1 (Some 7)].
Definition cycle : list mv :=
  ([W 0 AU; W 1 AU; W 0 AU; W 1 AU] ++ turn2 ++ [W 1 AU; W 1 (ASt (SState true false None)); W 1 (AZ 0)])%list.
Definition tplay (ws : list worker) (l : list mv) : list obs * jsys :=
  match tmoves (job_start 5 None 0 ws) l with Some p => p | None => ([], job_start 5 None 0 ws) end.
Lemma tplay_steps ws l : tsteps (job_start 5 None 0 ws) (fst (tplay ws l)) (snd (tplay ws l)).
Proof.
  unfold tplay. destruct (tmoves (job_start 5 None 0 ws) l) as [[tr s]|] eqn:E; [|constructor].
  eapply tmoves_tsteps. exact E.
Qed.
(** What the trace shows of requests: who sends or stops what. *)
Definition request (x : obs) : list (nat * option string) :=
  match x with
  | OWork i e => match starts e with
                 | Some t => [(i, Some (t_technique t))]
                 | None => if stops e then [(i, None)] else []
                 end
  | OMain _ _ => []
  end.
Definition requests (tr : list obs) : list (nat * option string) := flat_map request tr.
(** The first task that is sent at all has a start trigger: its name belongs to a task that
    waits itself. *)
Theorem C110_refuted : exists ws tr s a i e t n,
  tsteps (job_start 5 None 0 ws) tr s /\ tr = (a ++ [OWork i e])%list /\
  starts e = Some t /\ t_start_with t = Some n /\ requests a = [].
Proof.
  exists both, (fst (tplay both (cycle ++ [W 1 (AB (BAnswer true))]))), (snd (tplay both (cycle ++ [W 1 (AB (BAnswer true))]))).
  exists (fst (tplay both cycle)), 1%nat, (Ev (JSend (mkTask "y" "B" None (Some "b") (Some "a") None 1 1)) (Ok (BAnswer true))).
  eexists. exists "a". split; [apply tplay_steps|]. split; [vm_compute; reflexivity|].
  split; [reflexivity|]. split; [reflexivity|]. vm_compute. reflexivity.
Qed.
Print Assumptions C110_refuted.
(** Both of them run to the end. *)
Example C110_ex_cycle :
  option_map (fun s => (verdict s, seen s))
    (moves (job_start 5 None 0 both)
       (cycle ++ skipn 3 (one 1) ++ [W 0 AU] ++ skipn 1 (one 0) ++ [W 0 AU; W 1 AU; W 0 (AB (BAnswer true)); W 1 (AB (BAnswer true))]
        ++ repeat (M 0) 9)%list)
  = Some (Some false, [(false, ["A"], [1%nat; 2%nat]); (false, ["B"], [1%nat; 2%nat])]).
Proof. vm_compute. reflexivity. Qed.
(** A task is stopped by its trigger: role y stops when role x turns to "first". *)
Definition wstop : list worker :=
  [mkWorker "x" [tka "x" "A" "first"] (cmp1 "c1") dev1 (Some 7);
   mkWorker "y" [mkTask "y" "B" None None None (Some "first") 1 9] (cmp1 "c2") dev1 (Some 7)].
Definition run_y : list mv := [W 1 (AZ 2); W 1 (ASt (SState false true (Some true))); W 1 AU].
Example C110_ex_stop :
  (let p := tplay wstop (firstn 7 (one 1) ++ run_y ++ turn2 ++ run_y ++ [W 0 AU] ++ run_y
                         ++ turn2 ++ run_y ++ [W 1 (AD (DData [3%nat]))])%list in
   (requests (fst p), map (fun k => k_names k) (s_wk (snd p))))
  = ([(1%nat, Some "B"); (1%nat, None)], [["first"]; ["first"]]).
Proof. vm_compute. reflexivity. Qed.

(** ** C111: a task does not miss its start trigger *)

(** Missing from the statement: tasks that begin and end between two looks of the main
    thread (refuted below), names nobody bears ([C111_unknown]).  What holds: a worker that
    holds goes on holding exactly as long as the name is not announced to it, without sending
    anything; and meanwhile the job does not end. *)
Theorem C111_partial f snap ts ws tr s i k n tr2 s2 : tsteps (job_start f snap ts ws) tr s ->
  nth_error (s_wk s) i = Some k -> holding n k -> tsteps s tr2 s2 -> ~ announced i n (tr ++ tr2) ->
  (exists k2, nth_error (s_wk s2) i = Some k2 /\ holding n k2 /\ alive k2 = true /\ k_crashed k2 = false /\
     sends (views (k_events k2)) = sends (views (k_events k))) /\ forall b, s_main s2 <> Ret b.
Proof.
  intros H E K H2 NA. destruct (holds_on _ _ _ _ _ _ _ _ _ _ _ H E K H2 NA) as (k2 & E2 & K2 & S2).
  pose proof (tsteps_jsteps _ _ _ (tsteps_trans _ _ _ _ _ H H2)) as J.
  destruct (holding_live _ _ _ _ _ _ _ _ J E2 K2) as (A & C & _).
  split; [exists k2; auto|]. intros b. exact (holding_unfinished _ _ _ _ _ _ _ _ b J E2 K2).
Qed.
Print Assumptions C111_partial.
(** A holding worker to which the name has been announced goes on with its next look. *)
Theorem C111_goes_on f snap ts ws tr s i k n o kont : tsteps (job_start f snap ts ws) tr s ->
  nth_error (s_wk s) i = Some k -> holding n k -> announced i n tr -> k_prog k = Op o kont ->
  o = JNames /\ forall r, allowed k o r ->
    exists t, t_start_with t = Some n /\
      trigs fresh (views (k_events (wk_after k o r (kont r)))) (At (Some t) None false).
Proof.
  intros H E K A P. pose proof (tsteps_jsteps _ _ _ H) as J.
  destruct (holding_live _ _ _ _ _ _ _ _ J E K) as (_ & _ & JN). pose proof (JN _ _ P) as ->.
  split; [reflexivity|]. intros r R. cbn in R. subst r. destruct K as (t & Wt & T). exists t.
  split; [exact Wt|]. cbn [wk_after k_events]. rewrite JobThreadProofs.views_app. apply trigs_snoc.
  eexists. split; [exact T|]. split; [exact I|]. cbn.
  destruct (mi_wk _ _ (tsteps_minv _ _ _ _ _ _ H) _ _ E) as [_ NM _].
  apply NM, mem_In in A. rewrite A. reflexivity.
Qed.
Print Assumptions C111_goes_on.
(** A name that was not seen in time is missed for good: nobody is at a task of that name,
    and nobody who still runs has one.  A worker that holds for it holds for ever. *)
Theorem C111_missed f snap ts ws tr s i k n : tsteps (job_start f snap ts ws) tr s ->
  past n s -> ~ looked n tr -> nth_error (s_wk s) i = Some k -> holding n k ->
  forall tr2 s2, tsteps s tr2 s2 ->
  (exists k2, nth_error (s_wk s2) i = Some k2 /\ holding n k2 /\ alive k2 = true
     /\ sends (views (k_events k2)) = sends (views (k_events k))) /\ forall b, s_main s2 <> Ret b.
Proof.
  intros H PA NL E K tr2 s2 H2. destruct (past_on _ _ _ _ _ _ _ _ _ H PA NL H2) as [_ NL2].
  assert (NA : ~ announced i n (tr ++ tr2)) by (intros X; apply NL2; eapply announced_looked; exact X).
  destruct (C111_partial _ _ _ _ _ _ _ _ _ _ _ H E K H2 NA) as [(k2 & E2 & K2 & A2 & _ & S2) B].
  split; [exists k2; auto | exact B].
Qed.
Print Assumptions C111_missed.
(** A start trigger that is the name of no task of the job: the task is never sent; and if it
    is the first of its role, the job does not end. *)
Theorem C111_unknown f snap ts ws tr s' n :
  (forall w t, In w ws -> In t (wk_tasks w) -> t_name t <> Some n) ->
  tsteps (job_start f snap ts ws) tr s' ->
  (forall i e t, In (OWork i e) tr -> starts e = Some t -> t_start_with t <> Some n)
  /\ (forall w t rest b, In w ws -> wk_port w <> None -> wk_tasks w = t :: rest -> t_start_with t = Some n ->
      s_main s' <> Ret b).
Proof.
  intros U H. split.
  - intros i e t I1 S W. apply in_split in I1 as (a & b & E).
    pose proof (C110_partial _ _ _ _ _ _ _ _ _ _ _ _ H E S W) as A.
    eapply (unknown_never f snap ts ws tr s' i n U H). rewrite E. apply announced_more. exact A.
  - intros w t rest b I1 P T W. apply In_nth_error in I1 as [i E].
    eapply first_unfinished; [exact E | exact P | exact T | exact W | exact H|].
    eapply unknown_never; eassumption.
Qed.
Print Assumptions C111_unknown.

(** The task "first" of role x runs to its end and its worker ends, all between two looks of
    the main thread; role y waits for it for ever, and the job never ends. *)
Definition between : list mv :=
  ([W 1 AU; W 1 AU] ++ one 0 ++ [W 0 AU; W 0 (AB (BAnswer true))])%list.
Definition past_b (n : string) (s : jsys) : bool :=
  forallb (fun k =>
    match k_current k with Some t => match t_name t with Some m => negb (String.eqb m n) | None => true end | None => true end
    && (match k_prog k with Op _ _ => false | _ => true end
        || forallb (fun t => match t_name t with Some m => negb (String.eqb m n) | None => true end) (k_tasks k))) (s_wk s).
Lemma past_b_past n s : past_b n s = true -> past n s.
Proof.
  intros H k K. unfold past_b in H. rewrite forallb_forall in H. specialize (H k K).
  apply andb_prop in H as [H1 H2]. split.
  - intros (t & E & N). rewrite E, N, String.eqb_refl in H1. discriminate H1.
  - apply orb_prop in H2 as [H2|H2].
    + left. intros o kont E. rewrite E in H2. discriminate H2.
    + right. intros t I1 N. rewrite forallb_forall in H2. specialize (H2 t I1).
      rewrite N, String.eqb_refl in H2. discriminate H2.
Qed.
Theorem C111_refuted : exists ws tr s k0,
  tsteps (job_start 5 None 0 ws) tr s /\
  (* role x is done with its task "first" *)
  nth_error (s_wk s) 0 = Some k0 /\ k_prog k0 = Ret tt /\ k_crashed k0 = false /\
  map t_name (sends (views (k_events k0))) = [Some "first"] /\
  (* role y waits for it *)
  map (fun w => map t_start_with (wk_tasks w)) ws = [[None]; [Some "first"]] /\
  forall tr2 s2, tsteps s tr2 s2 ->
    (exists k, nth_error (s_wk s2) 1 = Some k /\ alive k = true /\ sends (views (k_events k)) = [])
    /\ forall b, s_main s2 <> Ret b.
Proof.
  set (s := snd (tplay ws2 between)).
  destruct (nth_error (s_wk s) 0) as [k0|] eqn:E0; [|vm_compute in E0; discriminate E0].
  destruct (nth_error (s_wk s) 1) as [k1|] eqn:E1; [|vm_compute in E1; discriminate E1].
  exists ws2, (fst (tplay ws2 between)), s, k0. split; [apply tplay_steps|]. split; [exact E0|].
  assert (F0 : option_map (fun k => (match k_prog k with Ret u => Some u | _ => None end, k_crashed k,
             map t_name (sends (views (k_events k))))) (nth_error (s_wk s) 0)
          = Some (Some tt, false, [Some "first"])) by (vm_compute; reflexivity).
  rewrite E0 in F0. cbn [option_map] in F0. injection F0 as F1 F2 F3.
  split; [destruct (k_prog k0); try discriminate F1; injection F1 as ->; reflexivity|].
  split; [exact F2|]. split; [exact F3|]. split; [reflexivity|].
  assert (V1 : option_map (fun k => views (k_events k)) (nth_error (s_wk s) 1)
          = Some [VCurrent (Some (tkw "y" "B" "first")); VNames []]) by (vm_compute; reflexivity).
  rewrite E1 in V1. cbn [option_map] in V1. injection V1 as V1.
  intros tr2 s2 H2.
  destruct (C111_missed 5 None 0 ws2 (fst (tplay ws2 between)) s 1 k1 "first") with (tr2 := tr2) (s2 := s2)
    as [(k & K1 & _ & K2 & K3) B].
  - apply tplay_steps.
  - apply past_b_past. vm_compute. reflexivity.
  - assert (L : forallb (fun x => match looks_at x with None => true | Some _ => false end) (fst (tplay ws2 between)) = true)
      by (vm_compute; reflexivity).
    intros (a & x & b & j & E & X & _). rewrite E, forallb_app in L. apply andb_prop in L as [_ L]. cbn in L.
    rewrite X in L. discriminate L.
  - exact E1.
  - exists (tkw "y" "B" "first"). split; [reflexivity|]. rewrite V1. cbn. auto.
  - exact H2.
  - split; [|exact B]. exists k. split; [exact K1|]. split; [exact K2|]. rewrite K3, V1. reflexivity.
Qed.
Print Assumptions C111_refuted.
(** With a look of the main thread in time, role y goes on. *)
Example C111_ex :
  (let p := tplay ws2 ([W 1 AU; W 1 AU; W 0 AU] ++ turn2 ++ [W 1 AU; W 1 (ASt (SState true false None)); W 1 (AZ 0);
                       W 1 (AB (BAnswer true))])%list in
   (requests (fst p), map (fun k => k_names k) (s_wk (snd p))))
  = ([(1%nat, Some "B")], [["first"]; ["first"]]).
Proof. vm_compute. reflexivity. Qed.
