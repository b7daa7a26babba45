(** * P_Worker: the workers and the main loop of a job process (C58 to C63) *)
From Coq Require Import List String ZArith Bool Lia.
From Verif Require Import Base BaseFacts Types Prog JobThreadModel SpecWorker
  JobThreadProofs JobThreadProofs2 JobThreadProofs3.
Import ListNotations.
Open Scope string_scope.
Open Scope Z_scope.

(** ** C58: distribution of the tasks *)

(** If no exception is raised, the workers started are those of the roles of the pipeline
    that have tasks, in order, each with exactly its tasks in method order, its component,
    its device and its driver's port. *)
Theorem C58 df drvs method cs ws :
  distribute df drvs (plan method) cs [] = (ws, None) ->
  map (fun w => (wk_role w, wk_tasks w)) ws
    = map (fun rc => (fst rc, tasks_of (fst rc) method))
          (filter (fun rc => match tasks_of (fst rc) method with [] => false | _ => true end) cs)
  /\ Forall (fun w => exists cname, In (wk_role w, cname) cs
       /\ dget (df_components df) cname = Some (wk_comp w)
       /\ dget (df_devices df) (c_device (wk_comp w)) = Some (wk_device w)
       /\ exists drv, dget drvs (c_driver (wk_comp w)) = Some drv /\ wk_port w = dv_port drv) ws.
Proof.
  intros H. destruct (distribute_spec _ _ _ _ _ _ _ H) as (new & -> & F & A & _).
  split; [exact (A eq_refl) | exact F].
Qed.
Print Assumptions C58.

(** Exactly one worker for a role of the pipeline with tasks, none for any other role. *)
Theorem C58_one df drvs method cs ws :
  distribute df drvs (plan method) cs [] = (ws, None) -> NoDup (dkeys cs) ->
  NoDup (map wk_role ws)
  /\ forall role, In role (map wk_role ws) <-> In role (dkeys cs) /\ tasks_of role method <> [].
Proof.
  intros H ND. destruct (C58 _ _ _ _ _ H) as [E _].
  assert (R : map wk_role ws = map fst (filter (fun rc : string * string =>
      match tasks_of (fst rc) method with [] => false | _ => true end) cs)).
  { apply (f_equal (map fst)) in E. rewrite !map_map in E. exact E. }
  rewrite R. split.
  - clear -ND. unfold dkeys in ND. induction cs as [|[r c] cs IH]; cbn in *; [constructor|].
    inversion ND as [|? ? N1 N2]; subst. destruct (tasks_of r method); [apply IH; exact N2|].
    cbn. constructor; [|apply IH; exact N2]. intros I1. apply N1.
    apply in_map_iff in I1 as (x & E1 & I1). apply filter_In in I1 as [I1 _].
    apply in_map_iff. exists x. auto.
  - intros role. unfold dkeys. rewrite !in_map_iff. split.
    + intros (x & <- & I1). apply filter_In in I1 as [I1 I2].
      split; [exists x; auto|]. destruct (tasks_of (fst x) method); [discriminate I2 | discriminate].
    + intros [(x & <- & I1) N]. exists x. split; [reflexivity|]. apply filter_In. split; [exact I1|].
      destruct (tasks_of (fst x) method); [exfalso; apply N; reflexivity | reflexivity].
Qed.
Print Assumptions C58_one.

(** If an exception is raised, the workers of the roles before are already running. *)
Theorem C58_broken df drvs method cs ws e :
  distribute df drvs (plan method) cs [] = (ws, Some e) ->
  exists rest, map (fun rc => (fst rc, tasks_of (fst rc) method))
                   (filter (fun rc => match tasks_of (fst rc) method with [] => false | _ => true end) cs)
               = (map (fun w => (wk_role w, wk_tasks w)) ws ++ rest)%list.
Proof. intros H. destruct (distribute_spec _ _ _ _ _ _ _ H) as (new & -> & _ & _ & P). exact P. Qed.
Print Assumptions C58_broken.

(** The distribution ends with an exception at the first role that lacks something. *)
Theorem C58_error df drvs method cs ws e :
  distribute df drvs (plan method) cs [] = (ws, Some e) ->
  exists before role cname after, cs = (before ++ (role, cname) :: after)%list /\
    lacks df drvs method role cname e /\
    distribute df drvs (plan method) before [] = (ws, None).
Proof. exact (distribute_error df drvs method cs [] ws e). Qed.
Print Assumptions C58_error.

Definition tk (role tech : string) : task := mkTask role tech None None None None 1 1.
Definition tka (role tech name : string) : task := mkTask role tech None (Some name) None None 1 1.
Definition tkw (role tech : string) (w : string) : task := mkTask role tech None None (Some w) None 1 1.
Definition dev1 : device := mkDevice "d" "drv" "a" ["1"] 1.
Definition cmp1 (n : string) : component := mkComponent n "d" "drv" "a" "1".
Definition df1 : devicefile :=
  mkDF [("c1", cmp1 "c1"); ("c2", cmp1 "c2")] [("d", dev1)] [("drv", mkDriver "drv" [])] [].
Definition drv1 : dict drvstate := [("drv", mkDrv "drv" (Some 7) None None 0 0 0)].
Definition meth1 : list task := [tk "x" "A"; tk "y" "B"; tk "x" "C"; tk "z" "D"].
Example C58_ex :
  map (fun w => (wk_role w, map t_technique (wk_tasks w), c_name (wk_comp w), wk_port w))
      (fst (distribute df1 drv1 (plan meth1) [("y", "c2"); ("w", "c1"); ("x", "c1")] []))
  = [("y", ["B"], "c2", Some 7); ("x", ["A"; "C"], "c1", Some 7)].
Proof. vm_compute. reflexivity. Qed.
(** The driver of the second component is not in the table: the first worker runs on. *)
Example C58_ex_broken :
  let df := mkDF [("c1", cmp1 "c1"); ("c2", mkComponent "c2" "d" "other" "a" "1")] [("d", dev1)]
                 [("drv", mkDriver "drv" [])] [] in
  map wk_role (fst (distribute df drv1 (plan meth1) [("x", "c1"); ("y", "c2")] [])) = ["x"]
  /\ snd (distribute df drv1 (plan meth1) [("x", "c1"); ("y", "c2")] []) = Some AssertionError.
Proof. vm_compute. split; reflexivity. Qed.

Example C58_ex_errors :
  let go df := snd (distribute df drv1 (plan meth1) [("x", "c1"); ("y", "c2")] []) in
  go (mkDF [("c1", cmp1 "c1")] [("d", dev1)] [("drv", mkDriver "drv" [])] []) = Some KeyError /\
  go (mkDF [("c1", cmp1 "c1"); ("c2", cmp1 "c2")] [] [("drv", mkDriver "drv" [])] []) = Some KeyError /\
  go (mkDF [("c1", cmp1 "c1"); ("c2", cmp1 "c2")] [("d", dev1)] [] []) = Some KeyError.
Proof. vm_compute. repeat split; reflexivity. Qed.

(** ** C59: a job reported complete has run all its tasks *)

(** Missing from the statement: roles with three tasks or more (refuted below); a driver that
    has lost its port in the meantime (refuted below); a worker
    that crashed between the two readings of the main loop (C63_refuted); a worker ended by
    an exception of one of its operations, which the main loop does not notice. *)
Theorem C59_partial f snap ts ws s' :
  jsteps (job_start f snap ts ws) s' -> s_main s' = Ret false ->
  Forall2 (fun w k => k_tasks k = wk_tasks w /\
    (wk_port w <> None -> (List.length (wk_tasks w) <= 2)%nat -> k_crashed k = false ->
     ~ In VFail (views (k_events k)) -> sends (views (k_events k)) = wk_tasks w)) ws (s_wk s').
Proof. exact (jobs_complete f snap ts ws s' false). Qed.
Print Assumptions C59_partial.

(** A worker that ends by itself, without crash and without failing operation, has sent
    its tasks, or exactly the first two of them. *)
Theorem C59_sent f pr tasks l q :
  leads (job_thread f pr tasks) l q -> ~ In VFail (views l) -> ~ In VCrash (views l) ->
  (q = Ret tt -> sends (views l) = tasks)
  /\ (forall e, q = Raise e -> e <> OutOfFuel -> sends (views l) = firstn 2 tasks /\ (2 <= List.length tasks)%nat).
Proof.
  intros H NF NC. split.
  - intros E. exact (proj2 (proj2 (worker_sends _ _ _ _ _ H)) E).
  - intros e -> NE. destruct (worker_end _ _ _ _ _ H) as [[W|[W|W]]|(_ & t1 & t2 & r & -> & S)]; try contradiction.
    rewrite S. split; [reflexivity | cbn; lia].
Qed.
Print Assumptions C59_sent.

(** The moves of a worker that runs one task (10 of them). *)
Definition one (i : nat) : list mv :=
  [W i AU; W i (ASt (SState true false None)); W i (AZ 0); W i (AB (BAnswer true));
   W i (AZ 1); W i (ASt (SState false true (Some true))); W i (AZ 2);
   W i (AZ 3); W i (ASt (SState true false None)); W i (AD (DData [1%nat; 2%nat])); W i AU].
(** One turn of the main loop over one worker. *)
Definition turn1 : list mv := [M 0; M 0; M 0; M 0; M 0].
Definition wk3 : worker := mkWorker "x" [tk "x" "A"; tk "x" "B"; tk "x" "C"] (cmp1 "c1") dev1 (Some 7).
Definition wk1 : worker := mkWorker "x" [tk "x" "A"] (cmp1 "c1") dev1 (Some 7).
Definition verdict (s : jsys) : option bool := match s_main s with Ret b => Some b | _ => None end.
Definition seen (s : jsys) : list (bool * list string * list nat) :=
  map (fun k => (k_crashed k, map t_technique (sends (views (k_events k))), stored (views (k_events k)))) (s_wk s).

(** Three tasks: the third is never sent, and the job is reported complete. *)
Definition three_tasks : list mv := (one 0 ++ [W 0 AU] ++ one 0 ++ turn1)%list.
Theorem C59_refuted :
  exists ws s', jsteps (job_start 5 None 0 ws) s' /\ s_main s' = Ret false
  /\ Forall (fun k => k_crashed k = false /\ ~ In VFail (views (k_events k))
                      /\ map t_technique (k_tasks k) = ["A"; "B"; "C"]
                      /\ map t_technique (sends (views (k_events k))) = ["A"; "B"]) (s_wk s')
  /\ List.length (s_wk s') = 1%nat.
Proof.
  exists [wk3]. eexists.
  split; [apply (moves_steps three_tasks); vm_compute; reflexivity|].
  split; [reflexivity|]. split; [|reflexivity].
  constructor; [|constructor]. split; [reflexivity|]. split; [|split; reflexivity].
  cbn. intros H. repeat (destruct H as [H|H]; [discriminate H|]). exact H.
Qed.
Print Assumptions C59_refuted.

(** One task per role, two roles, the second waiting for the first: both are run. *)
Definition ws2 : list worker :=
  [mkWorker "x" [tka "x" "A" "first"] (cmp1 "c1") dev1 (Some 7); mkWorker "y" [tkw "y" "B" "first"] (cmp1 "c2") dev1 (Some 7)].
Definition turn2 : list mv := (repeat (M 0) 7 ++ repeat (M 0) 4)%list.
Definition one_w (i : nat) : list mv := match one i with a :: r => a :: W i AU :: r | r => r end.
Definition two_roles : list mv :=
  (firstn 1 (one 0) ++ turn2 ++ firstn 1 (one_w 1) ++ skipn 1 (one 0) ++ skipn 1 (one_w 1)
   ++ [W 0 AU; W 1 AU; W 0 (AB (BAnswer true)); W 1 (AB (BAnswer true))] ++ repeat (M 0) 9)%list.
Example C59_ex : option_map (fun s => (verdict s, seen s)) (moves (job_start 5 None 0 ws2) two_roles)
  = Some (Some false, [(false, ["A"], [1%nat; 2%nat]); (false, ["B"], [1%nat; 2%nat])]).
Proof. vm_compute. reflexivity. Qed.

(** ** C60: tasks of a role are sent one after the other *)

(** Missing: a task whose status request was refused is taken to be over. *)
Theorem C60_partial f pr tasks l q :
  leads (job_thread f pr tasks) l q ->
  sends_ok (fun v => shows_end v \/ shows_refusal v) true [] (views l)
  /\ exists rest, tasks = (sends (views l) ++ rest)%list.
Proof.
  intros H. destruct (worker_sends _ _ _ _ _ H) as (A & B & _). exact (conj A B).
Qed.
Print Assumptions C60_partial.

Definition feed1 (tasks : list task) (l : list mv) : option (list jview) :=
  option_map (fun s => flat_map (fun k => views (k_events k)) (s_wk s))
             (moves (job_start 5 None 0 [mkWorker "x" tasks (cmp1 "c1") dev1 (Some 7)]) l).
(** The status request is refused while the first task runs: the second is sent. *)
Definition refused_status : list mv :=
  (firstn 8 (one 0) ++ [W 0 (ASt SRefused); W 0 (AD DNothing); W 0 AU] ++ firstn 4 (one 0))%list.
Theorem C60_refuted :
  exists tasks l q, leads (job_thread 5 1 tasks) l q /\ ~ sends_ok shows_end true [] (views l).
Proof.
  destruct (moves (job_start 5 None 0 [mkWorker "x" [tk "x" "A"; tk "x" "B"] (cmp1 "c1") dev1 (Some 7)]) refused_status)
    as [s|] eqn:E; [|vm_compute in E; discriminate E].
  pose proof (jobs_kinv _ _ _ _ _ (moves_steps _ _ _ E)) as K.
  destruct (s_wk s) as [|k [|]] eqn:ES; inversion K as [|? ? ? ? K1 K2]; subst; try inversion K2.
  exists [tk "x" "A"; tk "x" "B"], (k_events k), (k_prog k). split; [exact (ki_leads _ _ _ K1 ltac:(discriminate))|].
  assert (V : flat_map (fun k => views (k_events k)) (s_wk s)
     = match feed1 [tk "x" "A"; tk "x" "B"] refused_status with Some l => l | None => [] end).
  { unfold feed1. rewrite E. reflexivity. }
  rewrite ES in V. cbn [flat_map] in V. rewrite app_nil_r in V. rewrite V. clear.
  vm_compute. intros (_ & (_ & _ & H) & _). destruct (H eq_refl) as (a0 & c0 & E0 & a & e & b & s & c & E & O & _).
  assert (N : Forall (fun v => ~ shows_end v) c0).
  { do 11 (destruct a0 as [|? a0]; cbn [app] in E0;
      [first [discriminate E0 | injection E0 as E0; subst c0; repeat constructor; cbn; tauto]
      |first [discriminate E0 | injection E0 as _ E0]]). }
  rewrite E in N. apply Forall_app in N as [_ N]. inversion N as [|? ? N1 _]. exact (N1 O).
Qed.
Print Assumptions C60_refuted.
Example C60_ex : option_map sends (feed1 [tk "x" "A"; tk "x" "B"] (one 0 ++ [W 0 AU] ++ one 0)%list)
  = Some [tk "x" "A"; tk "x" "B"].
Proof. vm_compute. reflexivity. Qed.

(** ** C61: the data received is stored *)

(** At every moment the data stored is the data received, in order; except that the last
    answer may be about to be stored, or storing it has just raised (which ends the
    worker). *)
Theorem C61_partial f pr tasks l q :
  leads (job_thread f pr tasks) l q ->
  stored (views l) = received (views l)
  \/ exists l' x, stored l' = received l'
      /\ ((exists d, x = VData (DData d)) \/ (exists d, x = VStop (DData d)))
      /\ ((views l = l' ++ [x] /\ exists o k, q = Op o k) \/ views l = l' ++ [x; VFail])%list.
Proof.
  intros H. destruct (BA_job_thread _ _ _ _ _ H) as [[N|(l' & x & B & C & E)] D]; [left; symmetry; exact N|].
  right. exists l', x. split; [symmetry; exact B|]. split; [exact C|].
  destruct E as [[O E]|E]; [left; split; [exact E|]|right; exact E].
  destruct q as [a|e|o k]; try discriminate O. eauto.
Qed.
Print Assumptions C61_partial.
(** A worker that has ended, in whatever way but by a failed operation, has stored all. *)
Theorem C61_end_partial f pr tasks l q :
  leads (job_thread f pr tasks) l q -> ~ In VFail (views l) ->
  (exists e, q = Raise e) \/ q = Ret tt -> stored (views l) = received (views l).
Proof.
  intros H NF E. destruct (C61_partial _ _ _ _ _ H) as [A|(l' & x & B & C & [[V (o & k & O)]|V])]; [exact A| |].
  - subst q. destruct E as [[e E]|E]; discriminate E.
  - exfalso. apply NF. rewrite V. apply in_or_app. right. right. left. reflexivity.
Qed.
Print Assumptions C61_end_partial.
Example C61_ex :
  option_map (fun l => (received l, stored l))
    (feed1 [tk "x" "A"] (firstn 8 (one 0) ++ [W 0 (ASt (SState true true (Some true)));
       W 0 (AZ 9); W 0 (AD (DData [5%nat; 6%nat])); W 0 AU; W 0 (ASt (SState true false None));
       W 0 (AD (DData [7%nat]))])%list)
  = Some ([5%nat; 6%nat; 7%nat], [5%nat; 6%nat]).
Proof. vm_compute. reflexivity. Qed.

(** ** C62: the component is reset at the end *)

(** With at most one task: a worker that ends without crash and without failing operation
    has reset its component. *)
Theorem C62_partial f pr tasks l q :
  (List.length tasks <= 1)%nat -> leads (job_thread f pr tasks) l q ->
  ~ In VFail (views l) -> ~ In VCrash (views l) ->
  (exists e, q = Raise e /\ e <> OutOfFuel) \/ q = Ret tt ->
  exists s, In (VReset (BAnswer s)) (views l).
Proof.
  intros L H NF NC [(e & -> & NE)| ->].
  - destruct (worker_end _ _ _ _ _ H) as [[W|[W|W]]|(_ & t1 & t2 & r & -> & _)]; try contradiction.
    cbn in L. lia.
  - exact (proj2 (proj2 (worker_ret _ _ _ _ _ H))).
Qed.
Print Assumptions C62_partial.
(** With two tasks or more the component is never reset, whatever happens. *)
Theorem C62_never f pr tasks l q :
  (2 <= List.length tasks)%nat -> leads (job_thread f pr tasks) l q -> forall b, ~ In (VReset b) (views l).
Proof. exact (worker_never_resets f pr tasks l q). Qed.
Print Assumptions C62_never.
(** Two tasks, both sent, seen to end and their data stored; the worker has ended and the
    job is reported complete; no reset. *)
Theorem C62_refuted :
  exists s', jsteps (job_start 5 None 0 [mkWorker "x" [tk "x" "A"; tk "x" "B"] (cmp1 "c1") dev1 (Some 7)]) s'
  /\ s_main s' = Ret false
  /\ seen s' = [(false, ["A"; "B"], [1%nat; 2%nat; 1%nat; 2%nat])]
  /\ Forall (fun k => forall b, ~ In (VReset b) (views (k_events k))) (s_wk s').
Proof.
  eexists.
  split; [apply (moves_steps three_tasks); vm_compute; reflexivity|].
  split; [reflexivity|]. split; [reflexivity|].
  constructor; [|constructor]. intros b. cbn. intros H.
  repeat (destruct H as [H|H]; [discriminate H|]). exact H.
Qed.
Print Assumptions C62_refuted.
Example C62_ex :
  option_map (fun l => last l VFail) (feed1 [tk "x" "A"] (one 0 ++ [W 0 AU; W 0 (AB (BAnswer true))])%list)
  = Some (VReset (BAnswer true)).
Proof. vm_compute. reflexivity. Qed.

(** ** C63: a worker gives up *)

(** An offline answer is the last event but for the crash flag; a task not seen running is
    polled for at most ten seconds, the poll that is later being the last. *)
Theorem C63_worker f pr tasks l q :
  leads (job_thread f pr tasks) l q ->
  gives_up (views l) /\ waits None None (views l)
  /\ (q = Ret tt -> forallb (fun v => negb (offline v)) (views l) = true).
Proof.
  intros H. split; [exact (worker_gives_up _ _ _ _ _ H)|]. split; [exact (worker_waits _ _ _ _ _ H)|].
  intros E. exact (proj2 (GU_job_thread _ _ _ _ _ H) tt E).
Qed.
Print Assumptions C63_worker.
(** The job then ends with 'ce', if the flag was set before the last turn of the main loop
    began; missing: a crash in the middle of the last turn, refuted below. *)
Theorem C63_partial l fuel snap ids ts names i s' b :
  In i ids -> (exists k, nth_error l i = Some k /\ k_crashed k = true) ->
  jsteps (mkJsys l (main_loop fuel snap ids ts names)) s' -> s_main s' = Ret b -> b = true.
Proof.
  intros I1 C H E.
  assert (S : stable (fun (b : bool) (_ : list wkst) => b = true)) by (intros a l1 l2 _ K; exact K).
  pose proof (jsteps_mok _ _ _ S H (main_loop_crash snap ids i I1 fuel ts names l C)) as M.
  rewrite E in M. exact M.
Qed.
Print Assumptions C63_partial.
(** When the job ends, every worker has ended or has its crash flag set; the flag is set
    exactly by a crash. *)
Theorem C63_ended f snap ts ws s' b :
  jsteps (job_start f snap ts ws) s' -> s_main s' = Ret b ->
  Forall (fun k => (alive k = false \/ k_crashed k = true)
                   /\ (k_crashed k = true <-> In VCrash (views (k_events k)))) (s_wk s').
Proof.
  intros H E. pose proof (jobs_gone _ _ _ _ _ _ H E) as G. pose proof (jobs_kinv _ _ _ _ _ H) as K.
  apply Forall_forall. intros k I1. rewrite Forall_forall in G. split; [exact (G k I1)|].
  clear G H E. induction K as [|w k' ws' l' K1 K2 IH]; [contradiction|].
  destruct I1 as [->|I1]; [exact (ki_crash _ _ _ K1) | exact (IH I1)].
Qed.
Print Assumptions C63_ended.
(** The worker crashes between the two readings: the job is reported complete. *)
Definition crash_race : list mv :=
  ([W 0 AU; W 0 (ASt SOffline)] ++ firstn 4 turn1 ++ [W 0 AU] ++ skipn 4 turn1)%list.
Theorem C63_refuted :
  exists s', jsteps (job_start 5 None 0 [wk1]) s' /\ s_main s' = Ret false
  /\ Forall (fun k => k_crashed k = true /\ sends (views (k_events k)) = []) (s_wk s')
  /\ List.length (s_wk s') = 1%nat.
Proof.
  eexists. split; [apply (moves_steps crash_race); vm_compute; reflexivity|].
  split; [reflexivity|]. split; [|reflexivity]. constructor; [split; reflexivity | constructor].
Qed.
Print Assumptions C63_refuted.
(** The same crash before the reading: 'ce'. *)
Example C63_ex :
  option_map (fun s => (verdict s, seen s))
    (moves (job_start 5 None 0 [wk1]) ([W 0 AU; W 0 (ASt SOffline); W 0 AU] ++ turn1)%list)
  = Some (Some true, [(true, [], [])]).
Proof. vm_compute. reflexivity. Qed.
(** Eleven seconds without the task being seen: the worker crashes. *)
Example C63_ex_wait :
  option_map (fun s => (verdict s, seen s))
    (moves (job_start 5 None 0 [wk1])
       (firstn 4 (one 0) ++ [W 0 (AZ 10); W 0 (ASt (SState true false None));
          W 0 (AZ 11); W 0 (ASt (SState true false None)); W 0 AU] ++ turn1)%list)
  = Some (Some true, [(true, ["A"], [])]).
Proof. vm_compute. reflexivity. Qed.
