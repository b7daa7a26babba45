(** * SysPlay: writing down concrete executions of the whole system *)
From Coq Require Import List String ZArith Bool.
From Verif Require Import Base PyStr Types ConfigModel Prog World Replies CmdModel KetchupModel
  TomatoModel JobModel PipModel DrvModel SysModel SpecSys ExWorld.
Import ListNotations.
Open Scope string_scope.
Open Scope Z_scope.

(** One label, or thread [n] continuing to the end of its program (a manager:
    to the end of the current iteration). *)
Inductive cue : Type := At (l : label) | Finish (n : nat).

Fixpoint finish (fuel : nat) (n : nat) (s : sys) : list label * option sys :=
  match fuel with
  | O => ([], Some s)
  | S f =>
      match nth_error (s_threads s) n with
      | None => ([], Some s)
      | Some t =>
          match t_pgm t with
          | Op _ _ =>
              match step (LStep n) s with
              | None => ([LStep n], None)
              | Some s' => let (ls, x) := finish f n s' in (LStep n :: ls, x)
              end
          | _ => ([], Some s)
          end
      end
  end.

Fixpoint play (l : list cue) (s : sys) : list label * option sys :=
  match l with
  | [] => ([], Some s)
  | c :: r =>
      match (match c with At l => ([l], step l s) | Finish n => finish 400 n s end) with
      | (ls, None) => (ls, None)
      | (ls, Some s') => let (ls', x) := play r s' in ((ls ++ ls')%list, x)
      end
  end.

Lemma runs_app a : forall b s, runs (a ++ b)%list s = match runs a s with Some s' => runs b s' | None => None end.
Proof. induction a as [|l a IH]; intros b s; cbn; auto. destruct (step l s); auto. Qed.

Lemma finish_runs f n : forall s, runs (fst (finish f n s)) s = snd (finish f n s).
Proof.
  induction f as [|f IH]; intros s; cbn -[step]; auto.
  destruct (nth_error (s_threads s) n) as [t|]; auto. destruct (t_pgm t); auto.
  destruct (step (LStep n) s) as [s'|] eqn:E; cbn -[step]; [|rewrite E; reflexivity].
  specialize (IH s'). destruct (finish f n s') as [ls x]. cbn -[step] in *. rewrite E. exact IH.
Qed.

Lemma play_runs l : forall s, runs (fst (play l s)) s = snd (play l s).
Proof.
  induction l as [|c l IH]; intros s; [reflexivity|]. cbn [play].
  assert (H : let x := match c with At l => ([l], step l s) | Finish n => finish 400 n s end in
    runs (fst x) s = snd x).
  { destruct c as [lb|n]; cbn -[step finish].
    - destruct (step lb s); reflexivity.
    - apply finish_runs. }
  cbn zeta in H. destruct (match c with At _ => _ | Finish _ => _ end) as [ls [s'|]]; [|exact H].
  specialize (IH s'). destruct (play l s') as [ls' x]. cbn [fst snd] in *. rewrite runs_app, H. exact IH.
Qed.

(** An execution exists when the script can be played. *)
Definition played (l : list cue) (w : world) : sys :=
  match snd (play l (start_sys w)) with Some s => s | None => start_sys w end.
Definition plays (l : list cue) (w : world) : bool := is_some (snd (play l (start_sys w))).
Lemma plays_runs l w : plays l w = true ->
  runs (fst (play l (start_sys w))) (start_sys w) = Some (played l w).
Proof.
  unfold plays, played. intros H. rewrite play_runs. destruct (snd (play l (start_sys w))); [reflexivity|discriminate].
Qed.
Lemma plays_reachable l w : w_log w = [] -> w_spawned w = [] -> plays l w = true ->
  reachable (played l w).
Proof. intros H1 H2 H3. exists w, (fst (play l (start_sys w))). split; [exact H1|]. split; [exact H2|]. apply plays_runs, H3. Qed.

(** Example executions: the drivers of [exw_file] are registered and one job is
    submitted for a sample that is loaded in pip-1 and pip-2. *)
Definition exs_up : list cue :=
  [ At (LCmd (CmdStart 1234)); Finish 0;
    At (LDriver "example_counter" 7001 71 "2.1" true); Finish 1;
    At (LDriver "psutil" 7002 72 "2.1" true); Finish 2;
    At (LManager KJobMgr); At (LManager KPipMgr); At (LManager KDrvMgr) ].
Definition exs_load (n : nat) (pip : string) : list cue :=
  [ At (LCmd (CmdLoad 1234 pip "sample-1")); Finish n; At (LCmd (CmdReady 1234 pip)); Finish (S n) ].
Definition exs_cmd (n : nat) (c : command) : list cue := [ At (LCmd c); Finish n ].
Definition exs_submit (n : nat) : list cue :=
  exs_cmd n (CmdSubmit 1234 (PfOk (VPayload (Some (2, 2)) exw_payload None)) "/home" (Some "run")).
(** One complete iteration of the manager that is thread [n]. *)
Definition exs_pass (n : nat) : list cue := [ At (LStep n); Finish n ].
(** Threads: 3, 4, 5 are the job, pipeline and driver managers. *)
Definition exs_base : list cue := (exs_up ++ exs_load 6 "pip-1" ++ exs_submit 8)%list.
(** Job 1 was started on pip-1 as process 100 (thread 9) and executed [k] operations;
    after 3 it is recorded as running, after 6 it enters its main loop. *)
Definition exs_running (k : nat) : list cue :=
  (exs_base ++ exs_pass 3 ++ At (LJobStart 0 100) :: repeat (At (LStep 9)) k)%list.

(** Checking a condition along an execution by computation. *)
Fixpoint alongb (b : sys -> bool) (ls : list label) (s : sys) : bool :=
  match ls with
  | [] => b s
  | l :: r => b s && match step l s with Some s' => alongb b r s' | None => true end
  end.
Lemma alongb_along (b : sys -> bool) (P : sys -> Prop) : (forall s, b s = true -> P s) -> forall ls s, alongb b ls s = true -> along P ls s.
Proof.
  intros H. induction ls as [|l ls IH]; intros s Hb; cbn -[step] in *; auto.
  apply andb_prop in Hb. destruct Hb as [H1 H2]. split; [auto|]. destruct (step l s); auto.
Qed.
Definition busy (t : thread) : bool := active t && negb (process (t_kind t)).
Definition serialb (s : sys) : bool := Nat.leb (List.length (filter busy (s_threads s))) 1.
Lemma filter_two {A} (f : A -> bool) l : forall n m a b, nth_error l n = Some a -> nth_error l m = Some b ->
  f a = true -> f b = true -> n <> m -> (2 <= List.length (filter f l))%nat.
Proof.
  assert (X : forall l n a, nth_error l n = Some a -> f a = true -> (1 <= List.length (filter f l))%nat).
  { induction l0 as [|x l0 IH]; intros [|n] a H Ha; cbn in *; try discriminate.
    - inversion H. subst. rewrite Ha. cbn. apply le_n_S, Nat.le_0_l.
    - destruct (f x); cbn; [apply le_n_S, Nat.le_0_l|eauto]. }
  induction l as [|x l IH]; intros [|n] [|m] a b H1 H2 Ha Hb Hne; cbn in *; try discriminate; try congruence.
  - inversion H1. subst. rewrite Ha. cbn. apply le_n_S. eapply X; eauto.
  - inversion H2. subst. rewrite Hb. cbn. apply le_n_S. eapply X; eauto.
  - destruct (f x); cbn; [apply le_S|]; eapply (IH n m); eauto.
Qed.
Lemma serialb_serial s : serialb s = true -> serial s.
Proof.
  unfold serialb, serial. intros H n m a b Ha Hb A1 A2 P1 P2. apply Nat.leb_le in H.
  destruct (Nat.eq_dec n m) as [E|E]; [exact E|]. exfalso.
  assert (F : forall t, active t = true -> process (t_kind t) = false -> busy t = true).
  { intros t H1 H2. unfold busy. rewrite H1, H2. reflexivity. }
  pose proof (filter_two busy _ n m a b Ha Hb (F a A1 P1) (F b A2 P2) E) as X.
  apply (Nat.lt_irrefl 1). eapply Nat.lt_le_trans; [|exact H]. exact X.
Qed.

(** The same from a given state. *)
Definition on (l : list cue) (s : sys) : sys := match snd (play l s) with Some s' => s' | None => s end.
Definition goes (l : list cue) (s : sys) : bool := is_some (snd (play l s)).
Lemma goes_runs l s : goes l s = true -> runs (fst (play l s)) s = Some (on l s).
Proof. unfold goes, on. intros H. rewrite play_runs. destruct (snd (play l s)); [reflexivity|discriminate]. Qed.

(** How a thread ended. *)
Definition thread_raised (n : nat) (s : sys) : option exn :=
  match nth_error (s_threads s) n with
  | Some t => match t_pgm t with Raise e => Some e | _ => None end
  | None => None
  end.
Definition thread_reply (n : nat) (s : sys) : option reply :=
  match nth_error (s_threads s) n with
  | Some t => match t_pgm t with Ret r => r | _ => None end
  | None => None
  end.
Lemma raised_thread n s e : thread_raised n s = Some e ->
  exists t, nth_error (s_threads s) n = Some t /\ t_pgm t = Raise e.
Proof.
  unfold thread_raised. destruct (nth_error (s_threads s) n) as [t|]; [|discriminate]. intros H.
  exists t. destruct (t_pgm t); inversion H. auto.
Qed.

(** The jobs whose process has not ended, with their pipelines. *)
Definition live_jobs (s : sys) : list (Z * string) :=
  flat_map (fun t => match t_kind t with
                     | KJob _ a => if active t then [(ja_jobid a, ja_pipeline a)] else []
                     | _ => []
                     end) (s_threads s).

(** Checking by computation that no command and no manager is active. *)
Definition at_restb (s : sys) : bool := match filter busy (s_threads s) with [] => true | _ => false end.
Lemma at_restb_rest s : at_restb s = true -> at_rest s.
Proof.
  unfold at_restb, at_rest. intros H t Hin Hp. destruct (active t) eqn:E; [|reflexivity]. exfalso.
  assert (X : In t (filter busy (s_threads s))) by (apply filter_In; split; [exact Hin|unfold busy; rewrite E, Hp; reflexivity]).
  destruct (filter busy (s_threads s)); [destruct X|discriminate].
Qed.
Lemma no_active_rests k s : forallb (fun t => negb (active t)) (s_threads s) = true -> rests k s.
Proof.
  intros H t Hin _. rewrite forallb_forall in H. specialize (H t Hin). destruct (active t); [discriminate|reflexivity].
Qed.
Definition no_processb (i : Z) (s : sys) : bool :=
  forallb (fun a => negb (Z.eqb (ja_jobid a) i)) (w_spawned (s_world s)) &&
  forallb (fun t => match t_kind t with KJob _ a => negb (Z.eqb (ja_jobid a) i) || ended t | _ => true end) (s_threads s).
Lemma no_processb_ok i s : no_processb i s = true -> no_process i s.
Proof.
  unfold no_processb. intros H. apply andb_prop in H. destruct H as [H1 H2]. rewrite forallb_forall in H1, H2. split.
  - intros a Ha E. specialize (H1 a Ha). rewrite (proj2 (Z.eqb_eq _ _) E) in H1. discriminate.
  - intros t pid a Ht Ek E. specialize (H2 t Ht). rewrite Ek, (proj2 (Z.eqb_eq _ _) E) in H2. exact H2.
Qed.
Definition cancels_onlyb (i : Z) (l : label) : bool :=
  match l with
  | LCmd (CmdCancel _ ids) => negb (Z.eqb (last ids 0) i) || forallb (fun x => Z.eqb x i) ids
  | _ => true
  end.
Lemma cancels_onlyb_ok i ls : forallb (cancels_onlyb i) ls = true -> Forall (cancels_only i) ls.
Proof.
  intros H. apply Forall_forall. intros l Hl. rewrite forallb_forall in H. specialize (H l Hl).
  destruct l as [c| | | | | | | | | | | | | | |]; cbn; auto. destruct c; auto. cbn in H.
  intros E x Hx. rewrite (proj2 (Z.eqb_eq _ _) E) in H. cbn in H. rewrite forallb_forall in H.
  apply Z.eqb_eq. auto.
Qed.
